(** Primality of the moduli, by Pocklington certificates checked in the
    kernel.  Generated by a small script; the certificates are data, the proof
    is [RingPow.pocklington], the arithmetic is [FastMod]. *)
From Coq Require Import ZArith List Znumtheory.
From Coq Require Import Uint63.
From Verif Require Import ZMod RingPow Params FastMod FastParams.
Import ListNotations.
Open Scope Z_scope.
Lemma prime_13090036741 : prime 13090036741.
Proof. apply (trialI_prime _ 114411). vm_compute. reflexivity. Qed.
Lemma prime_755057 : prime 755057.
Proof. apply (trialI_prime _ 868). vm_compute. reflexivity. Qed.
Definition MP_prime_n3 : MP := mkMP 3819663927398918131021 3 [32902477%uint63; 130320476%uint63; 53008%uint63] 180882555%uint63 [262583181%uint63; 135970543%uint63; 17839%uint63] 3427443964279039548559 [1300452160%uint63; 1092753155%uint63; 3392539%uint63].
Lemma MP_prime_n3_ok : mp_ok MP_prime_n3 = true. Proof. vm_cast_no_check (eq_refl true). Qed.
Lemma prime_n3_pk0 : pock_check 3819663927398918131021 13090036741 2 = true.
Proof. apply (pock_fast_ok MP_prime_n3 _ _ 291799328220 493108134941997590084 MP_prime_n3_ok). vm_cast_no_check (eq_refl true). Qed.
Lemma prime_n3_pk1 : pock_check 3819663927398918131021 755057 2 = true.
Proof. apply (pock_fast_ok MP_prime_n3 _ _ 5058775598926860 1757223884106591266314 MP_prime_n3_ok). vm_cast_no_check (eq_refl true). Qed.
Lemma prime_n3 : prime 3819663927398918131021.
Proof.
  apply (pocklington _ [(13090036741, 2); (755057, 2)]).
  - reflexivity.
  - cbn [map fst]. repeat constructor; cbn [In]; intuition discriminate.
  - cbn [In]; intros q a H.
    destruct H as [H|H]; [injection H as <- <-; exact (conj prime_13090036741 prime_n3_pk0)|].
    destruct H as [H|H]; [injection H as <- <-; exact (conj prime_755057 prime_n3_pk1)|].
    destruct H.
  - reflexivity.
  - reflexivity.
Qed.
Definition MP_prime_n2 : MP := mkMP 1125266252156850182658904441386709967 5 [236991439%uint63; 1220261%uint63; 5922913%uint63; 192843238%uint63; 216%uint63] 3673297%uint63 [54153486%uint63; 209640861%uint63; 90474646%uint63; 147661496%uint63; 54%uint63] 54610853472339248802761416711197251 [1291042816%uint63; 1202288764%uint63; 1209548870%uint63; 1132036453%uint63; 3550710%uint63].
Lemma MP_prime_n2_ok : mp_ok MP_prime_n2 = true. Proof. vm_cast_no_check (eq_refl true). Qed.
Lemma prime_n2_pk0 : pock_check 1125266252156850182658904441386709967 3819663927398918131021 2 = true.
Proof. apply (pock_fast_ok MP_prime_n2 _ _ 294598235223046 363966040104148855705611644974454555 MP_prime_n2_ok). vm_cast_no_check (eq_refl true). Qed.
Lemma prime_n2 : prime 1125266252156850182658904441386709967.
Proof.
  apply (pocklington _ [(3819663927398918131021, 2)]).
  - reflexivity.
  - cbn [map fst]. repeat constructor; cbn [In]; intuition discriminate.
  - cbn [In]; intros q a H.
    destruct H as [H|H]; [injection H as <- <-; exact (conj prime_n3 prime_n2_pk0)|].
    destruct H.
  - reflexivity.
  - reflexivity.
Qed.
Definition MP_prime_n1 : MP := mkMP 15778400344354997994418419698270088123916926905054652752758194827714659 9 [99115107%uint63; 184646570%uint63; 90281459%uint63; 202075837%uint63; 27896241%uint63; 111186309%uint63; 2427446%uint63; 68020485%uint63; 585%uint63] 197844661%uint63 [185013266%uint63; 140571886%uint63; 120896670%uint63; 124134339%uint63; 55510205%uint63; 194570072%uint63; 248135589%uint63; 109538983%uint63; 270%uint63] 1246906283623561487396592889171125926327670025862277447164265259684143 [1174810624%uint63; 1203414500%uint63; 1230977789%uint63; 1189860701%uint63; 1251679239%uint63; 1226330533%uint63; 1084450460%uint63; 1318080545%uint63; 2397193%uint63].
Lemma MP_prime_n1_ok : mp_ok MP_prime_n1 = true. Proof. vm_cast_no_check (eq_refl true). Qed.
Lemma prime_n1_pk0 : pock_check 15778400344354997994418419698270088123916926905054652752758194827714659 1125266252156850182658904441386709967 2 = true.
Proof. apply (pock_fast_ok MP_prime_n1 _ _ 14021926201120671579994175730661374 8254959361366692087094521958599552736149856986728481575631050697403242 MP_prime_n1_ok). vm_cast_no_check (eq_refl true). Qed.
Lemma prime_n1 : prime 15778400344354997994418419698270088123916926905054652752758194827714659.
Proof.
  apply (pocklington _ [(1125266252156850182658904441386709967, 2)]).
  - reflexivity.
  - cbn [map fst]. repeat constructor; cbn [In]; intuition discriminate.
  - cbn [In]; intros q a H.
    destruct H as [H|H]; [injection H as <- <-; exact (conj prime_n2 prime_n1_pk0)|].
    destruct H.
  - reflexivity.
  - reflexivity.
Qed.
Lemma prime_n0_pk0 : pock_check 4002409555221667393417789825735904156556882819939007885332058136124031650490837864442687629129015664037894272559787 15778400344354997994418419698270088123916926905054652752758194827714659 2 = true.
Proof. apply (pock_fast_ok MPp _ _ 253663835868735594330404923636534084567099854 2187498333999863193215640476378758310847690922566267545269384146546613166935166697200060931464500123887301765890575 MPp_ok). vm_cast_no_check (eq_refl true). Qed.
Lemma prime_n0 : prime 4002409555221667393417789825735904156556882819939007885332058136124031650490837864442687629129015664037894272559787.
Proof.
  apply (pocklington _ [(15778400344354997994418419698270088123916926905054652752758194827714659, 2)]).
  - reflexivity.
  - cbn [map fst]. repeat constructor; cbn [In]; intuition discriminate.
  - cbn [In]; intros q a H.
    destruct H as [H|H]; [injection H as <- <-; exact (conj prime_n1 prime_n0_pk0)|].
    destruct H.
  - reflexivity.
  - reflexivity.
Qed.
Lemma prime_639533339 : prime 639533339.
Proof. apply (trialI_prime _ 25288). vm_compute. reflexivity. Qed.
Definition MP_prime_n8 : MP := mkMP 65865678001877903 3 [70333327%uint63; 245368771%uint63; 0%uint63] 141259921%uint63 [172973198%uint63; 61904809%uint63; 0%uint63] 16581036427801768 [1136656384%uint63; 1087423690%uint63; 3833883%uint63].
Lemma MP_prime_n8_ok : mp_ok MP_prime_n8 = true. Proof. vm_cast_no_check (eq_refl true). Qed.
Lemma prime_n8_pk0 : pock_check 65865678001877903 639533339 2 = true.
Proof. apply (pock_fast_ok MP_prime_n8 _ _ 102990218 39033286818209505 MP_prime_n8_ok). vm_cast_no_check (eq_refl true). Qed.
Lemma prime_n8 : prime 65865678001877903.
Proof.
  apply (pocklington _ [(639533339, 2)]).
  - reflexivity.
  - cbn [map fst]. repeat constructor; cbn [In]; intuition discriminate.
  - cbn [In]; intros q a H.
    destruct H as [H|H]; [injection H as <- <-; exact (conj prime_639533339 prime_n8_pk0)|].
    destruct H.
  - reflexivity.
  - reflexivity.
Qed.
Definition MP_prime_n7 : MP := mkMP 13818364434197438864469338081 4 [43329505%uint63; 226057863%uint63; 105413884%uint63; 714%uint63] 91136991%uint63 [109226584%uint63; 196264536%uint63; 218644316%uint63; 263%uint63] 4136542107710966031663125072 [1115557888%uint63; 1172861585%uint63; 1204800885%uint63; 2926148%uint63].
Lemma MP_prime_n7_ok : mp_ok MP_prime_n7 = true. Proof. vm_cast_no_check (eq_refl true). Qed.
Lemma prime_n7_pk0 : pock_check 13818364434197438864469338081 65865678001877903 2 = true.
Proof. apply (pock_fast_ok MP_prime_n7 _ _ 209796131360 12281824895882260584345986666 MP_prime_n7_ok). vm_cast_no_check (eq_refl true). Qed.
Lemma prime_n7 : prime 13818364434197438864469338081.
Proof.
  apply (pocklington _ [(65865678001877903, 2)]).
  - reflexivity.
  - cbn [map fst]. repeat constructor; cbn [In]; intuition discriminate.
  - cbn [In]; intros q a H.
    destruct H as [H|H]; [injection H as <- <-; exact (conj prime_n8 prime_n7_pk0)|].
    destruct H.
  - reflexivity.
  - reflexivity.
Qed.
Lemma prime_12048837557 : prime 12048837557.
Proof. apply (trialI_prime _ 109767). vm_compute. reflexivity. Qed.
Definition MP_prime_n11 : MP := mkMP 5156902474397 2 [257364637%uint63; 19210%uint63] 107478091%uint63 [70284101%uint63; 16900%uint63] 405359767151 [1267289728%uint63; 2458998%uint63].
Lemma MP_prime_n11_ok : mp_ok MP_prime_n11 = true. Proof. vm_cast_no_check (eq_refl true). Qed.
Lemma prime_n11_pk0 : pock_check 5156902474397 12048837557 2 = true.
Proof. apply (pock_fast_ok MP_prime_n11 _ _ 428 5089286551700 MP_prime_n11_ok). vm_cast_no_check (eq_refl true). Qed.
Lemma prime_n11 : prime 5156902474397.
Proof.
  apply (pocklington _ [(12048837557, 2)]).
  - reflexivity.
  - cbn [map fst]. repeat constructor; cbn [In]; intuition discriminate.
  - cbn [In]; intros q a H.
    destruct H as [H|H]; [injection H as <- <-; exact (conj prime_12048837557 prime_n11_pk0)|].
    destruct H.
  - reflexivity.
  - reflexivity.
Qed.
Definition MP_prime_n10 : MP := mkMP 1670836401704629 3 [171151029%uint63; 6224350%uint63; 0%uint63] 182620259%uint63 [1454115%uint63; 4390723%uint63; 0%uint63] 455917343612101 [1207959552%uint63; 1159317334%uint63; 3112171%uint63].
Lemma MP_prime_n10_ok : mp_ok MP_prime_n10 = true. Proof. vm_cast_no_check (eq_refl true). Qed.
Lemma prime_n10_pk0 : pock_check 1670836401704629 5156902474397 2 = true.
Proof. apply (pock_fast_ok MP_prime_n10 _ _ 324 735766788910399 MP_prime_n10_ok). vm_cast_no_check (eq_refl true). Qed.
Lemma prime_n10 : prime 1670836401704629.
Proof.
  apply (pocklington _ [(5156902474397, 2)]).
  - reflexivity.
  - cbn [map fst]. repeat constructor; cbn [In]; intuition discriminate.
  - cbn [In]; intros q a H.
    destruct H as [H|H]; [injection H as <- <-; exact (conj prime_n11 prime_n10_pk0)|].
    destruct H.
  - reflexivity.
  - reflexivity.
Qed.
Lemma prime_n6_pk0 : pock_check 21888242871839275222246405745257275088548364400416034343698204186575808495617 13818364434197438864469338081 2 = true.
Proof. apply (pock_fast_ok MPr _ _ 1583996642733683218748855262055434666238317428736 18830771696733986827343121108258373716716634563029220880262390084180817631389 MPr_ok). vm_cast_no_check (eq_refl true). Qed.
Lemma prime_n6_pk1 : pock_check 21888242871839275222246405745257275088548364400416034343698204186575808495617 1670836401704629 2 = true.
Proof. apply (pock_fast_ok MPr _ _ 13100171177446423556613374118717413492986637444144570673659904 86052601511993865195709936845511121156384965108811623497653747272590813794 MPr_ok). vm_cast_no_check (eq_refl true). Qed.
Lemma prime_n6 : prime 21888242871839275222246405745257275088548364400416034343698204186575808495617.
Proof.
  apply (pocklington _ [(13818364434197438864469338081, 2); (1670836401704629, 2)]).
  - reflexivity.
  - cbn [map fst]. repeat constructor; cbn [In]; intuition discriminate.
  - cbn [In]; intros q a H.
    destruct H as [H|H]; [injection H as <- <-; exact (conj prime_n7 prime_n6_pk0)|].
    destruct H as [H|H]; [injection H as <- <-; exact (conj prime_n10 prime_n6_pk1)|].
    destruct H.
  - reflexivity.
  - reflexivity.
Qed.
Lemma prime_254760293 : prime 254760293.
Proof. apply (trialI_prime _ 15961). vm_compute. reflexivity. Qed.
Lemma prime_52437899 : prime 52437899.
Proof. apply (trialI_prime _ 7241). vm_compute. reflexivity. Qed.
Lemma prime_2529403 : prime 2529403.
Proof. apply (trialI_prime _ 1590). vm_compute. reflexivity. Qed.
Lemma prime_2508409 : prime 2508409.
Proof. apply (trialI_prime _ 1583). vm_compute. reflexivity. Qed.
Lemma prime_906349 : prime 906349.
Proof. apply (trialI_prime _ 952). vm_compute. reflexivity. Qed.
Lemma prime_859267 : prime 859267.
Proof. apply (trialI_prime _ 926). vm_compute. reflexivity. Qed.
Definition MP_prime_n13 : MP := mkMP 52435875175126190479447740508185965837690552500527637822603658699938581184513 10 [1%uint63; 268435440%uint63; 240910079%uint63; 171978751%uint63; 134566845%uint63; 8428061%uint63; 137574872%uint63; 43636692%uint63; 65906515%uint63; 7%uint63] 268435455%uint63 [204585897%uint63; 62080014%uint63; 235167664%uint63; 143824471%uint63; 92040730%uint63; 47597007%uint63; 1240309%uint63; 245801413%uint63; 209427730%uint63; 3%uint63] 28317221591935776371992407060431155255531367567575973122471220049018399468031 [1074266112%uint63; 1333788668%uint63; 1207959547%uint63; 1342123515%uint63; 1307385875%uint63; 1089208997%uint63; 1321222217%uint63; 1319377304%uint63; 1251560679%uint63; 3798735%uint63].
Lemma MP_prime_n13_ok : mp_ok MP_prime_n13 = true. Proof. vm_cast_no_check (eq_refl true). Qed.
Lemma prime_n13_pk0 : pock_check 52435875175126190479447740508185965837690552500527637822603658699938581184513 254760293 2 = true.
Proof. apply (pock_fast_ok MP_prime_n13 _ _ 205824363591567193241718168805002771125288949563767528806397073424384 21008241824338290986197080736683926949006556971416270778403388042974795796113 MP_prime_n13_ok). vm_cast_no_check (eq_refl true). Qed.
Lemma prime_n13_pk1 : pock_check 52435875175126190479447740508185965837690552500527637822603658699938581184513 52437899 2 = true.
Proof. apply (pock_fast_ok MP_prime_n13 _ _ 999961405302035279473110478895921551656570994587857873989262207090688 27027965184403186570400456991458595633394892993593252060385453745473546914626 MP_prime_n13_ok). vm_cast_no_check (eq_refl true). Qed.
Lemma prime_n13_pk2 : pock_check 52435875175126190479447740508185965837690552500527637822603658699938581184513 2529403 2 = true.
Proof. apply (pock_fast_ok MP_prime_n13 _ _ 20730534112249487519168649878325425342537568153642435714120548880482304 15945380698461257637451219308760671980468905831393076519767896596644826894057 MP_prime_n13_ok). vm_cast_no_check (eq_refl true). Qed.
Lemma prime_n13_pk3 : pock_check 52435875175126190479447740508185965837690552500527637822603658699938581184513 2508409 2 = true.
Proof. apply (pock_fast_ok MP_prime_n13 _ _ 20904037250355181503274681484632675866531555460264908084209416686010368 48472240096012237144731384553576740801770162290142878764820801249230352259478 MP_prime_n13_ok). vm_cast_no_check (eq_refl true). Qed.
Lemma prime_n13_pk4 : pock_check 52435875175126190479447740508185965837690552500527637822603658699938581184513 906349 2 = true.
Proof. apply (pock_fast_ok MP_prime_n13 _ _ 57853956009358636109763171259841369977448590444219211167666824479244288 26341297231206394725939292351002686488477935223539131591963421836754874985217 MP_prime_n13_ok). vm_cast_no_check (eq_refl true). Qed.
Lemma prime_n13_pk5 : pock_check 52435875175126190479447740508185965837690552500527637822603658699938581184513 859267 2 = true.
Proof. apply (pock_fast_ok MP_prime_n13 _ _ 61023960160376449321861238134579782346686830170980193377150127608692736 36543086108187782760567166032983152623225451234404449745442370186436280095869 MP_prime_n13_ok). vm_cast_no_check (eq_refl true). Qed.
Lemma prime_n13 : prime 52435875175126190479447740508185965837690552500527637822603658699938581184513.
Proof.
  apply (pocklington _ [(254760293, 2); (52437899, 2); (2529403, 2); (2508409, 2); (906349, 2); (859267, 2)]).
  - reflexivity.
  - cbn [map fst]. repeat constructor; cbn [In]; intuition discriminate.
  - cbn [In]; intros q a H.
    destruct H as [H|H]; [injection H as <- <-; exact (conj prime_254760293 prime_n13_pk0)|].
    destruct H as [H|H]; [injection H as <- <-; exact (conj prime_52437899 prime_n13_pk1)|].
    destruct H as [H|H]; [injection H as <- <-; exact (conj prime_2529403 prime_n13_pk2)|].
    destruct H as [H|H]; [injection H as <- <-; exact (conj prime_2508409 prime_n13_pk3)|].
    destruct H as [H|H]; [injection H as <- <-; exact (conj prime_906349 prime_n13_pk4)|].
    destruct H as [H|H]; [injection H as <- <-; exact (conj prime_859267 prime_n13_pk5)|].
    destruct H.
  - reflexivity.
  - reflexivity.
Qed.

Theorem pBLS_prime : prime pBLS.
Proof. exact prime_n0. Qed.
Theorem rBN_prime : prime rBN.
Proof. exact prime_n6. Qed.
Theorem rBLS_prime : prime rBLS.
Proof. exact prime_n13. Qed.
