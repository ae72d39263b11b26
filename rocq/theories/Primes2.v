(** Primality of the large factor of the order of the twist, by Pocklington
    certificates; same format as Primes.v. *)
From Coq Require Import ZArith List Znumtheory.
From Coq Require Import Uint63.
From Verif Require Import ZMod RingPow Params FastMod.
Import ListNotations.
Open Scope Z_scope.
Lemma primeM_1367711 : prime 1367711.
Proof. apply (trialI_prime _ 1169). vm_compute. reflexivity. Qed.
Lemma primeM_541 : prime 541.
Proof. apply (trialI_prime _ 23). vm_compute. reflexivity. Qed.
Definition MP_prime_m8 : MP := mkMP 12192593745179 2 [255333659%uint63; 45420%uint63] 178438893%uint63 [73512927%uint63; 10975%uint63] 4780301330876 [1308968640%uint63; 2906936%uint63].
Lemma MP_prime_m8_ok : mp_ok MP_prime_m8 = true. Proof. vm_cast_no_check (eq_refl true). Qed.
Lemma prime_m8_pk0 : pock_check 12192593745179 1367711 2 = true.
Proof. apply (pock_fast_ok MP_prime_m8 _ _ 8914598 8192456486458 MP_prime_m8_ok). vm_cast_no_check (eq_refl true). Qed.
Lemma prime_m8_pk1 : pock_check 12192593745179 541 2 = true.
Proof. apply (pock_fast_ok MP_prime_m8 _ _ 22537141858 9009397696044 MP_prime_m8_ok). vm_cast_no_check (eq_refl true). Qed.
Lemma prime_m8 : prime 12192593745179.
Proof.
  apply (pocklington _ [(1367711, 2); (541, 2)]).
  - reflexivity.
  - cbn [map fst]. repeat constructor; cbn [In]; intuition discriminate.
  - cbn [In]; intros q a H.
    destruct H as [H|H]; [injection H as <- <-; exact (conj primeM_1367711 prime_m8_pk0)|].
    destruct H as [H|H]; [injection H as <- <-; exact (conj primeM_541 prime_m8_pk1)|].
    destruct H.
  - reflexivity.
  - reflexivity.
Qed.
Definition MP_prime_m7 : MP := mkMP 512088937297519 3 [255030895%uint63; 1907679%uint63; 0%uint63] 481137%uint63 [38540098%uint63; 1306374%uint63; 0%uint63] 304541297774044 [1073741824%uint63; 1315368154%uint63; 3815355%uint63].
Lemma MP_prime_m7_ok : mp_ok MP_prime_m7 = true. Proof. vm_cast_no_check (eq_refl true). Qed.
Lemma prime_m7_pk0 : pock_check 512088937297519 12192593745179 2 = true.
Proof. apply (pock_fast_ok MP_prime_m7 _ _ 42 194591274223640 MP_prime_m7_ok). vm_cast_no_check (eq_refl true). Qed.
Lemma prime_m7 : prime 512088937297519.
Proof.
  apply (pocklington _ [(12192593745179, 2)]).
  - reflexivity.
  - cbn [map fst]. repeat constructor; cbn [In]; intuition discriminate.
  - cbn [In]; intros q a H.
    destruct H as [H|H]; [injection H as <- <-; exact (conj prime_m8 prime_m7_pk0)|].
    destruct H.
  - reflexivity.
  - reflexivity.
Qed.
Definition MP_prime_m6 : MP := mkMP 1857858664515398933 3 [223505685%uint63; 210176458%uint63; 25%uint63] 169838019%uint63 [25719347%uint63; 201718211%uint63; 7%uint63] 843126191973313917 [1244266496%uint63; 1133881929%uint63; 3379421%uint63].
Lemma MP_prime_m6_ok : mp_ok MP_prime_m6 = true. Proof. vm_cast_no_check (eq_refl true). Qed.
Lemma prime_m6_pk0 : pock_check 1857858664515398933 512088937297519 2 = true.
Proof. apply (pock_fast_ok MP_prime_m6 _ _ 3628 1236402836366665646 MP_prime_m6_ok). vm_cast_no_check (eq_refl true). Qed.
Lemma prime_m6 : prime 1857858664515398933.
Proof.
  apply (pocklington _ [(512088937297519, 2)]).
  - reflexivity.
  - cbn [map fst]. repeat constructor; cbn [In]; intuition discriminate.
  - cbn [In]; intros q a H.
    destruct H as [H|H]; [injection H as <- <-; exact (conj prime_m7 prime_m6_pk0)|].
    destruct H.
  - reflexivity.
  - reflexivity.
Qed.
Definition MP_prime_m5 : MP := mkMP 22294303974184787197 3 [266149117%uint63; 106198401%uint63; 309%uint63] 57089963%uint63 [38038477%uint63; 103552026%uint63; 118%uint63] 13057279889408103236 [1134534656%uint63; 1320173494%uint63; 2534564%uint63].
Lemma MP_prime_m5_ok : mp_ok MP_prime_m5 = true. Proof. vm_cast_no_check (eq_refl true). Qed.
Lemma prime_m5_pk0 : pock_check 22294303974184787197 1857858664515398933 2 = true.
Proof. apply (pock_fast_ok MP_prime_m5 _ _ 12 7523987324132692529 MP_prime_m5_ok). vm_cast_no_check (eq_refl true). Qed.
Lemma prime_m5 : prime 22294303974184787197.
Proof.
  apply (pocklington _ [(1857858664515398933, 2)]).
  - reflexivity.
  - cbn [map fst]. repeat constructor; cbn [In]; intuition discriminate.
  - cbn [In]; intros q a H.
    destruct H as [H|H]; [injection H as <- <-; exact (conj prime_m6 prime_m5_pk0)|].
    destruct H.
  - reflexivity.
  - reflexivity.
Qed.
Definition MP_prime_m4 : MP := mkMP 19931107752921199754119 4 [103496583%uint63; 183655412%uint63; 276599%uint63; 0%uint63] 39740873%uint63 [63472211%uint63; 205745056%uint63; 44808%uint63; 0%uint63] 15681481991099107986585 [1073741824%uint63; 1096408116%uint63; 1200807839%uint63; 2212793%uint63].
Lemma MP_prime_m4_ok : mp_ok MP_prime_m4 = true. Proof. vm_cast_no_check (eq_refl true). Qed.
Lemma prime_m4_pk0 : pock_check 19931107752921199754119 22294303974184787197 2 = true.
Proof. apply (pock_fast_ok MP_prime_m4 _ _ 894 9302164181215546643137 MP_prime_m4_ok). vm_cast_no_check (eq_refl true). Qed.
Lemma prime_m4 : prime 19931107752921199754119.
Proof.
  apply (pocklington _ [(22294303974184787197, 2)]).
  - reflexivity.
  - cbn [map fst]. repeat constructor; cbn [In]; intuition discriminate.
  - cbn [In]; intros q a H.
    destruct H as [H|H]; [injection H as <- <-; exact (conj prime_m5 prime_m4_pk0)|].
    destruct H.
  - reflexivity.
  - reflexivity.
Qed.
Definition MP_prime_m3 : MP := mkMP 81162125843606155545104998607900118769099783 6 [134112263%uint63; 107985770%uint63; 229467490%uint63; 62444554%uint63; 62000403%uint63; 58%uint63] 113522249%uint63 [69371341%uint63; 259567062%uint63; 174440264%uint63; 250914296%uint63; 191158440%uint63; 35%uint63] 7529431777198160002789794747748686464050845 [1141309440%uint63; 1265270754%uint63; 1164076791%uint63; 1141562066%uint63; 1293106057%uint63; 3816220%uint63].
Lemma MP_prime_m3_ok : mp_ok MP_prime_m3 = true. Proof. vm_cast_no_check (eq_refl true). Qed.
Lemma prime_m3_pk0 : pock_check 81162125843606155545104998607900118769099783 19931107752921199754119 2 = true.
Proof. apply (pock_fast_ok MP_prime_m3 _ _ 4072133212551150901578 17761861072643055516775716555374632761099671 MP_prime_m3_ok). vm_cast_no_check (eq_refl true). Qed.
Lemma prime_m3 : prime 81162125843606155545104998607900118769099783.
Proof.
  apply (pocklington _ [(19931107752921199754119, 2)]).
  - reflexivity.
  - cbn [map fst]. repeat constructor; cbn [In]; intuition discriminate.
  - cbn [In]; intros q a H.
    destruct H as [H|H]; [injection H as <- <-; exact (conj prime_m4 prime_m3_pk0)|].
    destruct H.
  - reflexivity.
  - reflexivity.
Qed.
Definition MP_prime_m2 : MP := mkMP 26935696298915610574513298451669528361624243820491956655650666425177 9 [245607257%uint63; 256081529%uint63; 168575069%uint63; 160269423%uint63; 41546911%uint63; 36557084%uint63; 91474065%uint63; 268193999%uint63; 0%uint63] 129241879%uint63 [122503303%uint63; 267332096%uint63; 252866960%uint63; 225852483%uint63; 58354169%uint63; 161145088%uint63; 234624533%uint63; 96814503%uint63; 0%uint63] 20026922397111458645239674855964264057419816264481682065864206867629 [1178599424%uint63; 1316654761%uint63; 1199377909%uint63; 1273508093%uint63; 1206269453%uint63; 1191831502%uint63; 1145616192%uint63; 1138085662%uint63; 4190527%uint63].
Lemma MP_prime_m2_ok : mp_ok MP_prime_m2 = true. Proof. vm_cast_no_check (eq_refl true). Qed.
Lemma prime_m2_pk0 : pock_check 26935696298915610574513298451669528361624243820491956655650666425177 81162125843606155545104998607900118769099783 2 = true.
Proof. apply (pock_fast_ok MP_prime_m2 _ _ 331875194481953911837672 343018900097218335727188288694046116764152099260135964239395187015 MP_prime_m2_ok). vm_cast_no_check (eq_refl true). Qed.
Lemma prime_m2 : prime 26935696298915610574513298451669528361624243820491956655650666425177.
Proof.
  apply (pocklington _ [(81162125843606155545104998607900118769099783, 2)]).
  - reflexivity.
  - cbn [map fst]. repeat constructor; cbn [In]; intuition discriminate.
  - cbn [In]; intros q a H.
    destruct H as [H|H]; [injection H as <- <-; exact (conj prime_m3 prime_m2_pk0)|].
    destruct H.
  - reflexivity.
  - reflexivity.
Qed.
Definition MP_prime_m1 : MP := mkMP 4638704574076146691498289350639807119782054683906549022985642612861209609656189848749536921852444848596916990932297 14 [162297161%uint63; 195613709%uint63; 62792282%uint63; 232462006%uint63; 188049832%uint63; 8906637%uint63; 212671704%uint63; 219029355%uint63; 147960861%uint63; 160823306%uint63; 44609521%uint63; 220441546%uint63; 96948951%uint63; 123446%uint63] 198275847%uint63 [219088333%uint63; 192372477%uint63; 144143160%uint63; 253182776%uint63; 7383480%uint63; 166838371%uint63; 246965745%uint63; 267438041%uint63; 242024097%uint63; 234118284%uint63; 79405610%uint63; 211970662%uint63; 238557580%uint63; 40388%uint63] 3748758570855385131223181448819430085637947567663978072658565447227925783186343161832428433684579518928658505372755 [1166977312%uint63; 1159365039%uint63; 1204046675%uint63; 1264768707%uint63; 1185756439%uint63; 1090318770%uint63; 1168349949%uint63; 1103359349%uint63; 1245086646%uint63; 1119813965%uint63; 1159069231%uint63; 1148549441%uint63; 1223318262%uint63; 3950279%uint63].
Lemma MP_prime_m1_ok : mp_ok MP_prime_m1 = true. Proof. vm_cast_no_check (eq_refl true). Qed.
Lemma prime_m1_pk0 : pock_check 4638704574076146691498289350639807119782054683906549022985642612861209609656189848749536921852444848596916990932297 26935696298915610574513298451669528361624243820491956655650666425177 2 = true.
Proof. apply (pock_fast_ok MP_prime_m1 _ _ 172214021222941014338396330402661971150362189448 301179848101838158637429221577536891252586276265428575942064732005081606677345289555941200827058757267344231180072 MP_prime_m1_ok). vm_cast_no_check (eq_refl true). Qed.
Lemma prime_m1 : prime 4638704574076146691498289350639807119782054683906549022985642612861209609656189848749536921852444848596916990932297.
Proof.
  apply (pocklington _ [(26935696298915610574513298451669528361624243820491956655650666425177, 2)]).
  - reflexivity.
  - cbn [map fst]. repeat constructor; cbn [In]; intuition discriminate.
  - cbn [In]; intros q a H.
    destruct H as [H|H]; [injection H as <- <-; exact (conj prime_m2 prime_m1_pk0)|].
    destruct H.
  - reflexivity.
  - reflexivity.
Qed.
Definition MP_prime_m0 : MP := mkMP 402096035359507321594726366720466575392706800671181159425656785868777272553337714697862511267018014931937703598282857976535744623203249 17 [12637105%uint63; 114390816%uint63; 114127746%uint63; 121130242%uint63; 46364632%uint63; 228970274%uint63; 184203712%uint63; 146364536%uint63; 165108665%uint63; 169798442%uint63; 151804668%uint63; 81178116%uint63; 41454570%uint63; 96740183%uint63; 233761629%uint63; 148501763%uint63; 0%uint63] 117992111%uint63 [161182026%uint63; 117808013%uint63; 23404733%uint63; 126402731%uint63; 139419529%uint63; 142263290%uint63; 255247420%uint63; 266066637%uint63; 233384369%uint63; 231084370%uint63; 81423539%uint63; 192577383%uint63; 30061763%uint63; 32471400%uint63; 258480044%uint63; 93319464%uint63; 0%uint63] 159434506332687235846608993159318192061771059424928362067276060732670244801015078553147387797488789490426868053977071697935615031394127 [1279262720%uint63; 1208157002%uint63; 1083917784%uint63; 1083913674%uint63; 1176297776%uint63; 1217072603%uint63; 1077319480%uint63; 1311501027%uint63; 1315104093%uint63; 1252482410%uint63; 1328053160%uint63; 1092890983%uint63; 1251170996%uint63; 1170858539%uint63; 1196888201%uint63; 1089977257%uint63; 2320336%uint63].
Lemma MP_prime_m0_ok : mp_ok MP_prime_m0 = true. Proof. vm_cast_no_check (eq_refl true). Qed.
Lemma prime_m0_pk0 : pock_check 402096035359507321594726366720466575392706800671181159425656785868777272553337714697862511267018014931937703598282857976535744623203249 4638704574076146691498289350639807119782054683906549022985642612861209609656189848749536921852444848596916990932297 2 = true.
Proof. apply (pock_fast_ok MP_prime_m0 _ _ 86682828996409959984 319784230445419903509767207952060705769347233125295332290745112750552601258167418384123844594125382842167442337474935395548518455133488 MP_prime_m0_ok). vm_cast_no_check (eq_refl true). Qed.
Lemma prime_m0 : prime 402096035359507321594726366720466575392706800671181159425656785868777272553337714697862511267018014931937703598282857976535744623203249.
Proof.
  apply (pocklington _ [(4638704574076146691498289350639807119782054683906549022985642612861209609656189848749536921852444848596916990932297, 2)]).
  - reflexivity.
  - cbn [map fst]. repeat constructor; cbn [In]; intuition discriminate.
  - cbn [In]; intros q a H.
    destruct H as [H|H]; [injection H as <- <-; exact (conj prime_m1 prime_m0_pk0)|].
    destruct H.
  - reflexivity.
  - reflexivity.
Qed.

(** the largest prime factor of the number of points of the twist *)
Definition qTW : Z := 402096035359507321594726366720466575392706800671181159425656785868777272553337714697862511267018014931937703598282857976535744623203249.
Theorem qTW_prime : prime qTW.
Proof. exact prime_m0. Qed.
