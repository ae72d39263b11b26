(** Final exponentiation: exact characterisation of what the circuit accepts. *)
From Coq Require Import ZArith List Bool Lia Ring Field Znumtheory.
From Verif Require Import Params ZMod RingPow ZPow Primes Circuit Api Emulated Tower FieldFacts ApiFacts TowerFacts
  Frobenius TowerProofs TorusFacts CycloFacts Pairing.
Import ListNotations.
Open Scope Z_scope.

(** |x| for BLS12-381; the curve parameter is negative *)
Definition xabs : Z := 15132376222941642752.
Definition xbls : Z := - xabs.

(** ** soundness: tracking exponents *)
Section Track.
Context (g : E12) (g0 : g <> E12_Zero).
Definition T (y : E6) (k : Z) : Prop := tval y = z12 g k.
Lemma T_eq y a b : a = b -> T y a -> T y b. Proof. now intros ->. Qed.
Lemma T_mul y1 y2 y3 a b : T y1 a -> T y2 b -> sat (MulTorus y1 y2) y3 -> T y3 (a + b).
Proof. intros H1 H2 S. apply sat_MulTorus in S. unfold T in *. rewrite S, H1, H2. now rewrite zpow_addE12. Qed.
Lemma T_sq y1 y3 a : T y1 a -> sat (SquareTorus y1) y3 -> T y3 (2 * a).
Proof.
  intros H1 S. apply sat_SquareTorus in S. unfold T in *. rewrite S, H1, <- zpow_addE12 by exact g0. f_equal. ring.
Qed.
Lemma T_inv y a : T y a -> T (InverseTorus y) (- a).
Proof.
  unfold T, InverseTorus. intros H. apply (e12cancel (tval y)); [apply tval_neq0|].
  rewrite tval_neg, H, zpow_oppE12 by exact g0. reflexivity.
Qed.
Lemma T_frob y a : T y a -> T (FrobeniusTorus y) (a * pBLS).
Proof.
  unfold T. intros H. rewrite FrobeniusTorus_val, H, <- z12_p. symmetry.
  apply zpow_mulE12, g0.
Qed.
Lemma T_frobsq y a : T y a -> T (FrobeniusSquareTorus y) (a * (pBLS * pBLS)).
Proof.
  unfold T. intros H. rewrite FrobeniusSquareTorus_val, H, e12pow_p2, <- z12_p2. symmetry.
  apply zpow_mulE12, g0.
Qed.
Lemma T_nsq n : forall y z a, T y a -> sat (nSquareTorus y n) z -> T z (2 ^ Z.of_nat n * a).
Proof.
  induction n as [|n IH]; intros y z a H S; cbn [nSquareTorus] in S.
  - apply sat_ret_inv in S. subst z. eapply T_eq; [|exact H]. cbn [Z.of_nat]. ring.
  - apply sat_bind in S. destruct S as (w & S1 & S2).
    eapply T_eq; [|eapply IH; [|exact S2]; eapply T_sq; eassumption].
    rewrite Nat2Z.inj_succ, Z.pow_succ_r by lia. ring.
Qed.
Definition xhalf : Z := 7566188111470821376.
Lemma T_half y z a : T y a -> sat (ExptHalfTorus y) z -> T z (- xhalf * a).
Proof.
  intros H S. unfold ExptHalfTorus in S. sat_inv. subst z.
  eapply T_eq; [|apply T_inv; eapply T_nsq; [|eassumption];
    eapply T_mul; [exact H| |eassumption]; eapply T_nsq; [|eassumption];
    eapply T_mul; [exact H| |eassumption]; eapply T_nsq; [|eassumption];
    eapply T_mul; [exact H| |eassumption]; eapply T_nsq; [|eassumption];
    eapply T_mul; [exact H| |eassumption]; eapply T_sq; [|eassumption]; eapply T_sq; [|eassumption];
    eapply T_mul; [exact H| |eassumption]; eapply T_sq; [|eassumption]; exact H].
  unfold xhalf.
  change (Z.of_nat 15) with 15. change (Z.of_nat 32) with 32. change (Z.of_nat 9) with 9. change (Z.of_nat 3) with 3.
  change (2^15) with 32768. change (2^32) with 4294967296. change (2^9) with 512. change (2^3) with 8. ring.
Qed.
Lemma T_expt y z a : T y a -> sat (ExptTorus y) z -> T z (xbls * a).
Proof.
  intros H S. unfold ExptTorus in S. sat_inv.
  eapply T_eq; [|eapply T_sq; [|eassumption]; eapply T_half; eassumption].
  unfold xbls, xabs, xhalf. ring.
Qed.
End Track.

(** ** completeness: every intermediate product is defined *)
Lemma bez_ok a b u v : (u * a + v * b =? 1) = true -> rel_prime a b.
Proof. intros H. apply Z.eqb_eq in H. apply bezout_rel_prime. econstructor. exact H. Qed.
Definition phiL : Z := 256617403732428082911713098829358466826502709893317423274164519189057579459067718648630900581642194569486023536159679292713201496773094628402515173256805074082148378848401811721831645158191252408572062655802000251980000729631345767080472003723503734796780504822954640194951639083742322763345359769157579083140061699242297227571698867621267056040724752357952125845506385303763755808475747639975977474295162733931498164641759941333618221164232547762766975580793.
Lemma phi12_lit : (phi12 =? phiL) = true.
Proof. vm_cast_no_check (eq_refl true). Qed.
Lemma bez_phi a u v : (u * a + v * phiL =? 1) = true -> rel_prime a phi12.
Proof. rewrite (proj1 (Z.eqb_eq _ _) phi12_lit). apply bez_ok. Qed.
Lemma cop2 : rel_prime (2) phi12.
Proof. apply (bez_phi _ (-128308701866214041455856549414679233413251354946658711637082259594528789729533859324315450290821097284743011768079839646356600748386547314201257586628402537041074189424200905860915822579095626204286031327901000125990000364815672883540236001861751867398390252411477320097475819541871161381672679884578789541570030849621148613785849433810633528020362376178976062922753192651881877904237873819987988737147581366965749082320879970666809110582116273881383487790396) (1)). vm_cast_no_check (eq_refl true). Qed.
Lemma cop3 : rel_prime (3) phi12.
Proof. apply (bez_phi _ (-85539134577476027637237699609786155608834236631105807758054839729685859819689239549543633527214064856495341178719893097571067165591031542800838391085601691360716126282800603907277215052730417469524020885267333417326666909877115255693490667907834578265593501607651546731650546361247440921115119923052526361046687233080765742523899622540422352013574917452650708615168795101254585269491915879991992491431720911310499388213919980444539407054744182587588991860264) (1)). vm_cast_no_check (eq_refl true). Qed.
Lemma cop13 : rel_prime (13) phi12.
Proof. apply (bez_phi _ (-19739800287109852531670238371489112832807900761024417174935732245312121496851362972971607737049399582268155656627667637901015499751776509877116551788985005698626798372953985517063972704476250185274774050446307711690769286894718905160036307978731056522829269601765741553457818391057101751026566136089044544856927823018638248274746066740097465849286519412150163526577414254135673523728903664613536728791935594917807551126289226256432170858787119058674382736984) (1)). vm_cast_no_check (eq_refl true). Qed.
Lemma cop105 : rel_prime (105) phi12.
Proof. apply (bez_phi _ (-53767456020127788800549411183294154954124377310980793447920184972945397600947522002570283931391697909797071598052504232758956504085791255474812702968092491712450136520617522456002820890287690980843670270739466719462476343351329589293051276970638877766944486724809543659894629141355534293272361094490159426943631975079338466729308334168265478408532805255951873986677528349360025026537775695994966708899938858538028186877321130565139055862982057626484509169309) (22)). vm_cast_no_check (eq_refl true). Qed.
Lemma cop53761 : rel_prime (53761) phi12.
Proof. apply (bez_phi _ (24606363650986156645335485286087366241152907674709386301934824434433731182669483261726759035329802514940206680100875109353184533692924291017930576405551052936021928404670882971411285705073862208035359888965222211248989114065020878132844128256443551140741494807803634050798454260089873213761747914101436360439482488413423154482470706694213866443889364007463462523643262146182216870830015793680849758746890197232508194392371282111099159801745108605068056009356) (-5155)). vm_cast_no_check (eq_refl true). Qed.
Lemma copH : rel_prime (230901736800257) phi12.
Proof. apply (bez_phi _ (66790831108438952798674794795579694570412357023428277900186837630031548195698710088385296574687128843433504199477220333752803248802501482426224071545637425364632618535454285661441278821310686185048563370127158368051321916286582242289872806329222533094085021667325827126577109485567182622466484314832956575439928467863608152685439044817592210595913800039661364094479519387438588544138361098977806509405020033474825180112318192157706704567232082282711059555619) (-60097712317874)). vm_cast_no_check (eq_refl true). Qed.
Lemma copX : rel_prime (xbls) phi12.
Proof. apply (bez_phi _ (-10545920701332660922760651396824004071935153352351795183642963211269563187125626602643606575972551225348957746690025231256262274689617101070715325708803126555306857557026390583077301966702733664283288777091139432326510517682090770461883559857692333684399780037077090024904347857086237218998894048197268576468988435127675934478809669335157619844486506224060130863434496691015979507152852275933140337292271091652084341164556455081231560917661216479605318852213) (-621878474915409975)). vm_cast_no_check (eq_refl true). Qed.
Lemma copX1 : rel_prime (xbls - 1) phi12.
Proof. apply (bez_phi _ (16958169685431149421450233309973127621595774493670769106706471832510268033420944043250242342864285501890961895936735006402832140179686522793011829814985429027591752589190562410909331799982541564055891133360660181403595725014943689686330180485998365972754105474477869568521485491365998964231007259838133363521861257120575310642883874709659044875405314493252421563752565227396262476888493264381125152467238413610511344749078851505596905798264) (1)). vm_cast_no_check (eq_refl true). Qed.
Lemma copX2 : rel_prime (xbls + 1) phi12.
Proof. apply (bez_phi _ (-119520434615103490652392241310661161216192837870740729942818352120182951031535087168699134511368071603265919524069292974309030558065697803584541572945406141936666907038604490214171783713285267505139158425985789199443739020533283698516259059652092305994096435947003993825865198095598795121262835869205093781700404782525813035856549428764588180643302472188938700915317931862060160170066682662222050100071751491831939774183744640141467707826226164309661882623874) (-7047956049041313061)). vm_cast_no_check (eq_refl true). Qed.
Lemma copXP : rel_prime (xbls + pBLS) phi12.
Proof. apply (bez_phi _ (8479084842715574711285444042952291490225661994719102627882916135511786553696939186594218693585057897329323611951760346590330548868303048967204063578846299056688283983019068246058964962495549078716972706683201965083967559384930652729326922519694808820037484874748993145517865827954650855772362875584814185774586203256794530269092896979788023969389766744334791389893191765812727382414516820243820078727148101715101613872041740421866714583192) (-132246565121535918761490637743049209428507260882442261702625026650705472363977888130607147024383)). vm_cast_no_check (eq_refl true). Qed.
Lemma copXPP : rel_prime (xbls * xbls + pBLS * pBLS - 1) phi12.
Proof. apply (bez_phi _ (85539134577476027637237699609786155608087133447151504185435102224882279660583805623091778828339219682497459454867425431668346602412699495120536681824326887893244200098104051792909573250819722957312838385556149836413636840892168631179668783968789456976651635609574939815322872510732086582607876604684207297306799488401362453924017763646583438255074556670961637162650751239307616752519002626000978412768106520950815826605172238144280282106841342633255937393517) (-5339760749243235137314582881439657539185068955812998511752999214217845921127275198747640836569262620845787136057191479547403380330338895248934305252534059853033885688910548648142518559999738990105931034998549055796893748873813711)). vm_cast_no_check (eq_refl true). Qed.

Definition hcof : Z := 4893928114585159410883253572318349434697260627536543127673143787635577013247573657951145569649455045371933135273331436655020524457945919286800884612463535847205871396556049495795446161178202464289525760157481578764179879456252000021461149480913048298580688352512594533579025647331945356418790935689117298357778419459780374425317529106012206555148879480645692101032144730178994813561.
Lemma r_h : (rBLS * hcof =? phi12) = true.
Proof. vm_cast_no_check (eq_refl true). Qed.
Lemma three_h : (3 * hcof =? (xbls - 1) * (xbls - 1) * (xbls + pBLS) * (xbls * xbls + pBLS * pBLS - 1) + 3) = true.
Proof. vm_cast_no_check (eq_refl true). Qed.

Section Complete.
Context (g : E12) (g0 : g <> E12_Zero) (g1 : g <> E12_One) (gc : z12 g phi12 = E12_One).
Notation Tg := (T g).
Definition cop (k : Z) : Prop := rel_prime k phi12.
Lemma cop_mul a b : cop a -> cop b -> cop (a * b).
Proof. unfold cop. intros. apply rel_prime_sym, rel_prime_mult; now apply rel_prime_sym. Qed.
Lemma zpow_one k : z12 E12_One k = E12_One.
Proof.
  assert (P : forall p, ppow E12_Mul E12_One p = E12_One).
  { induction p as [p IH|p IH|]; cbn [ppow]; rewrite ?IH; try reflexivity; rewrite ?IH; apply E12_eqb_eq; vm_compute; reflexivity. }
  assert (I : E12_inv E12_One = E12_One).
  { transitivity (E12_Mul (E12_inv E12_One) E12_One); [ring|]. apply (Field_theory.Finv_l E12_ft). exact (F_1_neq_0 E12_ft). }
  destruct k; cbn [zpow]; [reflexivity | apply P | rewrite I; apply P].
Qed.
Lemma cop_neq1 k : cop k -> z12 g k <> E12_One.
Proof.
  intros C H. apply rel_prime_bezout in C. destruct C as [u v B].
  apply g1. rewrite <- (zpow_1 E12_One E12_Mul E12_inv g), <- B.
  rewrite zpow_addE12, (Z.mul_comm u), (Z.mul_comm v), !zpow_mulE12 by exact g0.
  rewrite H, gc, !zpow_one. ring.
Qed.
Lemma T_cyc y k : Tg y k -> z12 (tval y) phi12 = E12_One.
Proof.
  unfold T. intros ->. rewrite <- zpow_mulE12 by exact g0.
  rewrite Z.mul_comm, zpow_mulE12, gc by exact g0. apply zpow_one.
Qed.
Lemma Tc_mul y1 y2 a b : Tg y1 a -> Tg y2 b -> cop (a + b) ->
  exists y3, determ (MulTorus y1 y2) y3 /\ Tg y3 (a + b).
Proof.
  intros H1 H2 C. apply cop_neq1 in C.
  destruct (determ_MulTorus y1 y2) as (y3 & D).
  - intros Z. apply torus_opp_prod in Z. apply C. rewrite zpow_addE12 by exact g0.
    unfold T in H1, H2. now rewrite <- H1, <- H2.
  - exists y3. split; [exact D|]. eapply T_mul; [exact g0|exact H1|exact H2|]. apply run_sat, D.
Qed.
Lemma Tc_sq y a : Tg y a -> cop a -> exists z, determ (SquareTorus y) z /\ Tg z (2 * a).
Proof.
  intros H C. assert (C2 : cop (2 * a)) by (apply cop_mul; [apply cop2 | exact C]).
  apply cop_neq1 in C2.
  destruct (determ_SquareTorus y) as (z & D & E).
  - eapply T_cyc. exact H.
  - intros E. apply C2. replace (2 * a) with (a + a) by ring. rewrite zpow_addE12 by exact g0.
    unfold T in H. rewrite <- H. exact E.
  - exists z. split; [exact D|]. eapply T_sq; [exact g0|exact H|]. apply run_sat, D.
Qed.
Lemma cop_pow2 n : cop (2 ^ Z.of_nat n).
Proof.
  induction n as [|n IH]; [apply rel_prime_1|].
  rewrite Nat2Z.inj_succ, Z.pow_succ_r by lia. apply cop_mul; [apply cop2 | exact IH].
Qed.
Lemma Tc_nsq n : forall y a, Tg y a -> cop a -> exists z, determ (nSquareTorus y n) z /\ Tg z (2 ^ Z.of_nat n * a).
Proof.
  induction n as [|n IH]; intros y a H C; cbn [nSquareTorus].
  - exists y. split; [apply determ_ret|]. eapply T_eq; [|exact H]. cbn [Z.of_nat]. ring.
  - destruct (Tc_sq y a H C) as (w & D1 & T1).
    destruct (IH w (2 * a) T1) as (z & D2 & T2); [apply cop_mul; [apply cop2 | exact C]|].
    exists z. split; [eapply determ_bind; eassumption|].
    eapply T_eq; [|exact T2]. rewrite Nat2Z.inj_succ, Z.pow_succ_r by lia. ring.
Qed.
Ltac cstep L :=
  let z := fresh "z" in let D := fresh "D" in let T := fresh "T" in
  destruct L as (z & D & T); [..|eapply determ_bind; [exact D|]].
Lemma Tc_half y a : Tg y a -> cop a -> exists z, determ (ExptHalfTorus y) z /\ Tg z (- xhalf * a).
Proof.
  intros H C.
  cut (exists z, determ (ExptHalfTorus y) z).
  { intros (z & D). exists z. split; [exact D|]. eapply T_half; [exact g0 | exact H|]. apply run_sat, D. }
  unfold ExptHalfTorus.
  destruct (Tc_sq y a H C) as (z1 & D1 & T1).
  destruct (Tc_mul y z1 a (2 * a) H T1) as (z2 & D2 & T2).
  { replace (a + 2 * a) with (3 * a) by ring. apply cop_mul; [apply cop3 | exact C]. }
  apply (T_eq g z2 _ (3 * a)) in T2; [|ring].
  assert (C3 : cop (3 * a)) by (apply cop_mul; [apply cop3 | exact C]).
  destruct (Tc_sq z2 _ T2 C3) as (z3 & D3 & T3).
  assert (C3' : cop (2 * (3 * a))) by (apply cop_mul; [apply cop2 | exact C3]).
  destruct (Tc_sq z3 _ T3 C3') as (z4 & D4 & T4).
  assert (C5 : cop (13 * a)) by (apply cop_mul; [apply cop13 | exact C]).
  destruct (Tc_mul y z4 a _ H T4) as (z5 & D5 & T5).
  { replace (a + 2 * (2 * (3 * a))) with (13 * a) by ring. exact C5. }
  apply (T_eq g z5 _ (13 * a)) in T5; [|ring].
  destruct (Tc_nsq 3 z5 _ T5 C5) as (z6 & D6 & T6).
  assert (C7 : cop (105 * a)) by (apply cop_mul; [apply cop105 | exact C]).
  apply (T_eq g z6 _ (104 * a)) in T6; [|change (2 ^ Z.of_nat 3) with 8; ring].
  destruct (Tc_mul y z6 a _ H T6) as (z7 & D7 & T7).
  { replace (a + 104 * a) with (105 * a) by ring. exact C7. }
  apply (T_eq g z7 _ (105 * a)) in T7; [|ring].
  destruct (Tc_nsq 9 z7 _ T7 C7) as (z8 & D8 & T8).
  apply (T_eq g z8 _ (53760 * a)) in T8; [|change (2 ^ Z.of_nat 9) with 512; ring].
  assert (C9 : cop (53761 * a)) by (apply cop_mul; [apply cop53761 | exact C]).
  destruct (Tc_mul y z8 a _ H T8) as (z9 & D9 & T9).
  { replace (a + 53760 * a) with (53761 * a) by ring. exact C9. }
  apply (T_eq g z9 _ (53761 * a)) in T9; [|ring].
  destruct (Tc_nsq 32 z9 _ T9 C9) as (z10 & D10 & T10).
  apply (T_eq g z10 _ (230901736800256 * a)) in T10; [|change (2 ^ Z.of_nat 32) with 4294967296; ring].
  assert (C11 : cop (230901736800257 * a)) by (apply cop_mul; [apply copH | exact C]).
  destruct (Tc_mul y z10 a _ H T10) as (z11 & D11 & T11).
  { replace (a + 230901736800256 * a) with (230901736800257 * a) by ring. exact C11. }
  apply (T_eq g z11 _ (230901736800257 * a)) in T11; [|ring].
  destruct (Tc_nsq 15 z11 _ T11 C11) as (z12 & D12 & T12).
  exists (InverseTorus z12).
  apply (determ_bind _ _ _ _ D1). apply (determ_bind _ _ _ _ D2). apply (determ_bind _ _ _ _ D3). apply (determ_bind _ _ _ _ D4). apply (determ_bind _ _ _ _ D5). apply (determ_bind _ _ _ _ D6). apply (determ_bind _ _ _ _ D7). apply (determ_bind _ _ _ _ D8). apply (determ_bind _ _ _ _ D9). apply (determ_bind _ _ _ _ D10). apply (determ_bind _ _ _ _ D11). apply (determ_bind _ _ _ _ D12).
  apply determ_ret.
Qed.
Lemma cop_opp a : cop a -> cop (- a).
Proof. intros H. replace (- a) with ((-1) * a) by ring. apply cop_mul; [|exact H]. apply (bez_phi _ (-1) 0). reflexivity. Qed.
Lemma Tc_expt y a : Tg y a -> cop a -> exists z, determ (ExptTorus y) z /\ Tg z (xbls * a).
Proof.
  intros H C. destruct (Tc_half y a H C) as (w & D1 & T1).
  assert (Ch : cop (- xhalf)).
  { apply cop_opp. replace xhalf with (2 ^ Z.of_nat 15 * 230901736800257) by reflexivity.
    apply cop_mul; [apply cop_pow2 | apply copH]. }
  destruct (Tc_sq w _ T1) as (z & D2 & T2); [now apply cop_mul|].
  exists z. split; [unfold ExptTorus; eapply determ_bind; eassumption|].
  eapply T_eq; [|exact T2]. unfold xbls, xabs, xhalf. ring.
Qed.
End Complete.
