(** The pairing of multiples: e(kP, Q) = e(P, Q)^k and e(P, kQ) = e(P, Q)^k. *)
From Coq Require Import ZArith NArith List Bool Lia Field Znumtheory.
From Verif Require Import Primes Params ZMod RingPow ZPow Circuit Api Emulated ApiFacts FieldFacts Tower TowerSpec TowerFacts TowerProofs Frobenius TorusFacts CycloFacts Pairing CurveSpec G2 PairSpec HashG2 G2Spec EcIdeal LfVieta EcPoly EcEval EcGroup LineFour G2Jac G2Psi G2Mul G2Cof G2Order MillerProofs FixedQ FixedLoop FinalExp FinalExpProofs FinalExpSpec PairProofs BlsSpec MillerTotal MillerNeg MillerLf Kappa PairAdd PairAdd2 G1Group.
Import ListNotations.
Open Scope Z_scope.
Add Field E2FPM : E2_ft.
Add Ring E6RPM : E6_rt.
Add Ring E12RPM : E12_rt.

(** *** G2 is closed under the group law *)
(** k (A + B) = k A + k B *)
Lemma g2_mul_distr A B C : g2on A -> g2on B -> g2add A B C -> forall k A' B' C', g2mul A k A' -> g2mul B k B' -> g2add A' B' C' -> g2mul C k C'.
Proof.
  intros HA HB HC k. pose proof (g2_closed _ _ _ HA HB HC) as CC. pattern k. apply Z.peano_ind; clear k.
  - intros A' B' C' H1 H2 H. rewrite (g2_mul_fun _ _ _ _ HA H1 (g2_mul_0 A)), (g2_mul_fun _ _ _ _ HB H2 (g2_mul_0 B)) in H.
    assert (I : g2on Inf) by exact (g2_mul_on _ _ _ HA (g2_mul_0 A)).
    rewrite (g2_func _ _ _ _ I I H (g2_add_Inf Inf)). apply g2_mul_0.
  - intros k IH A' B' C' H1 H2 H.
    destruct (g2_mul_ex A k HA) as (A1 & M1). destruct (g2_mul_ex B k HB) as (B1 & M2).
    pose proof (g2_mul_on _ _ _ HA M1) as a1. pose proof (g2_mul_on _ _ _ HB M2) as b1.
    destruct (g2_total _ _ a1 b1) as (C1 & S1). pose proof (IH _ _ _ M1 M2 S1) as MC. pose proof (g2_closed _ _ _ a1 b1 S1) as c1.
    destruct (g2_total _ _ a1 HA) as (A2 & S2). destruct (g2_total _ _ b1 HB) as (B2 & S3).
    pose proof (g2_mul_add _ _ _ _ _ _ HA M1 (g2_mul_1 A) S2) as E1. pose proof (g2_mul_add _ _ _ _ _ _ HB M2 (g2_mul_1 B) S3) as E2'.
    rewrite (g2_mul_fun _ _ _ _ HA H1 E1), (g2_mul_fun _ _ _ _ HB H2 E2') in H.
    exact (g2_mul_add _ _ _ _ _ _ CC MC (g2_mul_1 C) (g2_interchange _ _ _ _ _ _ _ _ _ a1 b1 HA HB S1 HC S2 S3 H)).
  - intros k IH A' B' C' H1 H2 H.
    destruct (g2_mul_ex A k HA) as (A1 & M1). destruct (g2_mul_ex B k HB) as (B1 & M2).
    pose proof (g2_mul_on _ _ _ HA M1) as a1. pose proof (g2_mul_on _ _ _ HB M2) as b1.
    destruct (g2_total _ _ a1 b1) as (C1 & S1). pose proof (IH _ _ _ M1 M2 S1) as MC. pose proof (g2_closed _ _ _ a1 b1 S1) as c1.
    pose proof (g2_neg_on _ HA) as na. pose proof (g2_neg_on _ HB) as nb.
    destruct (g2_total _ _ a1 na) as (A2 & S2). destruct (g2_total _ _ b1 nb) as (B2 & S3).
    pose proof (g2_mul_add _ _ _ _ _ _ HA M1 (g2_mul_neg _ _ _ (g2_mul_1 A)) S2) as E1. pose proof (g2_mul_add _ _ _ _ _ _ HB M2 (g2_mul_neg _ _ _ (g2_mul_1 B)) S3) as E2'.
    change (Z.pred k) with (k + - (1)) in *.
    rewrite (g2_mul_fun _ _ _ _ HA H1 E1), (g2_mul_fun _ _ _ _ HB H2 E2') in H.
    exact (g2_mul_add _ _ _ _ _ _ CC MC (g2_mul_neg _ _ _ (g2_mul_1 C)) (g2_interchange _ _ _ _ _ _ _ _ _ a1 b1 na nb S1 (g2_neg_add _ _ _ HC) S2 S3 H)).
Qed.
Lemma in_G2_psi P : in_G2 P -> g2mul P blsX (psiP P).
Proof. intros (_ & _ & Q & H1 & H2). apply psiP_spec in H1. now subst Q. Qed.
Theorem in_G2_sum P Q S : in_G2 P -> in_G2 Q -> g2add P Q S -> S <> Inf -> in_G2 S.
Proof.
  intros HP HQ H N. pose proof (g2_closed _ _ _ (proj1 HP) (proj1 HQ) H) as CS. split; [exact CS|]. split; [exact N|].
  exists (psiP S). split; [now apply psiP_spec|].
  exact (g2_mul_distr _ _ _ (proj1 HP) (proj1 HQ) H _ _ _ _ (in_G2_psi _ HP) (in_G2_psi _ HQ) (psiP_add _ _ _ H)).
Qed.
Theorem in_G2_mul P k R : in_G2 P -> g2mul P k R -> R <> Inf -> in_G2 R.
Proof.
  intros HP H N. pose proof (proj1 HP) as CP. pose proof (g2_mul_on _ _ _ CP H) as CR. split; [exact CR|]. split; [exact N|].
  exists (psiP R). split; [now apply psiP_spec|]. destruct (g2_mul_ex R blsX CR) as (S & HS).
  pose proof (g2_mul_mul _ _ _ _ _ CP H HS) as H1. pose proof (g2_mul_mul _ _ _ _ _ CP (in_G2_psi _ HP) (psi_mul _ _ _ H)) as H2.
  rewrite Z.mul_comm in H2. now rewrite (g2_mul_fun _ _ _ _ CP H2 H1).
Qed.
Lemma in_G2_neg P : in_G2 P -> in_G2 (g2neg P).
Proof.
  intros H. apply (in_G2_mul P (- (1)) _ H (g2_mul_neg _ _ _ (g2_mul_1 P))). destruct P as [|x y]; [destruct (proj1 (proj2 H) eq_refl) | discriminate].
Qed.

(** *** multiples of the first argument *)
(** the value of the pairing at a point of E(Fp), 1 at infinity *)
Definition pval (q : G2Affine) (X : point Fp) (e : E12) : Prop :=
  match X with Inf => e = E12_One | Aff x y => exists m, sat (MillerLoop [mkG1 x y] [q]) m /\ e = kap m end.
Lemma pval_ex q X : in_G2 (aff2 q) -> oncurve1 X -> exists e, pval q X e.
Proof.
  intros HG H. destruct X as [|x y]; [now exists E12_One|]. pose proof (g1_y_nz _ _ H) as N.
  destruct (miller_kap q HG) as (f1 & f2 & fss & t & _ & _ & M). destruct (M (mkG1 x y) N) as (m & D & _). exists (kap m), m. split; [exact (run_sat _ _ (proj1 D)) | reflexivity].
Qed.
Lemma pval_fun q X e e' : in_G2 (aff2 q) -> oncurve1 X -> pval q X e -> pval q X e' -> e = e'.
Proof.
  intros HG H. destruct X as [|x y]; cbn [pval]; [now intros -> ->|]. pose proof (g1_y_nz _ _ H) as N.
  destruct (miller_kap q HG) as (f1 & f2 & fss & t & _ & _ & M). destruct (M (mkG1 x y) N) as (m & D & _).
  intros (m1 & S1 & ->) (m2 & S2 & ->). now rewrite (proj2 D _ S1), (proj2 D _ S2).
Qed.
Lemma pval_neq0 q X e : pval q X e -> e <> E12_Zero.
Proof. destruct X as [|x y]; cbn [pval]; [intros ->; exact E12_1_neq_0|]. intros (m & S & ->). apply kap_neq0. exact (miller_neq0 _ _ _ S). Qed.
Transparent kap.
Lemma kap_order m : m <> E12_Zero -> z12 (kap m) rBLS = E12_One.
Proof. intros N. unfold kap. rewrite fin_order by exact N. reflexivity. Qed.
Lemma kap_def m : kap m = e12pow m finN. Proof. rewrite e12_fin. reflexivity. Qed.
Global Opaque kap.
Lemma pval_order q X e : pval q X e -> z12 e rBLS = E12_One.
Proof.
  destruct X as [|x y]; cbn [pval]; [intros ->; apply zpow_one|]. intros (m & S & ->).
  exact (kap_order m (miller_neq0 _ _ _ S)).
Qed.
(** the value at -X is the inverse *)
Lemma inv_of a b e1 e2 : E12_Mul a e1 = E12_One -> E12_Mul b e2 = E12_One -> E12_Mul a b = E12_One -> E12_Mul e1 e2 = E12_One.
Proof. intros A B AB. transitivity (E12_Mul (E12_Mul a b) (E12_Mul e1 e2)); [rewrite AB; ring|]. transitivity (E12_Mul (E12_Mul a e1) (E12_Mul b e2)); [ring|]. rewrite A, B. ring. Qed.
Lemma pval_neg q X e e' : in_G2 (aff2 q) -> oncurve1 X -> pval q X e -> pval q (neg1 X) e' -> E12_Mul e e' = E12_One.
Proof.
  intros HG H. destruct X as [|x y]; cbn [neg1 pneg pval]; [intros -> ->; apply E12_1_r|]. pose proof (g1_y_nz _ _ H) as N.
  destruct (miller_kap q HG) as (f1 & f2 & fss & t & PL & _ & M).
  assert (N' : fopp y <> fp0) by exact (g1_y_nz x (fopp y) (g1_neg_on (Aff x y) H)).
  destruct (M (mkG1 x y) N) as (m & D & _ & E). destruct (M (mkG1 x (fopp y)) N') as (m' & D' & _ & E').
  intros (m1 & S1 & ->) (m2 & S2 & ->). rewrite (proj2 D _ S1), (proj2 D' _ S2).
  exact (inv_of _ _ _ _ E E' (hvalue_neg _ _ _ _ _ PL x y N)).
Qed.
(** additivity, infinity included *)
Theorem pval_add q X Y S e1 e2 e3 : in_G2 (aff2 q) -> oncurve1 X -> oncurve1 Y -> add1 X Y S ->
  pval q X e1 -> pval q Y e2 -> pval q S e3 -> E12_Mul e1 e2 = e3.
Proof.
  intros HG HX HY A V1 V2 V3.
  destruct X as [|x1 y1].
  { assert (I : S = Y) by exact (g1_func _ _ _ _ HX HY A (add_inf_l _ _ _ _ _ _ _ _ Y)). subst S. cbn [pval] in V1. rewrite V1, (pval_fun _ _ _ _ HG HY V2 V3). apply E12_1_l. }
  destruct Y as [|x2 y2].
  { assert (I : S = Aff x1 y1) by exact (g1_func _ _ _ _ HX HY A (add_inf_r _ _ _ _ _ _ _ _ _)). subst S. cbn [pval] in V2. rewrite V2, (pval_fun _ _ _ _ HG HX V1 V3). apply E12_1_r. }
  destruct S as [|x3 y3].
  - assert (I : Aff x2 y2 = neg1 (Aff x1 y1)).
    { pose proof (g1_add_cancel _ _ _ HX HY A) as B. rewrite <- (g1_neg_neg (Aff x2 y2)). f_equal.
      exact (g1_func _ _ _ _ (Logic.I : oncurve1 Inf) (g1_neg_on _ HY) (add_inf_l _ _ _ _ _ _ _ _ _) B). }
    rewrite I in V2. cbn [pval] in V3. subst e3. exact (pval_neg _ _ _ _ HG HX V1 V2).
  - cbn [pval] in *. destruct V1 as (m1 & S1 & ->), V2 as (m2 & S2 & ->), V3 as (m3 & S3 & ->).
    exact (add_first (mkG1 x1 y1) (mkG1 x2 y2) (mkG1 x3 y3) q m1 m2 m3 HX HY A HG S1 S2 S3).
Qed.
Theorem pval_mul q X k Y e e' : in_G2 (aff2 q) -> oncurve1 X -> mul1 X k Y -> pval q X e -> pval q Y e' -> e' = z12 e k.
Proof.
  intros HG HX HM V. revert Y e' HM. pose proof (pval_neq0 _ _ _ V) as Ne. pattern k. apply Z.peano_ind; clear k.
  - intros Y e' HM V'. rewrite (g1_mul_fun _ _ _ _ HX HM (g1_mul_0 X)) in V'. cbn [pval] in V'. subst e'. reflexivity.
  - intros k IH Y e' HM V'. destruct (g1_mul_ex X k HX) as (Z & HZ). pose proof (g1_mul_on _ _ _ HX HZ) as CZ.
    destruct (pval_ex q Z HG CZ) as (ez & VZ). destruct (g1_total _ _ CZ HX) as (W & A).
    pose proof (g1_mul_step _ _ _ _ HX HZ A) as HW. change (k + 1) with (Z.succ k) in HW. rewrite (g1_mul_fun _ _ _ _ HX HM HW) in V'.
    rewrite <- (pval_add _ _ _ _ _ _ _ HG CZ HX A VZ V V'), (IH _ _ HZ VZ). change (Z.succ k) with (k + 1). rewrite zpow_addE12 by exact Ne. reflexivity.
  - intros k IH Y e' HM V'. destruct (g1_mul_ex X k HX) as (Z & HZ). pose proof (g1_mul_on _ _ _ HX HZ) as CZ. pose proof (g1_mul_on _ _ _ HX HM) as CY.
    destruct (pval_ex q Z HG CZ) as (ez & VZ). destruct (g1_total _ _ CY HX) as (W & A).
    pose proof (g1_mul_step _ _ _ _ HX HM A) as HW. replace (Z.pred k + 1) with k in HW by (unfold Z.pred; ring). rewrite <- (g1_mul_fun _ _ _ _ HX HZ HW) in A.
    pose proof (pval_add _ _ _ _ _ _ _ HG CY HX A V' V VZ) as G. rewrite (IH _ _ HZ VZ) in G.
    assert (P : z12 e k = E12_Mul (z12 e (Z.pred k)) e). { replace k with (Z.pred k + 1) at 1 by (unfold Z.pred; ring). rewrite zpow_addE12 by exact Ne. reflexivity. }
    rewrite P in G. assert (D : E12_Mul (E12_Sub e' (z12 e (Z.pred k))) e = E12_Zero).
    { transitivity (E12_Sub (E12_Mul e' e) (E12_Mul (z12 e (Z.pred k)) e)); [ring | rewrite G; ring]. }
    apply E12_integral in D. destruct D as [D|D]; [|destruct (Ne D)]. transitivity (E12_Add (E12_Sub e' (z12 e (Z.pred k))) (z12 e (Z.pred k))); [ring | rewrite D; ring].
Qed.

(** *** multiples of the second argument *)
(** the value of the pairing at a point of the twist *)
Definition qval (P : G1Affine) (X : point E2) (e : E12) : Prop :=
  match X with Inf => e = E12_One | Aff x y => exists m, sat (MillerLoop [P] [mkG2 x y]) m /\ e = kap m end.
Lemma qval_ex P X : oncurve1 (g1aff P) -> in_G2 X -> exists e, qval P X e.
Proof.
  intros H HG. destruct X as [|x y]; [now exists E12_One|].
  destruct (miller_kap (mkG2 x y) HG) as (f1 & f2 & fss & t & _ & _ & M). destruct (M P (g1_y_nz _ _ H)) as (m & D & _). exists (kap m), m. split; [exact (run_sat _ _ (proj1 D)) | reflexivity].
Qed.
Lemma qval_fun P X e e' : oncurve1 (g1aff P) -> in_G2 X -> qval P X e -> qval P X e' -> e = e'.
Proof.
  intros H HG. destruct X as [|x y]; cbn [qval]; [now intros -> ->|].
  destruct (miller_kap (mkG2 x y) HG) as (f1 & f2 & fss & t & _ & _ & M). destruct (M P (g1_y_nz _ _ H)) as (m & D & _).
  intros (m1 & S1 & ->) (m2 & S2 & ->). now rewrite (proj2 D _ S1), (proj2 D _ S2).
Qed.
Lemma qval_neq0 P X e : qval P X e -> e <> E12_Zero.
Proof. destruct X as [|x y]; cbn [qval]; [intros ->; exact E12_1_neq_0|]. intros (m & S & ->). apply kap_neq0. exact (miller_neq0 _ _ _ S). Qed.
Lemma qval_order P X e : qval P X e -> z12 e rBLS = E12_One.
Proof.
  destruct X as [|x y]; cbn [qval]; [intros ->; apply zpow_one|]. intros (m & S & ->).
  exact (kap_order m (miller_neq0 _ _ _ S)).
Qed.
Lemma qval_add0 P X Y S e1 e2 e3 : oncurve1 (g1aff P) -> in_G2 X -> in_G2 Y -> g2add X Y S -> S <> Inf ->
  qval P X e1 -> qval P Y e2 -> qval P S e3 -> E12_Mul e1 e2 = e3.
Proof.
  intros HP HX HY A N V1 V2 V3. pose proof (in_G2_sum _ _ _ HX HY A N) as HS.
  destruct X as [|x1 y1]; [destruct (proj1 (proj2 HX) eq_refl)|]. destruct Y as [|x2 y2]; [destruct (proj1 (proj2 HY) eq_refl)|]. destruct S as [|x3 y3]; [destruct (N eq_refl)|].
  cbn [qval] in *. destruct V1 as (m1 & S1 & ->), V2 as (m2 & S2 & ->), V3 as (m3 & S3 & ->).
  exact (add_second P (mkG2 x1 y1) (mkG2 x2 y2) (mkG2 x3 y3) m1 m2 m3 HP HX HY HS A S1 S2 S3).
Qed.
Lemma in_G2_prime P : in_G2 P -> order_above (rBLS - 1) P.
Proof. intros H. exact (prime_order P (proj1 H) (proj1 (proj2 H)) (in_G2_order P H)). Qed.
Lemma qval_small P X e : oncurve1 (g1aff P) -> in_G2 X -> qval P X e -> forall k, 1 <= k -> k <= rBLS - 1 ->
  forall Y e', g2mul X k Y -> qval P Y e' -> e' = z12 e k.
Proof.
  intros HP HX V. pose proof (proj1 HX) as CX. pose proof (qval_neq0 _ _ _ V) as Ne. intros k K. pattern k. apply Zlt_lower_bound_ind with (z := 1); [|exact K].
  clear k K. intros k IH K KR Y e' HM V'. destruct (Z.eq_dec k 1) as [->|K1].
  - rewrite (g2_mul_fun _ _ _ _ CX HM (g2_mul_1 X)) in V'. rewrite (qval_fun _ _ _ _ HP HX V' V). reflexivity.
  - destruct (g2_mul_ex X (k - 1) CX) as (Z & HZ). pose proof (g2_mul_on _ _ _ CX HZ) as CZ.
    assert (NZ : Z <> Inf). { intros ->. exact (in_G2_prime X HX (k - 1) (ltac:(lia)) HZ). }
    pose proof (in_G2_mul _ _ _ HX HZ NZ) as GZ. destruct (qval_ex P Z HP GZ) as (ez & VZ).
    destruct (g2_total _ _ CZ CX) as (W & A). pose proof (g2_mul_add _ _ _ _ _ _ CX HZ (g2_mul_1 X) A) as HW.
    replace (k - 1 + 1) with k in HW by ring. rewrite <- (g2_mul_fun _ _ _ _ CX HM HW) in A.
    assert (NY : Y <> Inf). { intros ->. exact (in_G2_prime X HX k (ltac:(lia)) HM). }
    rewrite <- (qval_add0 _ _ _ _ _ _ _ HP GZ HX A NY VZ V V'), (IH (k - 1) ltac:(lia) ltac:(lia) _ _ HZ VZ).
    replace k with (k - 1 + 1) at 2 by ring. rewrite zpow_addE12 by exact Ne. reflexivity.
Qed.
Lemma g2_mul_Inf k R : g2mul Inf k R -> R = Inf.
Proof.
  intros H. assert (I : g2on Inf) by exact Logic.I. destruct (g2_mul_ex Inf k I) as (S & HS).
  pose proof (g2_mul_mul _ _ _ _ _ I (g2_mul_0 Inf) H) as G. rewrite Z.mul_0_l in G. exact (g2_mul_fun _ _ _ _ I G (g2_mul_0 Inf)).
Qed.
(** multiples of a point of order r, and powers of an element of order r, only depend on the residue *)
Lemma g2_mul_mod X k Y : in_G2 X -> g2mul X k Y -> g2mul X (k mod rBLS) Y.
Proof.
  intros HX H. pose proof (proj1 HX) as CX. destruct (g2_mul_ex Inf (- (k / rBLS)) (Logic.I : g2on Inf)) as (S & HS).
  rewrite (g2_mul_Inf _ _ HS) in HS. pose proof (g2_mul_mul _ _ _ _ _ CX (in_G2_order X HX) HS) as G.
  pose proof (g2_mul_add _ _ _ _ _ _ CX H G (g2_add_Inf Y)) as R. replace (k mod rBLS) with (k + rBLS * - (k / rBLS)); [exact R|].
  rewrite Z.mod_eq by discriminate. ring.
Qed.
Lemma z12_mod e k : e <> E12_Zero -> z12 e rBLS = E12_One -> z12 e (k mod rBLS) = z12 e k.
Proof.
  intros N H. rewrite (Z.div_mod k rBLS) at 2 by discriminate. rewrite zpow_addE12, zpow_mulE12, H, zpow_one by exact N. symmetry. apply E12_1_l.
Qed.
Theorem qval_mul P X k Y e e' : oncurve1 (g1aff P) -> in_G2 X -> g2mul X k Y -> qval P X e -> qval P Y e' -> e' = z12 e k.
Proof.
  intros HP HX H V V'. rewrite <- (z12_mod e k (qval_neq0 _ _ _ V) (qval_order _ _ _ V)). apply g2_mul_mod in H; [|exact HX].
  pose proof (Z.mod_pos_bound k rBLS eq_refl) as B. set (j := k mod rBLS) in *. clearbody j. destruct (Z.eq_dec j 0) as [->|J].
  - rewrite (g2_mul_fun _ _ _ _ (proj1 HX) H (g2_mul_0 X)) in V'. cbn [qval] in V'. subst e'. reflexivity.
  - apply (qval_small P X e HP HX V j) with (Y := Y); [lia | lia | exact H | exact V'].
Qed.
(** additivity, infinity included *)
Theorem qval_add P X Y S e1 e2 e3 : oncurve1 (g1aff P) -> in_G2 X -> in_G2 Y -> g2add X Y S ->
  qval P X e1 -> qval P Y e2 -> qval P S e3 -> E12_Mul e1 e2 = e3.
Proof.
  intros HP HX HY A V1 V2 V3. destruct S as [|x y].
  - cbn [qval] in V3. subst e3. pose proof (g2_add_cancel _ _ _ (proj1 HX) (proj1 HY) A) as B.
    assert (E : g2neg Y = X) by exact (g2_func _ _ _ _ (Logic.I : g2on Inf) (g2_neg_on _ (proj1 HY)) (add_inf_l _ _ _ _ _ _ _ _ _) B).
    pose proof (g2_mul_neg _ _ _ (g2_mul_1 Y)) as M. rewrite E in M. rewrite (qval_mul P Y _ X e2 e1 HP HY M V2 V1).
    transitivity (E12_Mul (z12 e2 (- (1))) (z12 e2 1)); [reflexivity|]. rewrite <- (zpow_addE12 e2 (- (1)) 1 (qval_neq0 _ _ _ V2)). reflexivity.
  - apply (qval_add0 P X Y (Aff x y) e1 e2 e3 HP HX HY A); [discriminate | assumption..].
Qed.
