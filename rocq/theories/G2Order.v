(** Points of the prime-order subgroup: the criterion psi(P) = [x]P, the order
    r, and what it means for cofactor clearing. *)
From Coq Require Import ZArith Znumtheory NArith List Bool Lia Ring Field_theory.
From Verif Require Import Params ZMod RingPow Primes Circuit Api Emulated ApiFacts FieldFacts Tower TowerFacts TowerProofs FastTower Pairing CurveSpec G2 HashG2 G2Spec G2Pred EcGroup G2Jac G2Mul G2Cof G2Psi G2Clear.
Import ListNotations.
Open Scope Z_scope.
Add Field E2FO : E2_ft.
Local Opaque E2_Mul E2_Add E2_Sub E2_Neg E2_Conjugate.

Lemma psi_mul P k Q : g2mul P k Q -> g2mul (psiP P) k (psiP Q).
Proof.
  assert (N : forall n R, ec_mul E2 E2_Zero E2_One E2_Add E2_Mul E2_Sub E2_Neg g2a P n R -> ec_mul E2 E2_Zero E2_One E2_Add E2_Mul E2_Sub E2_Neg g2a (psiP P) n (psiP R)).
  { induction 1 as [|n R S H IH A]; [constructor|]. econstructor; [exact IH|]. exact (psiP_add _ _ _ A). }
  unfold g2mul, ec_zmul. destruct (0 <=? k); [apply N|]. intros (R & HR & ->). exists (psiP R). split; [now apply N|]. exact (psiP_neg R).
Qed.
Definition w3 : E2 := E2_MulByElement E2_One thirdRootOneG1.
Lemma w3_mul x : E2_MulByElement x thirdRootOneG1 = E2_Mul x w3.
Proof. exact (byel_mul x thirdRootOneG1). Qed.
Lemma w3_sum : E2_Add (E2_Add E2_One w3) (E2_Mul w3 w3) = E2_Zero.
Proof. Local Transparent E2_Mul E2_Add. unfold w3, E2_MulByElement, E2_One, E2_Zero, thirdRootOneG1. cbn [A0 A1]. Local Opaque E2_Mul E2_Add. fast_e2. Qed.
Lemma w3_1 : E2_Sub E2_One w3 <> E2_Zero.
Proof. unfold w3, E2_MulByElement, E2_One, E2_Zero, thirdRootOneG1. cbn [A0 A1]. fast_e2. Qed.
Lemma third2_ext (x y x' y' : E2) : x = x' -> y = y' -> Aff x y = Aff x' y'.
Proof. now intros -> ->. Qed.
Lemma phi_line x y : g2on (Aff x y) -> g2add (Aff x y) (Aff (E2_Mul x w3) y) (Aff (E2_Mul (E2_Mul x w3) w3) (E2_Neg y)).
Proof.
  intros H. assert (W : E2_Mul (E2_Mul x w3) w3 = E2_Sub (E2_Sub (E2_Mul E2_Zero E2_Zero) x) (E2_Mul x w3)).
  { transitivity (E2_Sub (E2_Sub (E2_Mul x (E2_Add (E2_Add E2_One w3) (E2_Mul w3 w3))) x) (E2_Mul x w3)); [ring | rewrite w3_sum; ring]. }
  destruct (E2_dec x (E2_Mul x w3)) as [E|N].
  - assert (X : x = E2_Zero).
    { assert (Z : E2_Mul x (E2_Sub E2_One w3) = E2_Zero) by (transitivity (E2_Sub x (E2_Mul x w3)); [ring | rewrite <- E; ring]). apply E2_integral in Z. destruct Z as [Z|Z]; [exact Z | destruct (w3_1 Z)]. }
    rewrite <- E. rewrite <- E in W. replace (Aff (E2_Mul x w3) (E2_Neg y)) with (third E2 E2_Mul E2_Sub E2_Zero x y x).
    + apply add_tangent; [intros D; exact (g2_y_nz _ _ H (double_zero _ D))|]. unfold g2a. rewrite X. ring.
    + unfold third. cbv zeta. rewrite <- W. apply third2_ext; [rewrite <- E; reflexivity | ring].
  - replace (Aff (E2_Mul (E2_Mul x w3) w3) (E2_Neg y)) with (third E2 E2_Mul E2_Sub E2_Zero x y (E2_Mul x w3)).
    + apply add_chord; [exact N | ring].
    + unfold third. cbv zeta. rewrite <- W. apply third2_ext; [reflexivity | ring].
Qed.
Lemma rBLS_x : blsX * blsX * (blsX * blsX) - blsX * blsX + 1 = rBLS. Proof. reflexivity. Qed.
Theorem in_G2_order P : in_G2 P -> g2mul P rBLS Inf.
Proof.
  intros (HP & N & Q & HQ & H). apply psiP_spec in HQ. subst Q. destruct P as [|x y]; [congruence|]. clear N. set (P := Aff x y) in *.
  pose proof (psi_mul _ _ _ H) as H1. pose proof (g2_mul_mul _ _ _ _ _ HP H H1) as H2.
  pose proof (psi_mul _ _ _ (psi_mul _ _ _ H2)) as H3. pose proof (g2_mul_mul _ _ _ _ _ HP H2 H3) as H4.
  unfold P in H4 at 2. rewrite !psiP_psi in H4. unfold P in H2 at 2. rewrite psiP_psi in H2. rewrite w3_mul in H2. rewrite (w3_mul x), w3_mul in H4.
  pose proof (phi_line x y HP) as L.
  pose proof (g2_mul_neg _ _ _ H2) as H5. unfold g2neg in H5. cbn [pneg] in H5. rewrite <- rBLS_x.
  assert (E : forall z, E2_Neg (E2_Neg z) = z) by (intros; ring). rewrite E in H4, H5.
  pose proof (g2_mul_add _ _ _ _ _ _ HP (g2_mul_1 P) H5 L) as H6.
  assert (O : g2add (Aff (E2_Mul (E2_Mul x w3) w3) (E2_Neg y)) (Aff (E2_Mul (E2_Mul x w3) w3) y) Inf) by (apply add_opp; now rewrite E).
  pose proof (g2_mul_add _ _ _ _ _ _ HP H6 H4 O) as H7. exact H7.
Qed.
Theorem prime_order P : g2on P -> P <> Inf -> g2mul P rBLS Inf -> order_above (rBLS - 1) P.
Proof.
  intros HP N H k K HK. assert (G : rel_prime k rBLS) by (apply rel_prime_le_prime; [exact rBLS_prime | lia]).
  apply rel_prime_bezout in G. destruct G as [u v E].
  assert (M : forall z Q, g2mul P z Q -> Q = Inf -> forall w, g2mul P (z * w) Inf).
  { intros z Q HQ -> w. destruct (g2_mul_ex Inf w I) as [R HR]. pose proof (g2_mul_mul _ _ _ _ _ HP HQ HR) as HR'.
    replace R with (@Inf E2) in HR'; [exact HR'|].
    assert (Z : forall n S, ec_mul E2 E2_Zero E2_One E2_Add E2_Mul E2_Sub E2_Neg g2a Inf n S -> S = Inf). { induction 1 as [|n S T HS IH A]; [reflexivity|]. subst. now inversion A. }
    clear HR'. unfold g2mul, ec_zmul in HR. destruct (0 <=? w); [symmetry; eauto|]. destruct HR as (R' & HR & ->). now rewrite (Z _ _ HR). }
  pose proof (M _ _ HK eq_refl u) as H1. pose proof (M _ _ H eq_refl v) as H2.
  pose proof (g2_mul_add _ _ _ _ _ _ HP H1 H2 (add_inf_l _ _ _ _ _ _ _ _ _)) as H3. replace (k * u + rBLS * v) with 1 in H3 by (rewrite <- E; ring).
  exact (N (g2_mul_fun _ _ _ _ HP (g2_mul_1 P) H3)).
Qed.
Lemma order_le N M P : M <= N -> order_above N P -> order_above M P.
Proof. intros L O k K. apply O. lia. Qed.
Theorem G2_generic P : in_G2 P -> clear_generic P.
Proof.
  intros HG. pose proof (in_G2_order P HG) as HO. destruct HG as (HP & N & Q & HQ & H). apply psiP_spec in HQ. subst Q. pose proof (prime_order P HP N HO) as O. split; [refine (order_le _ _ _ _ O); apply Z.leb_le; exact eq_refl|].
  assert (B : forall z, (0 <? Z.abs z) && (Z.abs z <=? rBLS - 1) = true -> 0 < Z.abs z <= rBLS - 1). { intros z. rewrite andb_true_iff, Z.ltb_lt, Z.leb_le. auto. }
  intros A B0 BB C0 C1 C S HA HB0 HB HC0 HC1 HC HS. apply psiP_spec in HB, HC1, HC. subst BB C1 C.
  pose proof (g2_mul_mul _ _ _ _ _ HP H (psi_mul _ _ _ HB0)) as MB.
  pose proof (g2_mul_mul _ _ _ _ _ HP H (psi_mul _ _ _ HC0)) as MC1. pose proof (psi_mul _ _ _ MC1) as MC'. pose proof (g2_mul_mul _ _ _ _ _ HP H MC') as MC.
  pose proof (g2_mul_add _ _ _ _ _ _ HP HA MB HS) as MS.
  assert (NE : forall i j X Y, g2mul P i X -> g2mul P j Y -> (0 <? Z.abs i) && (Z.abs i <=? rBLS - 1) = true -> (0 <? Z.abs j) && (Z.abs j <=? rBLS - 1) = true ->
    (0 <? Z.abs (i - j)) && (Z.abs (i - j) <=? rBLS - 1) = true -> (0 <? Z.abs (i + j)) && (Z.abs (i + j) <=? rBLS - 1) = true -> nonexc X Y).
  { intros i j X Y HX HY I J IJ IJ'. split; [intros ->; exact (order_nz _ _ _ O (B _ I) HX)|]. split; [intros ->; exact (order_nz _ _ _ O (B _ J) HY)|].
    split; [exact (mul_neq _ _ _ _ _ _ HP O HX HY (B _ IJ))|]. apply (mul_neq _ _ _ _ _ _ HP O HX (g2_mul_neg _ _ _ HY)). rewrite Z.sub_opp_r. exact (B _ IJ'). }
  split; [exact (NE _ _ _ _ HA MB eq_refl eq_refl eq_refl eq_refl) | exact (NE _ _ _ _ MS MC eq_refl eq_refl eq_refl eq_refl)].
Qed.
