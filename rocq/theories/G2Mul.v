(** Conversions, affine arithmetic, the constant multiplication, psi and cofactor clearing. *)
From Coq Require Import ZArith NArith List Bool Lia Ring Field.
From Verif Require Import Params ZMod RingPow Circuit Api Emulated ApiFacts FieldFacts Tower TowerFacts TowerProofs Pairing CurveSpec FastMod FastParams FastTower G2 HashG2 G2Spec G2Pred EcGroup G2Jac.
Import ListNotations.
Open Scope Z_scope.
Add Field E2FM : E2_ft.
Local Opaque E2_Mul E2_Add E2_Sub E2_Neg.

(** no point of the twist has order two *)
Lemma g2_no_y0 x : ~ g2on (Aff x E2_Zero).
Proof.
  unfold g2on. cbn [on_curve]. intros H. assert (C : E2_Mul x (E2_Mul x x) = E2_Neg g2b).
  { transitivity (E2_Sub (E2_Mul E2_Zero E2_Zero) g2b); [rewrite H; unfold g2a; ring | ring]. }
  assert (Hx : x <> E2_Zero).
  { intros ->. apply g2b_neq0. transitivity (E2_Neg (E2_Neg g2b)); [ring | rewrite <- C; ring]. }
  apply e2norm_neq0 in Hx. apply (f_equal e2norm) in C. rewrite !e2norm_mul in C. set (n := e2norm x) in *.
  destruct two_cube as (k & Hk & Hn). apply Hn.
  assert (B : fmul (fpZ 2) (fpow n 3) = fpow (fpZ 4) 3).
  { replace (fpow n 3) with (fmul n (fmul n n)) by (cbn [npow ppow]; reflexivity). rewrite C. apply fval_inj. vm_compute. reflexivity. }
  assert (N : fpow n (3 * k) = fp1) by (rewrite <- Hk; now apply fpow_p1).
  assert (F : fpow (fpZ 4) (3 * k) = fp1). { rewrite <- Hk. apply fpow_p1. intros E. apply (f_equal fval) in E. vm_compute in E. discriminate. }
  rewrite npow_mulF in N, F. rewrite <- B in F. rewrite (npow_mulb _ _ _ _ _ _ Fm_rt) in F. rewrite N in F. refine (eq_trans _ F). unfold fp1. ring.
Qed.
Lemma g2_y_nz x y : g2on (Aff x y) -> y <> E2_Zero.
Proof. intros H ->. exact (g2_no_y0 x H). Qed.

(** ** Conversions (C20) *)
Lemma jac_of_aff_honest x y : run (GetG2JacFromG2Affine (mkG2 x y)) =
  Some (if E2_eqb x E2_Zero && E2_eqb y E2_Zero then mkJ E2_One E2_One E2_Zero else mkJ x y E2_One).
Proof.
  unfold GetG2JacFromG2Affine. rewrite run_bind, run_NotInf. cbn [g2X g2Y].
  rewrite run_bind, (proj1 (determ_E2_Select _ _ _)), run_bind, (proj1 (determ_E2_Select _ _ _)), run_bind, (proj1 (determ_E2_Select _ _ _)).
  destruct (E2_eqb x E2_Zero && E2_eqb y E2_Zero); reflexivity.
Qed.
Lemma jac_of_aff_sat x y r : sat (GetG2JacFromG2Affine (mkG2 x y)) r <->
  r = mkJ x y E2_One \/ (x = E2_Zero /\ y = E2_Zero /\ r = mkJ E2_One E2_One E2_Zero).
Proof.
  unfold GetG2JacFromG2Affine. cbn [g2X g2Y]. rewrite sat_bind.
  assert (D : forall b, determ (z <- E2_Select (bF b) E2_One E2_Zero ;; x' <- E2_Select (bF b) x E2_One ;; y' <- E2_Select (bF b) y E2_One ;; Ret (mkJ x' y' z))
     (if b then mkJ x y E2_One else mkJ E2_One E2_One E2_Zero)).
  { intros b. eapply determ_bind; [apply determ_E2_Select|]. eapply determ_bind; [apply determ_E2_Select|]. eapply determ_bind; [apply determ_E2_Select|].
    destruct b; apply determ_ret. }
  split.
  - intros (v & Hv & H). apply sat_NotInf in Hv. destruct Hv as [->|(-> & -> & ->)]; apply (proj2 (D _)) in H; subst r; [left; reflexivity|].
    right. split; [reflexivity|]. split; reflexivity.
  - intros [->|(-> & -> & ->)].
    + exists (bF true). split; [apply sat_NotInf; left; reflexivity | exact (run_sat _ _ (proj1 (D true)))].
    + exists (bF false). split; [apply sat_NotInf; right; split; [reflexivity|]; split; reflexivity | exact (run_sat _ _ (proj1 (D false)))].
Qed.
Lemma jrep_one x y : jrep (mkJ x y E2_One) (Aff x y).
Proof. unfold jrep, jacobian. cbn [jX jY jZ]. split; [apply E2_1_neq_0 | split; ring]. Qed.
Lemma aff_of_jac_determ J x y : jrep J (Aff x y) -> determ (GetG2AffineFromG2Jac J) (mkG2 x y).
Proof.
  destruct J as [X Y Z]. unfold jrep, jacobian. cbn [jX jY jZ]. intros (N & -> & ->).
  unfold GetG2AffineFromG2Jac. cbn [jX jY jZ].
  assert (I : E2_Mul (E2_inv Z) Z = E2_One) by now apply E2_inv_l. set (i := E2_inv Z) in *.
  eapply determ_bind; [exact (determ_E2_Inverse Z N)|]. fold i. cbv zeta. rewrite E2_Square_eq.
  eapply determ_bind.
  - split; [rewrite run_E2NotZero | intros v Hv; apply sat_E2NotZero in Hv; destruct Hv as [->|[E _]]; [reflexivity | contradiction]].
    destruct (E2_eqb Z E2_Zero) eqn:E; [apply E2_eqb_eq in E; contradiction | reflexivity].
  - eapply determ_bind; [apply (determ_E2_Select true)|]. eapply determ_bind; [apply (determ_E2_Select true)|].
    replace (E2_Mul (E2_Mul x (E2_Mul Z Z)) (E2_Mul i i)) with x by (transitivity (E2_Mul x (E2_Mul (E2_Mul i Z) (E2_Mul i Z))); [rewrite I; ring | ring]).
    replace (E2_Mul (E2_Mul (E2_Mul y (E2_Mul Z (E2_Mul Z Z))) (E2_Mul i i)) i) with y by (transitivity (E2_Mul y (E2_Mul (E2_Mul i Z) (E2_Mul (E2_Mul i Z) (E2_Mul i Z)))); [rewrite I; ring | ring]).
    apply determ_ret.
Qed.
Lemma aff_of_jac_unsat J : jrep J Inf -> unsat (GetG2AffineFromG2Jac J).
Proof.
  unfold jrep, jacobian. intros E r H. unfold GetG2AffineFromG2Jac in H. apply sat_bind in H. destruct H as (i & Hi & _). rewrite E in Hi. exact (unsat_E2_Inverse0 _ Hi).
Qed.
Lemma aff_of_jac_sat J r : sat (GetG2AffineFromG2Jac J) r -> jrep J (aff2 r).
Proof.
  intros H. destruct (E2_dec (jZ J) E2_Zero) as [E|N]; [destruct (aff_of_jac_unsat J E r H)|].
  destruct J as [X Y Z]. cbn [jZ] in N. assert (I : E2_Mul (E2_inv Z) Z = E2_One) by now apply E2_inv_l.
  assert (R : jrep (mkJ X Y Z) (Aff (E2_Mul X (E2_Mul (E2_inv Z) (E2_inv Z))) (E2_Mul Y (E2_Mul (E2_inv Z) (E2_Mul (E2_inv Z) (E2_inv Z)))))).
  { unfold jrep, jacobian. cbn [jX jY jZ]. set (i := E2_inv Z) in *. split; [exact N|]. split.
    - transitivity (E2_Mul X (E2_Mul (E2_Mul i Z) (E2_Mul i Z))); [rewrite I; ring | ring].
    - transitivity (E2_Mul Y (E2_Mul (E2_Mul i Z) (E2_Mul (E2_Mul i Z) (E2_Mul i Z)))); [rewrite I; ring | ring]. }
  apply (proj2 (aff_of_jac_determ _ _ _ R)) in H. subst r. exact R.
Qed.

(** ** Affine addition and doubling (C21) *)
Definition chord2 (l x1 y1 x2 : E2) : G2Affine :=
  let x3 := E2_Sub (E2_Sub (E2_Mul l l) x1) x2 in mkG2 x3 (E2_Sub (E2_Mul l (E2_Sub x1 x3)) y1).
Lemma mkG2_ext x y x' y' : x = x' -> y = y' -> mkG2 x y = mkG2 x' y'. Proof. now intros -> ->. Qed.
Lemma g2add_sat p q r : sat (G2AddAssign p q) r <->
  exists l, E2_Mul l (E2_Sub (g2X q) (g2X p)) = E2_Sub (g2Y q) (g2Y p) /\ r = chord2 l (g2X p) (g2Y p) (g2X q).
Proof.
  unfold G2AddAssign. cbv zeta. rewrite sat_bind.
  assert (S : forall l, E2_Sub (E2_Sub (E2_Square l) (g2X q)) (g2X p) = E2_Sub (E2_Sub (E2_Mul l l) (g2X p)) (g2X q)) by (intros l; rewrite E2_Square_eq; ring).
  split.
  - intros (l & Hl & H). apply sat_E2_Div in Hl. exists l. split; [exact Hl|]. rewrite S in H. symmetry. exact H.
  - intros (l & Hl & ->). exists l. split; [now apply sat_E2_Div|]. rewrite S. reflexivity.
Qed.
Lemma chord2_third l x1 y1 x2 : aff2 (chord2 l x1 y1 x2) = third E2 E2_Mul E2_Sub l x1 y1 x2. Proof. reflexivity. Qed.
Theorem aff_add p q : g2X p <> g2X q -> exists r, determ (G2AddAssign p q) r /\ g2add (aff2 p) (aff2 q) (aff2 r).
Proof.
  intros N. assert (D : E2_Sub (g2X q) (g2X p) <> E2_Zero) by (intros H; apply sub_zero in H; congruence).
  destruct (slope (E2_Sub (g2Y q) (g2Y p)) _ D) as [l Hl]. exists (chord2 l (g2X p) (g2Y p) (g2X q)). split; [split|].
  - unfold G2AddAssign. cbv zeta. rewrite run_bind, (proj1 (determ_E2_Div _ _ D)). cbn [run]. f_equal.
    assert (E : E2_div (E2_Sub (g2Y q) (g2Y p)) (E2_Sub (g2X q) (g2X p)) = l).
    { apply (mul_cancel _ _ _ D). transitivity (E2_Sub (g2Y q) (g2Y p)); [|rewrite <- Hl; ring]. unfold E2_div.
      transitivity (E2_Mul (E2_Sub (g2Y q) (g2Y p)) (E2_Mul (E2_inv (E2_Sub (g2X q) (g2X p))) (E2_Sub (g2X q) (g2X p)))); [ring|]. rewrite E2_inv_l by exact D. ring. }
    rewrite E, E2_Square_eq. unfold chord2. cbv zeta.
    replace (E2_Sub (E2_Sub (E2_Mul l l) (g2X q)) (g2X p)) with (E2_Sub (E2_Sub (E2_Mul l l) (g2X p)) (g2X q)) by ring. reflexivity.
  - intros r H. apply g2add_sat in H. destruct H as (l' & Hl' & ->). assert (E : l' = l) by (apply (mul_cancel _ _ _ D); transitivity (E2_Mul l' (E2_Sub (g2X q) (g2X p))); [ring | rewrite Hl', <- Hl; ring]).
    now rewrite E.
  - rewrite chord2_third. unfold aff2. now apply add_chord.
Qed.
Lemma aff_add_opp p q : g2X p = g2X q -> g2Y p <> g2Y q -> unsat (G2AddAssign p q).
Proof.
  intros E N r H. apply g2add_sat in H. destruct H as (l & Hl & _). apply N. rewrite E in Hl. symmetry. apply sub_zero. rewrite <- Hl. ring.
Qed.
Lemma aff_add_same p l : sat (G2AddAssign p p) (chord2 l (g2X p) (g2Y p) (g2X p)).
Proof. apply g2add_sat. exists l. split; [ring | reflexivity]. Qed.
Lemma three2 : E2_MulByElement E2_One (fpZ 3) = E2_Add (E2_Add E2_One E2_One) E2_One.
Proof. Local Transparent E2_Add. apply E2_ext; unfold E2_MulByElement, E2_Add, E2_One; cbn [A0 A1]; unfold fpZ, fp1, fp0; ring. Qed.
Local Opaque E2_Add.
Lemma byel_mul x c : E2_MulByElement x c = E2_Mul x (E2_MulByElement E2_One c).
Proof. Local Transparent E2_Mul. apply E2_ext; unfold E2_MulByElement, E2_Mul, E2_One; cbn [A0 A1]; unfold fp1, fp0; ring. Qed.
Local Opaque E2_Mul.
Lemma two2 : E2_MulByElement E2_One (fpZ 2) = E2_Add E2_One E2_One.
Proof. Local Transparent E2_Add. apply E2_ext; unfold E2_MulByElement, E2_Add, E2_One; cbn [A0 A1]; unfold fpZ, fp1, fp0; ring. Qed.
Local Opaque E2_Add.
Lemma g2dbl_sat p r : sat (G2Double p) r <->
  exists l, E2_Mul l (E2_Add (g2Y p) (g2Y p)) = E2_Add (E2_Mul (E2_Add (E2_Add E2_One E2_One) E2_One) (E2_Mul (g2X p) (g2X p))) g2a /\ r = chord2 l (g2X p) (g2Y p) (g2X p).
Proof.
  unfold G2Double. cbv zeta. rewrite sat_bind, byel_mul, (byel_mul (g2Y p)), three2, two2, E2_Square_eq.
  assert (T : E2_Mul (E2_Mul (g2X p) (g2X p)) (E2_Add (E2_Add E2_One E2_One) E2_One) = E2_Add (E2_Mul (E2_Add (E2_Add E2_One E2_One) E2_One) (E2_Mul (g2X p) (g2X p))) g2a) by (unfold g2a; ring).
  assert (T2 : E2_Mul (g2Y p) (E2_Add E2_One E2_One) = E2_Add (g2Y p) (g2Y p)) by ring. rewrite T, T2. split.
  - intros (l & Hl & H). apply sat_E2_Div in Hl. exists l. split; [exact Hl|]. rewrite E2_Square_eq in H. symmetry. exact H.
  - intros (l & Hl & ->). exists l. split; [now apply sat_E2_Div|]. rewrite E2_Square_eq. reflexivity.
Qed.
Theorem aff_double p : g2Y p <> E2_Zero -> exists r, determ (G2Double p) r /\ g2add (aff2 p) (aff2 p) (aff2 r).
Proof.
  intros N. assert (D : E2_Add (g2Y p) (g2Y p) <> E2_Zero) by (intros H; exact (N (double_zero _ H))).
  destruct (slope (E2_Add (E2_Mul (E2_Add (E2_Add E2_One E2_One) E2_One) (E2_Mul (g2X p) (g2X p))) g2a) _ D) as [l Hl].
  exists (chord2 l (g2X p) (g2Y p) (g2X p)). split; [split|].
  - unfold G2Double. cbv zeta. rewrite byel_mul, (byel_mul (g2Y p)), three2, two2, !E2_Square_eq.
    replace (E2_Mul (g2Y p) (E2_Add E2_One E2_One)) with (E2_Add (g2Y p) (g2Y p)) by ring.
    rewrite run_bind, (proj1 (determ_E2_Div _ _ D)). cbn [run]. f_equal.
    match goal with |- context[E2_div ?n ?d] => assert (E : E2_div n d = l) end.
    { apply (mul_cancel _ _ _ D). transitivity (E2_Mul l (E2_Add (g2Y p) (g2Y p))); [|ring]. rewrite Hl. unfold E2_div.
      match goal with |- E2_Mul _ (E2_Mul ?n _) = _ => transitivity (E2_Mul n (E2_Mul (E2_inv (E2_Add (g2Y p) (g2Y p))) (E2_Add (g2Y p) (g2Y p)))) end; [ring|]. rewrite E2_inv_l by exact D. unfold g2a. ring. }
    rewrite E, E2_Square_eq. reflexivity.
  - intros r H. apply g2dbl_sat in H. destruct H as (l' & Hl' & ->). assert (E : l' = l) by (apply (mul_cancel _ _ _ D); transitivity (E2_Mul l' (E2_Add (g2Y p) (g2Y p))); [ring | rewrite Hl', <- Hl; ring]).
    now rewrite E.
  - rewrite chord2_third. unfold aff2. now apply add_tangent.
Qed.
Definition affneg (p : G2Affine) : G2Affine := mkG2 (g2X p) (E2_Neg (g2Y p)).
Lemma aff2_neg p : aff2 (affneg p) = g2neg (aff2 p). Proof. reflexivity. Qed.
Lemma aff_sub_eq p q : G2SubAssign p q = G2AddAssign p (affneg q). Proof. reflexivity. Qed.
