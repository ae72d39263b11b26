(** The order-r subgroups of the two curves are cyclic, generated by the
    standard generators, and the criterion psi(P) = [x]P describes the one of
    the twist exactly. *)
From Coq Require Import ZArith List Bool Lia Field Znumtheory.
From Verif Require Import Primes Primes2 Pairing FixedQ Params ZMod RingPow Circuit Emulated FieldFacts Tower TowerFacts CurveSpec G2 PairSpec G2Spec EcGroup G2Jac G2Mul G2Cof G2Psi G2Clear G2Order G2Gen G2Refute Bls BlsSpec G1Group PairMul SigSpec PairSig G1Order Cyclic TwistPt.
Import ListNotations.
Open Scope Z_scope.
Add Field E2FCY : E2_ft.
Add Field FpFCY : Fp_ft.

(** *** counting points *)
Definition e2code (x : E2) : Z := fval (A0 x) + pBLS * fval (A1 x).
Definition g2code (P : point E2) : Z :=
  match P with Inf => 0 | Aff x y => 1 + 2 * e2code x + (if e2code y <? e2code (E2_Neg y) then 1 else 0) end.
Definition g1code (P : point Fp) : Z :=
  match P with Inf => 0 | Aff x y => 1 + 2 * fval x + (if fval y <? fval (fopp y) then 1 else 0) end.
Lemma fval_pos (x : Fp) : 0 <= fval x < pBLS. Proof. apply fval_range. reflexivity. Qed.
Lemma lin_range a b p : 0 <= a < p -> 0 <= b < p -> 0 <= a + p * b < p * p. Proof. nia. Qed.
Lemma lin_inj a b c d p : 0 <= a < p -> 0 <= c < p -> a + p * b = c + p * d -> a = c /\ b = d.
Proof. intros. assert (b = d) by nia. subst. lia. Qed.
Lemma e2code_range x : 0 <= e2code x < pBLS * pBLS.
Proof. apply lin_range; apply fval_pos. Qed.
Lemma e2code_inj x y : e2code x = e2code y -> x = y.
Proof.
  intros H. apply lin_inj in H; [|apply fval_pos|apply fval_pos].
  destruct x as [a b], y as [c d]. cbn [A0 A1] in H. destruct H as [H1 H2]. f_equal; now apply fval_inj.
Qed.
Lemma g2code_range P : 0 <= g2code P < 2 * (pBLS * pBLS) + 1.
Proof. destruct P as [|x y]; cbn [g2code]; [split; reflexivity|]. pose proof (e2code_range x) as H. revert H. generalize (pBLS * pBLS). intros q H. destruct (_ <? _); lia. Qed.
Lemma g1code_range P : 0 <= g1code P < 2 * pBLS + 1.
Proof. destruct P as [|x y]; cbn [g1code]; [split; reflexivity|]. pose proof (fval_pos x) as H. destruct (_ <? _); lia. Qed.
Lemma bit_split a b (s t : bool) : 1 + 2 * a + (if s then 1 else 0) = 1 + 2 * b + (if t then 1 else 0) -> a = b /\ s = t.
Proof. destruct s, t; intros; split; try reflexivity; lia. Qed.
Lemma g2code_inj P Q : g2on P -> g2on Q -> g2code P = g2code Q -> P = Q.
Proof.
  destruct P as [|x y], Q as [|x' y']; cbn [g2code]; intros HP HQ H.
  - reflexivity.
  - pose proof (e2code_range x'). destruct (_ <? _); lia.
  - pose proof (e2code_range x). destruct (_ <? _); lia.
  - apply bit_split in H. destruct H as [H1 H2]. apply e2code_inj in H1. subst x'. unfold g2on in HP, HQ. cbn [on_curve] in HP, HQ. rewrite <- HP in HQ.
    assert (Z : E2_Mul (E2_Sub y' y) (E2_Sub y' (E2_Neg y)) = E2_Zero). { transitivity (E2_Sub (E2_Mul y' y') (E2_Mul y y)); [ring|]. rewrite HQ. ring. }
    apply E2_integral in Z. destruct Z as [Z|Z].
    + f_equal. transitivity (E2_Add (E2_Sub y' y) y); [rewrite Z; ring | ring].
    + assert (E : y' = E2_Neg y). { transitivity (E2_Add (E2_Sub y' (E2_Neg y)) (E2_Neg y)); [ring | rewrite Z; ring]. }
      assert (E' : y = E2_Neg y') by (rewrite E; ring). rewrite <- E, <- E' in H2. f_equal. apply e2code_inj.
      destruct (Z.ltb_spec (e2code y) (e2code y')), (Z.ltb_spec (e2code y') (e2code y)); try discriminate; lia.
Qed.
Lemma Fp_integral (x y : Fp) : fmul x y = f0 pBLS -> x = f0 pBLS \/ y = f0 pBLS.
Proof. intros H. destruct (Fp_dec x (f0 pBLS)) as [E|N]; [now left|right]. transitivity (fmul (finv x) (fmul x y)); [field; exact N|]. rewrite H. ring. Qed.
Lemma g1code_inj P Q : oncurve1 P -> oncurve1 Q -> g1code P = g1code Q -> P = Q.
Proof.
  destruct P as [|x y], Q as [|x' y']; cbn [g1code]; intros HP HQ H.
  - reflexivity.
  - pose proof (fval_pos x'). destruct (_ <? _); lia.
  - pose proof (fval_pos x). destruct (_ <? _); lia.
  - apply bit_split in H. destruct H as [H1 H2]. apply fval_inj in H1. subst x'. unfold oncurve1 in HP, HQ. cbn [on_curve] in HP, HQ. rewrite <- HP in HQ.
    assert (Z : fmul (fsub y' y) (fsub y' (fopp y)) = f0 pBLS). { transitivity (fsub (fmul y' y') (fmul y y)); [ring|]. rewrite HQ. ring. }
    apply Fp_integral in Z. destruct Z as [Z|Z].
    + f_equal. transitivity (fadd (fsub y' y) y); [rewrite Z; ring | ring].
    + assert (E : y' = fopp y). { transitivity (fadd (fsub y' (fopp y)) (fopp y)); [ring | rewrite Z; ring]. }
      assert (E' : y = fopp y') by (rewrite E; ring). rewrite <- E, <- E' in H2. f_equal. apply fval_inj.
      destruct (Z.ltb_spec (fval y) (fval y')), (Z.ltb_spec (fval y') (fval y)); try discriminate; lia.
Qed.

(** *** orders *)
Lemma g2_dec (P Q : point E2) : {P = Q} + {P <> Q}.
Proof. decide equality; apply E2_dec. Qed.
Lemma g1_dec (P Q : point Fp) : {P = Q} + {P <> Q}.
Proof. decide equality; apply Fp_dec. Qed.
Lemma g2_add_O P : g2on P -> g2add Inf P P. Proof. intros _. constructor. Qed.
Lemma g1_add_O P : oncurve1 P -> add1 Inf P P. Proof. intros _. constructor. Qed.
Lemma g1_mul_Inf k R : mul1 Inf k R -> R = Inf.
Proof.
  intros H. assert (I : oncurve1 Inf) by exact Logic.I.
  pose proof (g1_mul_mul _ _ _ _ _ I (g1_mul_0 Inf) H) as G. rewrite Z.mul_0_l in G. exact (g1_mul_fun _ _ _ _ I G (g1_mul_0 Inf)).
Qed.
Lemma Stw_mult n : g2mul Stw (rBLS * n) Inf -> (qTW | n).
Proof.
  intros H. apply Gauss with rBLS.
  - exact (G_mult _ g2on g2add Inf g2mul g2_comm g2_add_O g2_mul_ex g2_mul_fun g2_mul_on g2_mul_add g2_mul_mul g2_mul_1 g2_mul_0 g2_mul_Inf qTW Stw qTW_prime Stw_on Stw_order ltac:(discriminate) _ H).
  - apply prime_rel_prime; [exact qTW_prime|]. intros D. apply Z.divide_pos_le in D; [|reflexivity]. revert D. vm_compute. now intros C.
Qed.

Theorem G2_cyclic Q : g2on Q -> g2mul Q rBLS Inf -> exists k, g2mul (aff2 G2gen) k Q.
Proof.
  apply (cyclic _ g2on g2add g2neg Inf g2mul g2_dec g2_closed g2_total g2_comm g2_func g2_assoc g2_add_O g2_add_cancel g2_neg_on g2_mul_ex g2_mul_fun g2_mul_on
    g2_mul_add g2_mul_mul g2_mul_1 g2_mul_0 g2_mul_Inf g2code (2 * (pBLS * pBLS) + 1) (fun P _ => g2code_range P) g2code_inj rBLS qTW (aff2 G2gen) Stw
    rBLS_prime gen_on Stw_on (in_G2_order _ gen_in_G2)); [discriminate | reflexivity | exact Stw_mult | reflexivity].
Qed.
(** the criterion psi(P) = [x]P characterises the order-r subgroup *)
Theorem in_G2_iff P : in_G2 P <-> g2on P /\ P <> Inf /\ g2mul P rBLS Inf.
Proof.
  split.
  - intros H. split; [exact (proj1 H)|]. split; [exact (proj1 (proj2 H)) | exact (in_G2_order P H)].
  - intros (HP & N & HO). destruct (G2_cyclic P HP HO) as (k & Hk). exact (in_G2_mul _ _ _ gen_in_G2 Hk N).
Qed.

(** *** the first group *)
Theorem G1_cyclic P : oncurve1 P -> mul1 P rBLS Inf -> exists k, mul1 (g1aff G1gen) k P.
Proof.
  apply (cyclic _ oncurve1 add1 neg1 Inf mul1 g1_dec g1_closed g1_total g1_comm g1_func g1_assoc g1_add_O g1_add_cancel g1_neg_on g1_mul_ex g1_mul_fun g1_mul_on
    g1_mul_add g1_mul_mul g1_mul_1 g1_mul_0 g1_mul_Inf g1code (2 * pBLS + 1) (fun P _ => g1code_range P) g1code_inj rBLS 1 (g1aff G1gen) Inf
    rBLS_prime G1gen_on Logic.I G1gen_order); [discriminate | reflexivity | intros n _; apply Z.divide_1_l | reflexivity].
Qed.
