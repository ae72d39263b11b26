(** psi and cofactor clearing. *)
From Coq Require Import ZArith NArith List Bool Lia Ring Field.
From Verif Require Import Params ZMod RingPow Circuit Api Emulated ApiFacts FieldFacts Tower TowerFacts TowerProofs Pairing CurveSpec FastMod FastParams FastTower G2 HashG2 G2Spec G2Pred EcGroup G2Jac G2Mul G2Cof.
Import ListNotations.
Open Scope Z_scope.
Add Field E2FP : E2_ft.

(** constants *)
Lemma psi_u_def : E2_Mul psi_u (e2pow E2_NonResidue (Z.to_N ((pBLS - 1) / 3))) = E2_One.
Proof. unfold psi_u. let n := eval vm_compute in (Z.to_N ((pBLS - 1) / 3)) in change (Z.to_N ((pBLS - 1) / 3)) with n. fast_e2. Qed.
Lemma psi_v_def : E2_Mul psi_v (e2pow E2_NonResidue (Z.to_N ((pBLS - 1) / 2))) = E2_One.
Proof. unfold psi_v. let n := eval vm_compute in (Z.to_N ((pBLS - 1) / 2)) in change (Z.to_N ((pBLS - 1) / 2)) with n. fast_e2. Qed.
Lemma psi_uv : E2_Mul psi_v psi_v = E2_Mul (E2_Mul psi_u psi_u) psi_u.
Proof. unfold psi_u, psi_v. fast_e2. Qed.
Lemma psi_b : E2_Mul (E2_Conjugate g2b) (E2_Mul psi_v psi_v) = g2b.
Proof. unfold psi_v, g2b, E2_Conjugate. cbn [A0 A1]. fast_e2. Qed.
Lemma psi_uu : E2_Mul (E2_Conjugate psi_u) psi_u = E2_MulByElement E2_One thirdRootOneG1.
Proof. unfold E2_MulByElement, psi_u, E2_Conjugate, thirdRootOneG1, E2_One. cbn [A0 A1]. fast_e2. Qed.
Lemma psi_vv : E2_Mul (E2_Conjugate psi_v) psi_v = E2_Neg E2_One.
Proof. unfold psi_v, E2_Conjugate, E2_Neg, E2_One. cbn [A0 A1]. fast_e2. Qed.
Lemma w3_cube : fmul thirdRootOneG1 (fmul thirdRootOneG1 thirdRootOneG1) = fp1 /\ thirdRootOneG1 <> fp1.
Proof. unfold thirdRootOneG1. split; fast_fp. Qed.
Lemma psi_u_nz : psi_u <> E2_Zero.
Proof. intros E. pose proof psi_u_def as H. rewrite E in H. apply E2_1_neq_0. rewrite <- H at 1. ring. Qed.
Lemma psi_v_nz : psi_v <> E2_Zero.
Proof. intros E. pose proof psi_v_def as H. rewrite E in H. apply E2_1_neq_0. rewrite <- H at 1. ring. Qed.
Lemma conj_0 : E2_Conjugate E2_Zero = E2_Zero.
Proof. apply E2_ext; unfold E2_Conjugate, E2_Zero; cbn [A0 A1]; unfold fp0; ring. Qed.
Lemma conj_1 : E2_Conjugate E2_One = E2_One.
Proof. apply E2_ext; unfold E2_Conjugate, E2_One; cbn [A0 A1]; unfold fp0; ring. Qed.
Lemma conj_neg x : E2_Conjugate (E2_Neg x) = E2_Neg (E2_Conjugate x).
Proof. apply E2_ext; unfold E2_Conjugate, E2_Neg; cbn [A0 A1]; ring. Qed.
Lemma conj_sub x y : E2_Conjugate (E2_Sub x y) = E2_Sub (E2_Conjugate x) (E2_Conjugate y).
Proof. apply E2_ext; unfold E2_Conjugate, E2_Sub; cbn [A0 A1]; ring. Qed.
Lemma conj_nz x : x <> E2_Zero -> E2_Conjugate x <> E2_Zero.
Proof. intros N H. apply N. rewrite <- (E2_Conj_Conj x), H. exact conj_0. Qed.
Local Opaque E2_Mul E2_Add E2_Sub E2_Neg E2_Conjugate.
Ltac conj := repeat first [rewrite E2_Conj_mul | rewrite E2_Conj_add | rewrite conj_sub | rewrite conj_neg | rewrite conj_0 | rewrite conj_1].

Definition psiP (P : point E2) : point E2 :=
  match P with Inf => Inf | Aff x y => Aff (E2_Mul (E2_Conjugate x) psi_u) (E2_Mul (E2_Conjugate y) psi_v) end.
Lemma cancel_r c x y : c <> E2_Zero -> E2_Mul x c = E2_Mul y c -> x = y.
Proof. intros N H. apply (mul_cancel c _ _ N). transitivity (E2_Mul x c); [ring|]. rewrite H. ring. Qed.
Lemma pow_nz_of i c : E2_Mul i c = E2_One -> c <> E2_Zero.
Proof. intros H ->. apply E2_1_neq_0. rewrite <- H. ring. Qed.
(** the code's map is the untwist-Frobenius-twist map *)
Lemma psiP_spec P Q : psi_of P Q <-> Q = psiP P.
Proof.
  assert (PN : Z.to_N pBLS = pN) by reflexivity.
  pose proof psi_u_def as Hu. pose proof psi_v_def as Hv. pose proof (pow_nz_of _ _ Hu) as Nu. pose proof (pow_nz_of _ _ Hv) as Nv.
  unfold psi_of. rewrite PN. revert Hu Hv Nu Nv. generalize (e2pow E2_NonResidue (Z.to_N ((pBLS - 1) / 3))) (e2pow E2_NonResidue (Z.to_N ((pBLS - 1) / 2))).
  intros cu cv Hu Hv Nu Nv. destruct P as [|x y], Q as [|x' y']; cbn [psiP]; try (split; [tauto | discriminate]); [split; reflexivity|].
  rewrite !e2pow_p. split.
  - intros [Hx Hy]. apply f_equal2.
    + apply (cancel_r cu _ _ Nu). rewrite Hx. transitivity (E2_Mul (E2_Conjugate x) (E2_Mul psi_u cu)); [rewrite Hu|]; ring.
    + apply (cancel_r cv _ _ Nv). rewrite Hy. transitivity (E2_Mul (E2_Conjugate y) (E2_Mul psi_v cv)); [rewrite Hv|]; ring.
  - intros [= -> ->]. split.
    + transitivity (E2_Mul (E2_Conjugate x) (E2_Mul psi_u cu)); [|rewrite Hu]; ring.
    + transitivity (E2_Mul (E2_Conjugate y) (E2_Mul psi_v cv)); [|rewrite Hv]; ring.
Qed.
Lemma psiP_on P : g2on P -> g2on (psiP P).
Proof.
  destruct P as [|x y]; [auto|]. unfold g2on. cbn [psiP on_curve]. unfold g2a. intros H. apply (f_equal E2_Conjugate) in H.
  revert H. conj. intros H.
  transitivity (E2_Mul (E2_Mul (E2_Conjugate y) (E2_Conjugate y)) (E2_Mul psi_v psi_v)); [ring|]. rewrite H.
  transitivity (E2_Add (E2_Mul (E2_Mul (E2_Mul (E2_Conjugate x) (E2_Conjugate x)) (E2_Conjugate x)) (E2_Mul psi_v psi_v)) (E2_Mul (E2_Conjugate g2b) (E2_Mul psi_v psi_v))); [ring|].
  rewrite psi_b, psi_uv. ring.
Qed.
Lemma psiP_neg P : psiP (g2neg P) = g2neg (psiP P).
Proof. destruct P as [|x y]; [reflexivity|]. unfold g2neg. cbn [psiP pneg]. rewrite conj_neg. apply f_equal. ring. Qed.
(** psi is a homomorphism *)
Theorem psiP_add P Q S : g2add P Q S -> g2add (psiP P) (psiP Q) (psiP S).
Proof.
  unfold g2add, g2a. destruct 1 as [Q|P|x y y' E|x1 y1 x2 y2 l N E|x y l N E]; cbn [psiP].
  - apply add_inf_l.
  - apply add_inf_r.
  - apply add_opp. rewrite E, conj_neg. ring.
  - destruct (slope psi_v _ psi_u_nz) as [m Hm].
    assert (M2 : E2_Mul m m = psi_u).
    { apply (cancel_r (E2_Mul psi_u psi_u) _ _ (mul_neq0 _ _ psi_u_nz psi_u_nz)). transitivity (E2_Mul (E2_Mul m psi_u) (E2_Mul m psi_u)); [ring|]. rewrite Hm, psi_uv. ring. }
    replace (psiP (third E2 E2_Mul E2_Sub l x1 y1 x2)) with
      (third E2 E2_Mul E2_Sub (E2_Mul (E2_Conjugate l) m) (E2_Mul (E2_Conjugate x1) psi_u) (E2_Mul (E2_Conjugate y1) psi_v) (E2_Mul (E2_Conjugate x2) psi_u)).
    + apply add_chord.
      * intros H. apply N. apply (cancel_r _ _ _ psi_u_nz) in H. rewrite <- (E2_Conj_Conj x1), H. apply E2_Conj_Conj.
      * apply (f_equal E2_Conjugate) in E. revert E. conj. intros E.
        transitivity (E2_Mul (E2_Mul (E2_Conjugate l) (E2_Sub (E2_Conjugate x2) (E2_Conjugate x1))) (E2_Mul m psi_u)); [ring|]. rewrite E, Hm. ring.
    + unfold third. cbv zeta. cbn [psiP]. conj. rewrite <- Hm. rewrite <- !M2. apply f_equal2; ring.
  - destruct (slope psi_v _ psi_u_nz) as [m Hm].
    assert (M2 : E2_Mul m m = psi_u).
    { apply (cancel_r (E2_Mul psi_u psi_u) _ _ (mul_neq0 _ _ psi_u_nz psi_u_nz)). transitivity (E2_Mul (E2_Mul m psi_u) (E2_Mul m psi_u)); [ring|]. rewrite Hm, psi_uv. ring. }
    replace (psiP (third E2 E2_Mul E2_Sub l x y x)) with
      (third E2 E2_Mul E2_Sub (E2_Mul (E2_Conjugate l) m) (E2_Mul (E2_Conjugate x) psi_u) (E2_Mul (E2_Conjugate y) psi_v) (E2_Mul (E2_Conjugate x) psi_u)).
    + apply add_tangent.
      * intros H. apply (conj_nz _ N). rewrite E2_Conj_add. apply (cancel_r _ _ _ psi_v_nz). transitivity (E2_Add (E2_Mul (E2_Conjugate y) psi_v) (E2_Mul (E2_Conjugate y) psi_v)); [ring|]. rewrite H. ring.
      * apply (f_equal E2_Conjugate) in E. revert E. conj. intros E.
        transitivity (E2_Mul (E2_Mul (E2_Conjugate l) (E2_Add (E2_Conjugate y) (E2_Conjugate y))) (E2_Mul m psi_v)); [ring|]. rewrite E, <- Hm.
        transitivity (E2_Mul (E2_Mul (E2_Add (E2_Add E2_One E2_One) E2_One) (E2_Mul (E2_Conjugate x) (E2_Conjugate x))) (E2_Mul (E2_Mul m m) psi_u)); [ring|]. rewrite M2. ring.
    + unfold third. cbv zeta. cbn [psiP]. conj. rewrite <- Hm. rewrite <- !M2. apply f_equal2; ring.
Qed.
Lemma psiP_psi x y : psiP (psiP (Aff x y)) = Aff (E2_MulByElement x thirdRootOneG1) (E2_Neg y).
Proof.
  cbn [psiP]. conj. rewrite !E2_Conj_Conj. apply f_equal2.
  - rewrite byel_mul, <- psi_uu. ring.
  - transitivity (E2_Mul y (E2_Mul (E2_Conjugate psi_v) psi_v)); [ring|]. rewrite psi_vv. ring.
Qed.
Lemma aff_psi p : aff2 (G2Psi p) = psiP (aff2 p). Proof. reflexivity. Qed.
Lemma jrep_psi J P : jrep J P -> jrep (G2JacobianPsi J) (psiP P).
Proof.
  destruct J as [X Y Z]. unfold jrep, jacobian, G2JacobianPsi. cbn [jX jY jZ]. destruct P as [|x y]; cbn [psiP].
  - intros ->. apply conj_0.
  - intros (N & -> & ->). split; [now apply conj_nz|]. conj. split; ring.
Qed.
Lemma jrep_neg J P : jrep J P -> jrep (G2JacobianNeg J) (g2neg P).
Proof.
  destruct J as [X Y Z]. unfold jrep, jacobian, G2JacobianNeg, g2neg. cbn [jX jY jZ]. destruct P as [|x y]; cbn [pneg]; [auto|].
  intros (N & -> & ->). split; [exact N|]. split; ring.
Qed.
(** third-root scaling is minus the square of psi *)
Lemma jrep_w3 J P : jrep J P -> jrep (mkJ (E2_MulByElement (jX J) thirdRootOneG1) (jY J) (jZ J)) (g2neg (psiP (psiP P))).
Proof.
  destruct J as [X Y Z]. cbn [jX jY jZ]. destruct P as [|x y]; [auto|]. rewrite psiP_psi. unfold jrep, jacobian, g2neg. cbn [jX jY jZ pneg].
  intros (N & -> & ->). rewrite (byel_mul x), byel_mul. split; [exact N|]. split; ring.
Qed.
