(** The group of y^2 = x^3 + 4 over Fp. *)
From Coq Require Import ZArith List Bool Lia Ring Field.
From Verif Require Import Primes Params ZMod Emulated Tower FieldFacts TowerFacts TorusFacts CurveSpec G2Spec PairSpec BlsSpec EcIdeal EcPoly EcGroup PairAdd.
Import ListNotations.
Open Scope Z_scope.
Add Field FpFG : Fp_ft.


Lemma Fp_dec (x y : Fp) : {x = y} + {x <> y}.
Proof. destruct (feqb x y) eqn:E; [left; now apply feqb_eq | right; intros H; apply feqb_eq in H; congruence]. Defined.
Definition Fp_code (x : Fp) : nat * nat := (Z.to_nat (fval x), O).
Definition Fp_decode (n : nat * nat) : Fp := ofZ pBLS (Z.of_nat (fst n)).
Lemma Fp_codeK x : Fp_decode (Fp_code x) = x.
Proof. unfold Fp_decode, Fp_code. cbn [fst]. rewrite Z2Nat.id by (apply fval_range; reflexivity). apply fval_inj; rewrite fval_ofZ; apply fval_mod. Qed.
Lemma Fp_inv0 : finv (f0 pBLS) = f0 pBLS.
Proof. exact (finv_0 (eq_refl : 2 < pBLS)). Qed.
Lemma Fp_double0 (y : Fp) : fadd y y = f0 pBLS -> y = f0 pBLS.
Proof.
  intros H. assert (E : fmul (fadd (f1 pBLS) (f1 pBLS)) y = f0 pBLS) by (rewrite <- H; ring).
  apply fp_integral in E. destruct E as [E|E]; [destruct (fp_2_neq0 E) | exact E].
Qed.
Lemma nonsing1 x y : oncurve1 (Aff x y) -> fadd y y <> f0 pBLS \/
  fadd (fmul (fadd (fadd (f1 pBLS) (f1 pBLS)) (f1 pBLS)) (fmul x x)) (f0 pBLS) <> f0 pBLS.
Proof. intros H. left. intros E. exact (g1_y_nz _ _ H (Fp_double0 _ E)). Qed.

Lemma g1_closed P Q S : oncurve1 P -> oncurve1 Q -> add1 P Q S -> oncurve1 S.
Proof. exact (@plain_closed _ _ _ _ _ _ _ _ _ Fp_ft (f0 pBLS) (ofZ pBLS 4) P Q S). Qed.
Lemma g1_total P Q : oncurve1 P -> oncurve1 Q -> exists S, add1 P Q S.
Proof. exact (@plain_total _ _ _ _ _ _ _ _ _ Fp_ft Fp_dec (f0 pBLS) (ofZ pBLS 4) P Q). Qed.
Lemma g1_comm P Q S : add1 P Q S -> add1 Q P S.
Proof. exact (@plain_comm _ _ _ _ _ _ _ _ _ Fp_ft (f0 pBLS) P Q S). Qed.
Lemma g1_func P Q S S' : oncurve1 P -> oncurve1 Q -> add1 P Q S -> add1 P Q S' -> S = S'.
Proof. exact (@plain_fun _ _ _ _ _ _ _ _ _ Fp_ft Fp_dec _ _ Fp_codeK Fp_inv0 (f0 pBLS) (ofZ pBLS 4) nonsing1 P Q S S'). Qed.
Theorem g1_assoc P Q R D E G G' : oncurve1 P -> oncurve1 Q -> oncurve1 R -> add1 P Q D -> add1 D R G -> add1 Q R E -> add1 P E G' -> G = G'.
Proof. exact (@plain_assoc _ _ _ _ _ _ _ _ _ Fp_ft Fp_dec _ _ Fp_codeK Fp_inv0 (f0 pBLS) (ofZ pBLS 4) nonsing1 P Q R D E G G'). Qed.
Ltac grp1 l := unfold oncurve1, mul1, neg1 in *;
  eapply l; try first [exact Fp_ft | exact g1_closed | exact g1_total | exact g1_comm | exact g1_func | exact g1_assoc | eassumption].
Lemma g1_neg_on P : oncurve1 P -> oncurve1 (neg1 P). Proof. intros. grp1 neg_on. Qed.
Lemma g1_neg_neg P : neg1 (neg1 P) = P. Proof. grp1 neg_inv. Qed.
Lemma g1_neg_add P Q S : add1 P Q S -> add1 (neg1 P) (neg1 Q) (neg1 S). Proof. intros. grp1 neg_add. Qed.
Lemma g1_add_neg P : add1 P (neg1 P) Inf. Proof. grp1 add_self_neg. Qed.
Lemma g1_add_cancel P Q S : oncurve1 P -> oncurve1 Q -> add1 P Q S -> add1 S (neg1 Q) P. Proof. intros. grp1 add_cancel. Qed.
Lemma g1_mul_ex P k : oncurve1 P -> exists R, mul1 P k R. Proof. intros. grp1 zmul_ex. Qed.
Lemma g1_mul_fun P k R R' : oncurve1 P -> mul1 P k R -> mul1 P k R' -> R = R'. Proof. intros. grp1 zmul_fun. Qed.
Lemma g1_mul_on P k R : oncurve1 P -> mul1 P k R -> oncurve1 R. Proof. intros. grp1 zmul_on. Qed.
Lemma g1_mul_neg P k R : mul1 P k R -> mul1 P (- k) (neg1 R). Proof. intros. grp1 zmul_neg. Qed.
Lemma g1_mul_step P k A B : oncurve1 P -> mul1 P k A -> add1 A P B -> mul1 P (k + 1) B. Proof. intros. grp1 zmul_step. Qed.
Lemma g1_mul_back P k A B : oncurve1 P -> mul1 P k A -> add1 A (neg1 P) B -> mul1 P (k - 1) B. Proof. intros. grp1 zmul_back. Qed.
Theorem g1_mul_add P i j A B C : oncurve1 P -> mul1 P i A -> mul1 P j B -> add1 A B C -> mul1 P (i + j) C. Proof. intros. grp1 zmul_add. Qed.
Theorem g1_mul_mul P i j A B : oncurve1 P -> mul1 P i A -> mul1 A j B -> mul1 P (i * j) B. Proof. intros. grp1 zmul_zmul. Qed.
Lemma g1_mul_1 P : mul1 P 1 P. Proof. grp1 zmul_1. Qed.
Lemma g1_mul_0 P : mul1 P 0 Inf. Proof. grp1 zmul_0. Qed.
