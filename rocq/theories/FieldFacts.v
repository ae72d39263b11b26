(** Field structure of Fp and ring structures of E2, E6, E12. *)
From Coq Require Import ZArith List Bool Lia Ring Field Znumtheory.
From Verif Require Import Params ZMod RingPow Primes Circuit Api Emulated Tower.
Import ListNotations.
Open Scope Z_scope.

Lemma pBLS_pos : 0 < pBLS. Proof. reflexivity. Qed.
Lemma rBN_pos : 0 < rBN. Proof. reflexivity. Qed.

(** ** finv *)
Lemma finv_l {n} (a : Fm n) : prime n -> a <> f0 n -> fmul (finv a) a = f1 n.
Proof.
  intros P H. unfold finv. set (c := ofZ n _).
  destruct (feqb (fmul a c) (f1 n)) eqn:E.
  - apply feqb_eq in E. rewrite <- E. apply (Rmul_comm Fm_rt).
  - clear E c. pose proof (prime_ge_2 n P).
    pose proof (fermat1 n P a H) as F.
    replace (Z.to_N (n - 1)) with (N.succ (Z.to_N (n - 2))) in F by lia.
    rewrite (npow_succ _ _ _ _ _ _ Fm_rt) in F.
    etransitivity; [apply (Rmul_comm Fm_rt) | exact F].
Qed.

Definition fdiv {n} (a b : Fm n) : Fm n := fmul a (finv b).

Lemma Fm_ft {n} : prime n ->
  field_theory (f0 n) (f1 n) fadd fmul fsub fopp fdiv finv (@eq (Fm n)).
Proof.
  intros P. constructor.
  - apply Fm_rt.
  - apply fm_1_neq_0; exact P.
  - reflexivity.
  - intros a H. now apply finv_l.
Qed.

Section Z0.
Variable n : Z.
Add Ring Fn : (@Fm_rt n).
Lemma fmul_0_l (c : Fm n) : fmul (f0 n) c = f0 n. Proof. ring. Qed.
End Z0.

Lemma finv_0 {n} : 2 < n -> finv (f0 n) = f0 n.
Proof.
  intros H. unfold finv. set (c := ofZ n _).
  assert (fmul (f0 n) c = f0 n) as E.
  { apply fmul_0_l. }
  rewrite E. destruct (feqb (f0 n) (f1 n)) eqn:E1.
  - exfalso. apply feqb_eq in E1. apply (f_equal fval) in E1. unfold f0, f1 in E1.
    rewrite !fval_ofZ, !Z.mod_small in E1 by lia. discriminate.
  - apply (npow_0l _ _ _ _ _ _ Fm_rt). lia.
Qed.

Ltac fpcst t :=
  match t with
  | f0 _ => constr:(0)
  | f1 _ => constr:(1)
  | ofZ _ ?z => match isZcst z with true => z | _ => constr:(InitialRing.NotConstant) end
  | fpZ ?z => match isZcst z with true => z | _ => constr:(InitialRing.NotConstant) end
  | _ => constr:(InitialRing.NotConstant)
  end.

Definition Fp_ft := @Fm_ft pBLS pBLS_prime.
Definition Fr_ft := @Fm_ft rBN rBN_prime.
Add Field FpField : Fp_ft (morphism (@ofZ_morph pBLS), constants [fpcst]).
Add Field FrField : Fr_ft (morphism (@ofZ_morph rBN), constants [fpcst]).

(** ** extensionality *)
Lemma E2_ext x y : A0 x = A0 y -> A1 x = A1 y -> x = y.
Proof. destruct x, y; cbn; congruence. Qed.
Lemma E6_ext x y : B0 x = B0 y -> B1 x = B1 y -> B2 x = B2 y -> x = y.
Proof. destruct x, y; cbn; congruence. Qed.
Lemma E12_ext x y : C0 x = C0 y -> C1 x = C1 y -> x = y.
Proof. destruct x, y; cbn; congruence. Qed.

Lemma E2_eqb_eq x y : E2_eqb x y = true <-> x = y.
Proof.
  unfold E2_eqb. rewrite andb_true_iff, !feqb_eq.
  split; [intros [? ?]; now apply E2_ext | intros ->; auto].
Qed.
Lemma E6_eqb_eq x y : E6_eqb x y = true <-> x = y.
Proof.
  unfold E6_eqb. rewrite !andb_true_iff, !E2_eqb_eq.
  split; [intros [[? ?] ?]; now apply E6_ext | intros ->; auto].
Qed.
Lemma E12_eqb_eq x y : E12_eqb x y = true <-> x = y.
Proof.
  unfold E12_eqb. rewrite !andb_true_iff, !E6_eqb_eq.
  split; [intros [? ?]; now apply E12_ext | intros ->; auto].
Qed.
Lemma E2_eq_dec (x y : E2) : {x = y} + {x <> y}.
Proof.
  destruct (E2_eqb x y) eqn:E; [left; now apply E2_eqb_eq | right; intros H; apply E2_eqb_eq in H; congruence].
Defined.
Lemma E6_eq_dec (x y : E6) : {x = y} + {x <> y}.
Proof.
  destruct (E6_eqb x y) eqn:E; [left; now apply E6_eqb_eq | right; intros H; apply E6_eqb_eq in H; congruence].
Defined.
Lemma E12_eq_dec (x y : E12) : {x = y} + {x <> y}.
Proof.
  destruct (E12_eqb x y) eqn:E; [left; now apply E12_eqb_eq | right; intros H; apply E12_eqb_eq in H; congruence].
Defined.

(** ** E2 ring *)
Ltac e2_ring := apply E2_ext;
  cbn [A0 A1 E2_Add E2_Mul E2_Sub E2_Neg E2_One E2_Zero E2_Square E2_Double E2_MulByNonResidue
       E2_NonResidue E2_MulByElement E2_MulByConstElement E2_Conjugate fp_MulConst];
  unfold fp_MulConst; ring.

Lemma E2_rt : ring_theory E2_Zero E2_One E2_Add E2_Mul E2_Sub E2_Neg (@eq E2).
Proof. constructor; intros; e2_ring. Qed.
Add Ring E2Ring0 : E2_rt.

Lemma E2_Square_eq x : E2_Square x = E2_Mul x x. Proof. e2_ring. Qed.
Lemma E2_Double_eq x : E2_Double x = E2_Add x x. Proof. e2_ring. Qed.
Lemma E2_MulByNonResidue_eq x : E2_MulByNonResidue x = E2_Mul E2_NonResidue x.
Proof. e2_ring. Qed.
(** embedding of Fp in E2 *)
Definition e2_of (a : Fp) : E2 := mkE2 a fp0.
Lemma E2_MulByElement_eq x a : E2_MulByElement x a = E2_Mul x (e2_of a).
Proof. unfold e2_of. e2_ring. Qed.
Lemma E2_MulByConstElement_eq x c : E2_MulByConstElement x c = E2_Mul x (e2_of (fpZ c)).
Proof. unfold e2_of. apply E2_ext; cbn; unfold fp_MulConst; ring. Qed.

(** rewrite the special-purpose functions into ring operations *)
Ltac e2_norm := rewrite ?E2_Square_eq, ?E2_Double_eq, ?E2_MulByNonResidue_eq.

(** ** E6 ring *)
Ltac e6_unf :=
  cbn [B0 B1 B2 E6_Add E6_Mul E6_Sub E6_Neg E6_One E6_Zero E6_Square E6_Double E6_MulByNonResidue
       E6_MulByE2 E6_MulBy12 E6_MulBy0 E6_MulBy01].
Ltac e6_ring := apply E6_ext; e6_unf; e2_norm; ring.

Lemma E6_rt : ring_theory E6_Zero E6_One E6_Add E6_Mul E6_Sub E6_Neg (@eq E6).
Proof. constructor; intros; e6_ring. Qed.
Add Ring E6Ring0 : E6_rt.

(** the element v of E6 *)
Definition e6_v : E6 := mkE6 E2_Zero E2_One E2_Zero.
Definition e6_of (a : E2) : E6 := mkE6 a E2_Zero E2_Zero.
Lemma E6_Square_eq x : E6_Square x = E6_Mul x x. Proof. e6_ring. Qed.
Lemma E6_Double_eq x : E6_Double x = E6_Add x x. Proof. e6_ring. Qed.
Lemma E6_MulByNonResidue_eq x : E6_MulByNonResidue x = E6_Mul e6_v x.
Proof. unfold e6_v; e6_ring. Qed.
Lemma E6_MulByE2_eq x y : E6_MulByE2 x y = E6_Mul x (e6_of y).
Proof. unfold e6_of; e6_ring. Qed.
Lemma E6_MulBy0_eq x y : E6_MulBy0 x y = E6_Mul x (mkE6 y E2_Zero E2_Zero).
Proof. e6_ring. Qed.
Lemma E6_MulBy01_eq x y z : E6_MulBy01 x y z = E6_Mul x (mkE6 y z E2_Zero).
Proof. e6_ring. Qed.
Lemma E6_MulBy12_eq x y z : E6_MulBy12 x y z = E6_Mul x (mkE6 E2_Zero y z).
Proof. e6_ring. Qed.
Lemma e6_v3 : E6_Mul e6_v (E6_Mul e6_v e6_v) = e6_of E2_NonResidue.
Proof. unfold e6_v, e6_of; e6_ring. Qed.

Ltac e6_norm := rewrite ?E6_Square_eq, ?E6_Double_eq, ?E6_MulByNonResidue_eq.

(** ** E12 ring *)
Ltac e12_unf :=
  cbn [C0 C1 E12_Add E12_Mul E12_Sub E12_Neg E12_One E12_Zero E12_Square E12_Conjugate].
Ltac e12_ring := apply E12_ext; e12_unf; e6_norm; ring.

Lemma E12_rt : ring_theory E12_Zero E12_One E12_Add E12_Mul E12_Sub E12_Neg (@eq E12).
Proof. constructor; intros; e12_ring. Qed.
Add Ring E12Ring0 : E12_rt.

Lemma E12_Square_eq x : E12_Square x = E12_Mul x x. Proof. e12_ring. Qed.
Definition e12_of (a : E6) : E12 := mkE12 a E6_Zero.
Definition e12_w : E12 := mkE12 E6_Zero E6_One.
Lemma e12_w2 : E12_Mul e12_w e12_w = e12_of e6_v.
Proof. unfold e12_w, e12_of; e12_ring. Qed.

Lemma E12_MulBy014_eq z c0 c1 :
  E12_MulBy014 z c0 c1 = E12_Mul z (mkE12 (mkE6 c0 c1 E2_Zero) (mkE6 E2_Zero E2_One E2_Zero)).
Proof.
  apply E12_ext; cbn [C0 C1 E12_MulBy014 E12_Mul]; apply E6_ext;
    cbn [B0 B1 B2 E6_Add E6_Mul E6_Sub E6_MulBy01 E6_MulByNonResidue]; e2_norm; ring.
Qed.

Definition e12_of5 (x : E2x5) : E12 :=
  mkE12 (mkE6 (s0 x) (s1 x) (s2 x)) (mkE6 E2_Zero (s3 x) (s4 x)).

Lemma E12_Mul014By014_eq d0 d1 c0 c1 :
  e12_of5 (E12_Mul014By014 d0 d1 c0 c1) =
  E12_Mul (mkE12 (mkE6 d0 d1 E2_Zero) (mkE6 E2_Zero E2_One E2_Zero))
          (mkE12 (mkE6 c0 c1 E2_Zero) (mkE6 E2_Zero E2_One E2_Zero)).
Proof.
  apply E12_ext; cbn [C0 C1 e12_of5 E12_Mul014By014 s0 s1 s2 s3 s4 E12_Mul]; apply E6_ext;
    cbn [B0 B1 B2 E6_Add E6_Mul E6_Sub E6_MulByNonResidue]; e2_norm; ring.
Qed.

Lemma E12_MulBy01245_eq z x : E12_MulBy01245 z x = E12_Mul z (e12_of5 x).
Proof.
  unfold E12_MulBy01245, e12_of5. cbv zeta. rewrite E6_MulBy12_eq. e12_ring.
Qed.

(** conjugation is a ring morphism *)
Lemma E12_Conj_mul x y : E12_Conjugate (E12_Mul x y) = E12_Mul (E12_Conjugate x) (E12_Conjugate y).
Proof. e12_ring. Qed.
Lemma E2_Conj_mul x y : E2_Conjugate (E2_Mul x y) = E2_Mul (E2_Conjugate x) (E2_Conjugate y).
Proof. e2_ring. Qed.
Lemma E2_Conj_add x y : E2_Conjugate (E2_Add x y) = E2_Add (E2_Conjugate x) (E2_Conjugate y).
Proof. e2_ring. Qed.

(** ** powers *)
Notation e2pow := (npow E2_One E2_Mul).
Notation e6pow := (npow E6_One E6_Mul).
Notation e12pow := (npow E12_One E12_Mul).
