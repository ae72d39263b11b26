(** Proofs for the tower properties C08-C14. *)
From Coq Require Import ZArith List Bool Lia Ring Field.
From Verif Require Import Params ZMod RingPow Primes FastTower Circuit Api Emulated Tower TowerSpec
  FieldFacts ApiFacts TowerFacts Frobenius.
Import ListNotations.
Open Scope Z_scope.

(** ** selection and zero tests *)
Lemma determ_E2_Select b x y : determ (E2_Select (bF b) x y) (if b then x else y).
Proof.
  unfold E2_Select. eapply determ_bind; [apply determ_fp_Select|].
  eapply determ_bind; [apply determ_fp_Select|].
  replace (if b then x else y) with (mkE2 (if b then A0 x else A0 y) (if b then A1 x else A1 y));
    [apply determ_ret | now destruct b, x, y].
Qed.
Lemma determ_E6_Select b x y : determ (E6_Select (bF b) x y) (if b then x else y).
Proof.
  unfold E6_Select. do 3 (eapply determ_bind; [apply determ_E2_Select|]).
  replace (if b then x else y) with (mkE6 (if b then B0 x else B0 y) (if b then B1 x else B1 y)
     (if b then B2 x else B2 y)); [apply determ_ret | now destruct b, x, y].
Qed.
Lemma determ_E12_Select b x y : determ (E12_Select (bF b) x y) (if b then x else y).
Proof.
  unfold E12_Select. do 2 (eapply determ_bind; [apply determ_E6_Select|]).
  replace (if b then x else y) with (mkE12 (if b then C0 x else C0 y) (if b then C1 x else C1 y));
   [apply determ_ret | now destruct b, x, y].
Qed.
Lemma sat_E2_Select_inv s x y z :
  sat (E2_Select s x y) z -> exists b, s = bF b /\ z = if b then x else y.
Proof.
  unfold E2_Select. intros H. apply sat_bind in H. destruct H as (a & Ha & H).
  apply sat_fp_Select_inv in Ha. destruct Ha as (b & -> & ->). exists b; split; [reflexivity|].
  apply sat_bind in H. destruct H as (a & Ha & H).
  apply (determ_sat _ _ (determ_fp_Select b _ _)) in Ha. subst a. cbn in H. subst z.
  now destruct b, x, y.
Qed.
Lemma sat_E6_Select_inv s x y z :
  sat (E6_Select s x y) z -> exists b, s = bF b /\ z = if b then x else y.
Proof.
  intros H. pose proof H as H0. unfold E6_Select in H. apply sat_bind in H. destruct H as (a & Ha & H).
  apply sat_E2_Select_inv in Ha. destruct Ha as (b & -> & ->). exists b; split; [reflexivity|].
  now apply (determ_sat _ _ (determ_E6_Select b x y)).
Qed.
Lemma sat_E12_Select_inv s x y z :
  sat (E12_Select s x y) z -> exists b, s = bF b /\ z = if b then x else y.
Proof.
  intros H. pose proof H as H0. unfold E12_Select in H. apply sat_bind in H. destruct H as (a & Ha & H).
  apply sat_E6_Select_inv in Ha. destruct Ha as (b & -> & ->). exists b; split; [reflexivity|].
  now apply (determ_sat _ _ (determ_E12_Select b x y)).
Qed.

Lemma determ_E2_IsZero x : determ (E2_IsZero x) (bF (E2_eqb x E2_Zero)).
Proof. unfold E2_IsZero. rewrite !fp_IsZero_eq. apply determ_And. Qed.
Lemma determ_E6_IsZero x : determ (E6_IsZero x) (bF (E6_eqb x E6_Zero)).
Proof.
  unfold E6_IsZero. do 3 (eapply determ_bind; [apply determ_E2_IsZero|]).
  eapply determ_bind; [apply determ_And|]. apply determ_And.
Qed.
Lemma determ_E12_IsZero x : determ (E12_IsZero x) (bF (E12_eqb x E12_Zero)).
Proof.
  unfold E12_IsZero. do 2 (eapply determ_bind; [apply determ_E6_IsZero|]).
  apply determ_And.
Qed.
Lemma determ_E2_Lookup2 b0 b1 x y z t :
  determ (E2_Lookup2 (bF b0) (bF b1) x y z t)
         (if b1 then (if b0 then t else z) else (if b0 then y else x)).
Proof.
  unfold E2_Lookup2. eapply determ_bind; [apply determ_fp_Lookup2|].
  eapply determ_bind; [apply determ_fp_Lookup2|].
  destruct b0, b1, x, y, z, t; apply determ_ret.
Qed.
Lemma determ_E6_Lookup2 b0 b1 x y z t :
  determ (E6_Lookup2 (bF b0) (bF b1) x y z t)
         (if b1 then (if b0 then t else z) else (if b0 then y else x)).
Proof.
  unfold E6_Lookup2. do 3 (eapply determ_bind; [apply determ_E2_Lookup2|]).
  destruct b0, b1, x, y, z, t; apply determ_ret.
Qed.
Lemma determ_E12_Lookup2 b0 b1 x y z t :
  determ (E12_Lookup2 (bF b0) (bF b1) x y z t)
         (if b1 then (if b0 then t else z) else (if b0 then y else x)).
Proof.
  unfold E12_Lookup2. do 2 (eapply determ_bind; [apply determ_E6_Lookup2|]).
  destruct b0, b1, x, y, z, t; apply determ_ret.
Qed.

Ltac splits := repeat match goal with |- _ /\ _ => split end.

(** ** C08 - C10 *)
Lemma rep2_one : S2one = rep2 E2_One. Proof. reflexivity. Qed.
Lemma rep6_one : S6one = rep6 E6_One. Proof. reflexivity. Qed.
Lemma rep12_one : S12one = rep12 E12_One. Proof. reflexivity. Qed.
Lemma rep12_zero : S12zero = rep12 E12_Zero. Proof. reflexivity. Qed.

Lemma fp2_arith (x y : E2) (c : Fp) (k : Z) :
  rep2 (E2_Add x y) = S2add (rep2 x) (rep2 y) /\
  rep2 (E2_Sub x y) = S2sub (rep2 x) (rep2 y) /\
  rep2 (E2_Neg x) = S2sub S2zero (rep2 x) /\
  rep2 (E2_Mul x y) = S2mul (rep2 x) (rep2 y) /\
  rep2 (E2_Square x) = S2mul (rep2 x) (rep2 x) /\
  rep2 (E2_Double x) = S2add (rep2 x) (rep2 x) /\
  rep2 (E2_Conjugate x) = [coef fp0 (rep2 x) 0; fsub fp0 (coef fp0 (rep2 x) 1)] /\
  rep2 (E2_MulByElement x c) = S2mul (rep2 x) [c; fp0] /\
  rep2 (E2_MulByConstElement x k) = S2mul (rep2 x) [ofZ pBLS k; fp0] /\
  rep2 (E2_MulByNonResidue x) = S2mul S2xi (rep2 x) /\
  rep2 E2_One = S2one /\ rep2 E2_Zero = S2zero /\ rep2 E2_NonResidue = S2xi.
Proof.
  splits; try reflexivity.
  - apply rep2_mul.
  - rewrite E2_Square_eq. apply rep2_mul.
  - rewrite E2_Double_eq. apply rep2_add.
  - rewrite E2_MulByElement_eq. rewrite rep2_mul. reflexivity.
  - rewrite E2_MulByConstElement_eq. rewrite rep2_mul. reflexivity.
  - rewrite E2_MulByNonResidue_eq. rewrite rep2_mul. reflexivity.
Qed.

Lemma fp6_arith (x y : E6) (c : E2) :
  rep6 (E6_Add x y) = S6add (rep6 x) (rep6 y) /\
  rep6 (E6_Sub x y) = S6sub (rep6 x) (rep6 y) /\
  rep6 (E6_Neg x) = S6sub S6zero (rep6 x) /\
  rep6 (E6_Mul x y) = S6mul (rep6 x) (rep6 y) /\
  rep6 (E6_Square x) = S6mul (rep6 x) (rep6 x) /\
  rep6 (E6_Double x) = S6add (rep6 x) (rep6 x) /\
  rep6 (E6_MulByE2 x c) = S6mul (rep6 x) [rep2 c; S2zero; S2zero] /\
  rep6 (E6_MulByNonResidue x) = S6mul S6v (rep6 x) /\
  rep6 E6_One = S6one /\ rep6 E6_Zero = S6zero.
Proof.
  splits; try reflexivity.
  - apply rep6_mul.
  - rewrite E6_Square_eq. apply rep6_mul.
  - rewrite E6_Double_eq. apply rep6_add.
  - rewrite E6_MulByE2_eq. rewrite rep6_mul. reflexivity.
  - rewrite E6_MulByNonResidue_eq. rewrite rep6_mul. reflexivity.
Qed.

Lemma fp12_arith (x y : E12) :
  rep12 (E12_Add x y) = S12add (rep12 x) (rep12 y) /\
  rep12 (E12_Sub x y) = S12sub (rep12 x) (rep12 y) /\
  rep12 (E12_Mul x y) = S12mul (rep12 x) (rep12 y) /\
  rep12 (E12_Square x) = S12mul (rep12 x) (rep12 x) /\
  rep12 (E12_Conjugate x) = [coef S6zero (rep12 x) 0; S6sub S6zero (coef S6zero (rep12 x) 1)] /\
  rep12w (E12_Mul x y) = S12wmul (rep12w x) (rep12w y) /\
  rep12 E12_One = S12one /\ rep12 E12_Zero = S12zero.
Proof.
  splits; try reflexivity.
  - apply rep12_mul.
  - rewrite E12_Square_eq. apply rep12_mul.
  - apply rep12w_mul.
Qed.

(** ** C11 *)
Lemma sparse_mul6 (x : E6) (a b : E2) :
  rep6 (E6_MulBy0 x a) = S6mul (rep6 x) [rep2 a; S2zero; S2zero] /\
  rep6 (E6_MulBy01 x a b) = S6mul (rep6 x) [rep2 a; rep2 b; S2zero] /\
  rep6 (E6_MulBy12 x a b) = S6mul (rep6 x) [S2zero; rep2 a; rep2 b].
Proof.
  rewrite E6_MulBy0_eq, E6_MulBy01_eq, E6_MulBy12_eq, !rep6_mul. repeat split.
Qed.
Definition S5 (x : E2x5) := S01245 (rep2 (s0 x)) (rep2 (s1 x)) (rep2 (s2 x)) (rep2 (s3 x)) (rep2 (s4 x)).
Lemma sparse_mul12 (z : E12) (c0 c1 d0 d1 : E2) (x : E2x5) :
  rep12 (E12_MulBy014 z c0 c1) = S12mul (rep12 z) (S014 (rep2 c0) (rep2 c1)) /\
  S5 (E12_Mul014By014 d0 d1 c0 c1) = S12mul (S014 (rep2 d0) (rep2 d1)) (S014 (rep2 c0) (rep2 c1)) /\
  rep12 (E12_MulBy01245 z x) = S12mul (rep12 z) (S5 x).
Proof.
  split; [|split].
  - rewrite E12_MulBy014_eq, rep12_mul. reflexivity.
  - change (S5 (E12_Mul014By014 d0 d1 c0 c1)) with (rep12 (e12_of5 (E12_Mul014By014 d0 d1 c0 c1))).
    rewrite E12_Mul014By014_eq, rep12_mul. reflexivity.
  - rewrite E12_MulBy01245_eq, rep12_mul. reflexivity.
Qed.

(** ** C12, C13 *)
Lemma sat_E2_Inverse x y : sat (E2_Inverse x) y <-> E2_Mul y x = E2_One.
Proof.
  unfold E2_Inverse, E2_AssertIsEqual. rewrite sat_ask. split.
  - intros (t & H). apply sat_assert_bind in H. destruct H as [H1 H2]. cbn in H2. subst t.
    apply E2_eqb_eq in H1. congruence.
  - intros H. exists y. apply sat_assert_bind. split; [|reflexivity]. apply E2_eqb_eq. congruence.
Qed.
Lemma sat_E6_Inverse x y : sat (E6_Inverse x) y <-> E6_Mul y x = E6_One.
Proof.
  unfold E6_Inverse, E6_AssertIsEqual. rewrite sat_ask. split.
  - intros (t & H). apply sat_assert_bind in H. destruct H as [H1 H2]. cbn in H2. subst t.
    apply E6_eqb_eq in H1. congruence.
  - intros H. exists y. apply sat_assert_bind. split; [|reflexivity]. apply E6_eqb_eq. congruence.
Qed.
Lemma sat_E12_Inverse x y : sat (E12_Inverse x) y <-> E12_Mul y x = E12_One.
Proof.
  unfold E12_Inverse, E12_AssertIsEqual. rewrite sat_ask. split.
  - intros (t & H). apply sat_assert_bind in H. destruct H as [H1 H2]. cbn in H2. subst t.
    apply E12_eqb_eq in H1. congruence.
  - intros H. exists y. apply sat_assert_bind. split; [|reflexivity]. apply E12_eqb_eq. congruence.
Qed.
Lemma sat_E2_Div x y z : sat (E2_DivUnchecked x y) z <-> E2_Mul z y = x.
Proof.
  unfold E2_DivUnchecked, E2_AssertIsEqual. rewrite sat_ask. split.
  - intros (t & H). apply sat_assert_bind in H. destruct H as [H1 H2]. cbn in H2. subst t.
    apply E2_eqb_eq in H1. congruence.
  - intros H. exists z. apply sat_assert_bind. split; [|reflexivity]. apply E2_eqb_eq. congruence.
Qed.
Lemma sat_E6_Div x y z : sat (E6_DivUnchecked x y) z <-> E6_Mul z y = x.
Proof.
  unfold E6_DivUnchecked, E6_AssertIsEqual. rewrite sat_ask. split.
  - intros (t & H). apply sat_assert_bind in H. destruct H as [H1 H2]. cbn in H2. subst t.
    apply E6_eqb_eq in H1. congruence.
  - intros H. exists z. apply sat_assert_bind. split; [|reflexivity]. apply E6_eqb_eq. congruence.
Qed.
Lemma sat_E12_Div x y z : sat (E12_DivUnchecked x y) z <-> E12_Mul z y = x.
Proof.
  unfold E12_DivUnchecked, E12_AssertIsEqual. rewrite sat_ask. split.
  - intros (t & H). apply sat_assert_bind in H. destruct H as [H1 H2]. cbn in H2. subst t.
    apply E12_eqb_eq in H1. congruence.
  - intros H. exists z. apply sat_assert_bind. split; [|reflexivity]. apply E12_eqb_eq. congruence.
Qed.

Lemma run_ask_assert {T : Set} (t : T) (b : T -> bool) :
  b t = true -> run (Ask T (Some t) (fun s => assert (b s) ;;; Ret s)) = Some t.
Proof. intros H. cbn [run]. rewrite H. reflexivity. Qed.

Lemma determ_E2_Div x y : y <> E2_Zero -> determ (E2_DivUnchecked x y) (E2_div x y).
Proof.
  intros Hy. split.
  - unfold E2_DivUnchecked, E2_AssertIsEqual.
    replace (E2_div x y) with (E2_Mul (E2_inv y) x) by (field; exact Hy).
    apply (run_ask_assert (E2_Mul (E2_inv y) x) (fun d => E2_eqb x (E2_Mul d y))).
    apply E2_eqb_eq. field. exact Hy.
  - intros z H. apply sat_E2_Div in H. rewrite <- H. field. exact Hy.
Qed.
Lemma determ_E6_Div x y : y <> E6_Zero -> determ (E6_DivUnchecked x y) (E6_div x y).
Proof.
  intros Hy. split.
  - unfold E6_DivUnchecked, E6_AssertIsEqual.
    replace (E6_div x y) with (E6_Mul (E6_inv y) x) by (field; exact Hy).
    apply (run_ask_assert (E6_Mul (E6_inv y) x) (fun d => E6_eqb x (E6_Mul d y))).
    apply E6_eqb_eq. field. exact Hy.
  - intros z H. apply sat_E6_Div in H. rewrite <- H. field. exact Hy.
Qed.
Lemma determ_E12_Div x y : y <> E12_Zero -> determ (E12_DivUnchecked x y) (E12_div x y).
Proof.
  intros Hy. split.
  - unfold E12_DivUnchecked, E12_AssertIsEqual.
    replace (E12_div x y) with (E12_Mul (E12_inv y) x) by (field; exact Hy).
    apply (run_ask_assert (E12_Mul (E12_inv y) x) (fun d => E12_eqb x (E12_Mul d y))).
    apply E12_eqb_eq. field. exact Hy.
  - intros z H. apply sat_E12_Div in H. rewrite <- H. field. exact Hy.
Qed.
Lemma determ_E2_Inverse x : x <> E2_Zero -> determ (E2_Inverse x) (E2_inv x).
Proof.
  intros Hx. split.
  - unfold E2_Inverse, E2_AssertIsEqual.
    apply (run_ask_assert (E2_inv x) (fun d => E2_eqb E2_One (E2_Mul d x))).
    apply E2_eqb_eq. field. exact Hx.
  - intros z H. apply sat_E2_Inverse in H. transitivity (E2_div (E2_Mul z x) x); [field; exact Hx|].
    rewrite H. field. exact Hx.
Qed.
Lemma determ_E6_Inverse x : x <> E6_Zero -> determ (E6_Inverse x) (E6_inv x).
Proof.
  intros Hx. split.
  - unfold E6_Inverse, E6_AssertIsEqual.
    apply (run_ask_assert (E6_inv x) (fun d => E6_eqb E6_One (E6_Mul d x))).
    apply E6_eqb_eq. field. exact Hx.
  - intros z H. apply sat_E6_Inverse in H. transitivity (E6_div (E6_Mul z x) x); [field; exact Hx|].
    rewrite H. field. exact Hx.
Qed.
Lemma determ_E12_Inverse x : x <> E12_Zero -> determ (E12_Inverse x) (E12_inv x).
Proof.
  intros Hx. split.
  - unfold E12_Inverse, E12_AssertIsEqual.
    apply (run_ask_assert (E12_inv x) (fun d => E12_eqb E12_One (E12_Mul d x))).
    apply E12_eqb_eq. field. exact Hx.
  - intros z H. apply sat_E12_Inverse in H. transitivity (E12_div (E12_Mul z x) x); [field; exact Hx|].
    rewrite H. field. exact Hx.
Qed.
Lemma unsat_E2_Inverse0 : unsat (E2_Inverse E2_Zero).
Proof. intros y H. apply sat_E2_Inverse in H. apply E2_1_neq_0. rewrite <- H. ring. Qed.
Lemma unsat_E6_Inverse0 : unsat (E6_Inverse E6_Zero).
Proof. intros y H. apply sat_E6_Inverse in H. apply E6_1_neq_0. rewrite <- H. ring. Qed.
Lemma unsat_E12_Inverse0 : unsat (E12_Inverse E12_Zero).
Proof. intros y H. apply sat_E12_Inverse in H. apply E12_1_neq_0. rewrite <- H. ring. Qed.

Lemma C12_E2 x :
  (satisfiable (E2_Inverse x) <-> rep2 x <> S2zero) /\
  (forall y, sat (E2_Inverse x) y <-> S2mul (rep2 y) (rep2 x) = S2one) /\
  (rep2 x <> S2zero -> exists y, determ (E2_Inverse x) y).
Proof.
  assert (Z : rep2 x <> S2zero <-> x <> E2_Zero).
  { rewrite rep2_zero. split; intros H E; apply H; [now rewrite E | now apply rep2_inj]. }
  split; [|split].
  - rewrite Z. split.
    + intros (y & H) ->. now apply unsat_E2_Inverse0 in H.
    + intros H. exists (E2_inv x). apply run_sat. now apply determ_E2_Inverse.
  - intros y. rewrite sat_E2_Inverse, <- rep2_mul, rep2_one.
    split; [intros ->; reflexivity | apply rep2_inj].
  - intros H. exists (E2_inv x). now apply determ_E2_Inverse, Z.
Qed.
Lemma C12_E6 x :
  (satisfiable (E6_Inverse x) <-> rep6 x <> S6zero) /\
  (forall y, sat (E6_Inverse x) y <-> S6mul (rep6 y) (rep6 x) = S6one) /\
  (rep6 x <> S6zero -> exists y, determ (E6_Inverse x) y).
Proof.
  assert (Z : rep6 x <> S6zero <-> x <> E6_Zero).
  { rewrite rep6_zero. split; intros H E; apply H; [now rewrite E | now apply rep6_inj]. }
  split; [|split].
  - rewrite Z. split.
    + intros (y & H) ->. now apply unsat_E6_Inverse0 in H.
    + intros H. exists (E6_inv x). apply run_sat. now apply determ_E6_Inverse.
  - intros y. rewrite sat_E6_Inverse, <- rep6_mul, rep6_one.
    split; [intros ->; reflexivity | apply rep6_inj].
  - intros H. exists (E6_inv x). now apply determ_E6_Inverse, Z.
Qed.
Lemma C12_E12 x :
  (satisfiable (E12_Inverse x) <-> rep12 x <> S12zero) /\
  (forall y, sat (E12_Inverse x) y <-> S12mul (rep12 y) (rep12 x) = S12one) /\
  (rep12 x <> S12zero -> exists y, determ (E12_Inverse x) y).
Proof.
  assert (Z : rep12 x <> S12zero <-> x <> E12_Zero).
  { rewrite rep12_zero. split; intros H E; apply H; [now rewrite E | now apply rep12_inj]. }
  split; [|split].
  - rewrite Z. split.
    + intros (y & H) ->. now apply unsat_E12_Inverse0 in H.
    + intros H. exists (E12_inv x). apply run_sat. now apply determ_E12_Inverse.
  - intros y. rewrite sat_E12_Inverse, <- rep12_mul, rep12_one.
    split; [intros ->; reflexivity | apply rep12_inj].
  - intros H. exists (E12_inv x). now apply determ_E12_Inverse, Z.
Qed.

Lemma C13_E2 x y :
  (forall z, sat (E2_DivUnchecked x y) z <-> S2mul (rep2 z) (rep2 y) = rep2 x) /\
  (rep2 y <> S2zero -> exists z, determ (E2_DivUnchecked x y) z) /\
  (rep2 y = S2zero -> rep2 x <> S2zero -> unsat (E2_DivUnchecked x y)) /\
  (rep2 y = S2zero -> rep2 x = S2zero -> forall z, sat (E2_DivUnchecked x y) z).
Proof.
  rewrite rep2_zero.
  split; [|split; [|split]].
  - intros z. rewrite sat_E2_Div, <- rep2_mul. split; [intros ->; reflexivity | apply rep2_inj].
  - intros H. exists (E2_div x y). apply determ_E2_Div. intros ->. now apply H.
  - intros Hy Hx z H. apply sat_E2_Div in H. apply rep2_inj in Hy. subst y. apply Hx.
    rewrite <- H. f_equal. ring.
  - intros Hy Hx z. apply sat_E2_Div. apply rep2_inj in Hy, Hx. subst. ring.
Qed.
Lemma C13_E6 x y :
  (forall z, sat (E6_DivUnchecked x y) z <-> S6mul (rep6 z) (rep6 y) = rep6 x) /\
  (rep6 y <> S6zero -> exists z, determ (E6_DivUnchecked x y) z) /\
  (rep6 y = S6zero -> rep6 x <> S6zero -> unsat (E6_DivUnchecked x y)) /\
  (rep6 y = S6zero -> rep6 x = S6zero -> forall z, sat (E6_DivUnchecked x y) z).
Proof.
  rewrite rep6_zero.
  split; [|split; [|split]].
  - intros z. rewrite sat_E6_Div, <- rep6_mul. split; [intros ->; reflexivity | apply rep6_inj].
  - intros H. exists (E6_div x y). apply determ_E6_Div. intros ->. now apply H.
  - intros Hy Hx z H. apply sat_E6_Div in H. apply rep6_inj in Hy. subst y. apply Hx.
    rewrite <- H. f_equal. ring.
  - intros Hy Hx z. apply sat_E6_Div. apply rep6_inj in Hy, Hx. subst. ring.
Qed.
Lemma C13_E12 x y :
  (forall z, sat (E12_DivUnchecked x y) z <-> S12mul (rep12 z) (rep12 y) = rep12 x) /\
  (rep12 y <> S12zero -> exists z, determ (E12_DivUnchecked x y) z) /\
  (rep12 y = S12zero -> rep12 x <> S12zero -> unsat (E12_DivUnchecked x y)) /\
  (rep12 y = S12zero -> rep12 x = S12zero -> forall z, sat (E12_DivUnchecked x y) z).
Proof.
  rewrite rep12_zero.
  split; [|split; [|split]].
  - intros z. rewrite sat_E12_Div, <- rep12_mul. split; [intros ->; reflexivity | apply rep12_inj].
  - intros H. exists (E12_div x y). apply determ_E12_Div. intros ->. now apply H.
  - intros Hy Hx z H. apply sat_E12_Div in H. apply rep12_inj in Hy. subst y. apply Hx.
    rewrite <- H. f_equal. ring.
  - intros Hy Hx z. apply sat_E12_Div. apply rep12_inj in Hy, Hx. subst. ring.
Qed.

(** ** C14 *)
Definition nrpow (x y : N) : E2 := e2pow E2_NonResidue (y * ((pN ^ x - 1) / 6)).

Lemma nr1 : nrpow 1 1 = gam.
Proof.
  unfold nrpow. rewrite N.mul_1_l, N.pow_1_r. destruct gam_spec as (k & Hk & <-). f_equal.
  rewrite Hk. rewrite N.add_comm, N.add_sub, N.mul_comm, N.div_mul; [reflexivity | discriminate].
Qed.
Lemma nr2 : nrpow 2 1 = e2_of del.
Proof.
  unfold nrpow. rewrite N.mul_1_l, <- gam_norm. destruct gam_spec as (k & Hk & <-).
  rewrite <- e2pow_p, <- npow_mulE2, <- npow_addE2. f_equal.
  rewrite N.pow_2_r.
  assert (E : (pN * pN - 1 = (k + k * pN) * 6)%N) by nia.
  rewrite E, N.div_mul by discriminate. reflexivity.
Qed.
Lemma nrY x y : nrpow x y = e2pow (nrpow x 1) y.
Proof.
  unfold nrpow. rewrite <- npow_mulE2. f_equal. lia.
Qed.
Definition tab (p c : Z) : E2 := match E2_nonResidues p c with Some y => y | None => E2_Zero end.
Ltac nrtac := rewrite nrY, ?nr1, ?nr2; unfold tab, gam, e2_of, del; cbn [E2_nonResidues]; fast_e2.
Lemma tab_spec :
  tab 1 1 = nrpow 1 1 /\ tab 1 2 = nrpow 1 2 /\ tab 1 3 = nrpow 1 3 /\ tab 1 4 = nrpow 1 4 /\ tab 1 5 = nrpow 1 5 /\
  tab 2 1 = nrpow 2 1 /\ tab 2 2 = nrpow 2 2 /\ tab 2 3 = nrpow 2 3 /\ tab 2 4 = nrpow 2 4 /\ tab 2 5 = nrpow 2 5.
Proof. splits; nrtac. Qed.

Lemma mulnr_spec x :
  E2_MulByNonResidue1Power1 x = E2_Mul x (tab 1 1) /\
  E2_MulByNonResidue1Power2 x = E2_Mul x (tab 1 2) /\
  E2_MulByNonResidue1Power3 x = E2_Mul x (tab 1 3) /\
  E2_MulByNonResidue1Power4 x = E2_Mul x (tab 1 4) /\
  E2_MulByNonResidue1Power5 x = E2_Mul x (tab 1 5) /\
  E2_MulByNonResidue2Power1 x = E2_Mul x (tab 2 1) /\
  E2_MulByNonResidue2Power2 x = E2_Mul x (tab 2 2) /\
  E2_MulByNonResidue2Power3 x = E2_Mul x (tab 2 3) /\
  E2_MulByNonResidue2Power4 x = E2_Mul x (tab 2 4) /\
  E2_MulByNonResidue2Power5 x = E2_Mul x (tab 2 5).
Proof.
  splits; try reflexivity.
  all: unfold tab; cbn [E2_nonResidues].
  all: unfold E2_MulByNonResidue1Power2, E2_MulByNonResidue1Power4, E2_MulByNonResidue2Power1,
    E2_MulByNonResidue2Power2, E2_MulByNonResidue2Power3, E2_MulByNonResidue2Power4,
    E2_MulByNonResidue2Power5; try rewrite E2_MulByElement_eq; try reflexivity.
  all: apply E2_ext; cbn [A0 A1 E2_Mul]; ring.
Qed.

Lemma rep2_ppow x p : rep2 (ppow E2_Mul x p) = ppow S2mul (rep2 x) p.
Proof.
  induction p as [p IH|p IH|]; cbn [ppow]; cbv zeta; [| |reflexivity].
  - now rewrite !rep2_mul, IH.
  - now rewrite !rep2_mul, IH.
Qed.
Lemma rep2_npow x n : rep2 (e2pow x n) = npow S2one S2mul (rep2 x) n.
Proof. destruct n; [reflexivity | apply rep2_ppow]. Qed.
Lemma to_N_exp (p x y : N) : (p <> 0)%N ->
  Z.to_N (Z.of_N y * ((Z.of_N p ^ Z.of_N x - 1) / 6)) = (y * ((p ^ x - 1) / 6))%N.
Proof.
  intros Hp. rewrite <- N2Z.inj_pow.
  assert (1 <= p ^ x)%N by (apply N.neq_0_lt_0 in Hp; pose proof (N.pow_nonzero p x); lia).
  replace (Z.of_N (p ^ x) - 1) with (Z.of_N (p ^ x - 1)) by lia.
  change 6 with (Z.of_N 6). rewrite <- N2Z.inj_div, <- N2Z.inj_mul. apply N2Z.id.
Qed.
Lemma pN_Z : pBLS = Z.of_N pN. Proof. reflexivity. Qed.
Lemma pN_nz : pN <> 0%N. Proof. discriminate. Qed.
Lemma Snr_eq x y : Snr (Z.of_N x) (Z.of_N y) = rep2 (nrpow x y).
Proof.
  unfold Snr, nrpow. rewrite rep2_npow. pose proof (to_N_exp pN x y pN_nz) as E.
  rewrite <- pN_Z in E. rewrite E. reflexivity.
Qed.

Opaque Snr nrpow.
Lemma nonresidue_mul x :
  rep2 (E2_MulByNonResidue1Power1 x) = S2mul (rep2 x) (Snr 1 1) /\
  rep2 (E2_MulByNonResidue1Power2 x) = S2mul (rep2 x) (Snr 1 2) /\
  rep2 (E2_MulByNonResidue1Power3 x) = S2mul (rep2 x) (Snr 1 3) /\
  rep2 (E2_MulByNonResidue1Power4 x) = S2mul (rep2 x) (Snr 1 4) /\
  rep2 (E2_MulByNonResidue1Power5 x) = S2mul (rep2 x) (Snr 1 5) /\
  rep2 (E2_MulByNonResidue2Power1 x) = S2mul (rep2 x) (Snr 2 1) /\
  rep2 (E2_MulByNonResidue2Power2 x) = S2mul (rep2 x) (Snr 2 2) /\
  rep2 (E2_MulByNonResidue2Power3 x) = S2mul (rep2 x) (Snr 2 3) /\
  rep2 (E2_MulByNonResidue2Power4 x) = S2mul (rep2 x) (Snr 2 4) /\
  rep2 (E2_MulByNonResidue2Power5 x) = S2mul (rep2 x) (Snr 2 5).
Proof.
  destruct (mulnr_spec x) as (-> & -> & -> & -> & -> & -> & -> & -> & -> & ->).
  destruct tab_spec as (-> & -> & -> & -> & -> & -> & -> & -> & -> & ->).
  pose proof (Snr_eq 1 1) as E11. cbn [Z.of_N] in E11.
  pose proof (Snr_eq 1 2) as E12. cbn [Z.of_N] in E12.
  pose proof (Snr_eq 1 3) as E13. cbn [Z.of_N] in E13.
  pose proof (Snr_eq 1 4) as E14. cbn [Z.of_N] in E14.
  pose proof (Snr_eq 1 5) as E15. cbn [Z.of_N] in E15.
  pose proof (Snr_eq 2 1) as E21. cbn [Z.of_N] in E21.
  pose proof (Snr_eq 2 2) as E22. cbn [Z.of_N] in E22.
  pose proof (Snr_eq 2 3) as E23. cbn [Z.of_N] in E23.
  pose proof (Snr_eq 2 4) as E24. cbn [Z.of_N] in E24.
  pose proof (Snr_eq 2 5) as E25. cbn [Z.of_N] in E25.
  rewrite !rep2_mul, E11, E12, E13, E14, E15, E21, E22, E23, E24, E25.
  splits; exact eq_refl.
Qed.
Lemma nonresidue_table X Y t : E2_nonResidues X Y = Some t ->
  (X = 1 \/ X = 2) /\ 1 <= Y <= 5 /\ rep2 t = Snr X Y.
Proof.
  destruct tab_spec as (T11 & T12 & T13 & T14 & T15 & T21 & T22 & T23 & T24 & T25).
  assert (G : forall x y, E2_nonResidues (Z.of_N x) (Z.of_N y) = Some t ->
      tab (Z.of_N x) (Z.of_N y) = nrpow x y -> rep2 t = Snr (Z.of_N x) (Z.of_N y)).
  { intros x y E T. rewrite Snr_eq, <- T. unfold tab. now rewrite E. }
  intros H.
  destruct X as [|[[?|?|]|[?|?|]|]|?]; try discriminate H;
  destruct Y as [|[[[?|?|]|[?|?|]|]|[[?|?|]|[?|?|]|]|]|?]; try discriminate H;
  (split; [lia|split; [lia|]]).
  all: match goal with
  | |- _ = Snr 1 1 => exact (G 1%N 1%N H T11)
  | |- _ = Snr 1 2 => exact (G 1%N 2%N H T12)
  | |- _ = Snr 1 3 => exact (G 1%N 3%N H T13)
  | |- _ = Snr 1 4 => exact (G 1%N 4%N H T14)
  | |- _ = Snr 1 5 => exact (G 1%N 5%N H T15)
  | |- _ = Snr 2 1 => exact (G 2%N 1%N H T21)
  | |- _ = Snr 2 2 => exact (G 2%N 2%N H T22)
  | |- _ = Snr 2 3 => exact (G 2%N 3%N H T23)
  | |- _ = Snr 2 4 => exact (G 2%N 4%N H T24)
  | |- _ = Snr 2 5 => exact (G 2%N 5%N H T25)
  end.
Qed.
Transparent Snr nrpow.
