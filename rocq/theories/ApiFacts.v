(** Facts about the frontend.API contract on boolean wires. *)
From Coq Require Import ZArith List Bool Lia Ring.
From Verif Require Import Params ZMod RingPow Primes Circuit Api Emulated FieldFacts.
Import ListNotations.
Open Scope Z_scope.

Lemma fr_1_neq_0 : f1 rBN <> f0 rBN.
Proof. apply fm_1_neq_0, rBN_prime. Qed.
Lemma feqb_10 : feqb (f1 rBN) (f0 rBN) = false.
Proof. apply feqb_neq, fr_1_neq_0. Qed.
Lemma feqb_01 : feqb (f0 rBN) (f1 rBN) = false.
Proof. apply feqb_neq. intros E. now apply fr_1_neq_0. Qed.
Lemma bF_inj a b : bF a = bF b -> a = b.
Proof.
  destruct a, b; cbn; intros H; try reflexivity; exfalso.
  - now apply fr_1_neq_0.
  - symmetry in H. now apply fr_1_neq_0.
Qed.
Lemma bF_1 b : feqb (bF b) (f1 rBN) = b.
Proof. destruct b; cbn [bF]; [apply feqb_refl | apply feqb_01]. Qed.
Lemma bF_0 b : feqb (bF b) (f0 rBN) = negb b.
Proof. destruct b; cbn [bF negb]; [apply feqb_10 | apply feqb_refl]. Qed.
Lemma isbool_bF b : isbool (bF b) = true.
Proof. unfold isbool. rewrite bF_0, bF_1. now destruct b. Qed.
Lemma isbool_iff x : isbool x = true <-> exists b, x = bF b.
Proof.
  split; [|intros [b ->]; apply isbool_bF].
  unfold isbool. rewrite orb_true_iff, !feqb_eq. intros [->| ->]; [now exists false | now exists true].
Qed.

Lemma determ_assert_bind {B} b (f : unit -> Circ B) r :
  b = true -> determ (f tt) r -> determ (bind (assert b) f) r.
Proof. intros -> H. exact H. Qed.
Lemma unsat_assert_bind {B} b (f : unit -> Circ B) : b = false -> unsat (bind (assert b) f).
Proof. intros -> r H. exact H. Qed.

Lemma determ_And a b : determ (api_And (bF a) (bF b)) (bF (a && b)).
Proof.
  unfold api_And, api_AssertIsBoolean.
  apply determ_assert_bind; [apply isbool_bF|]. apply determ_assert_bind; [apply isbool_bF|].
  replace (bF (a && b)) with (fmul (bF a) (bF b)); [apply determ_ret|].
  destruct a, b; cbn [bF andb]; ring.
Qed.
Lemma determ_Or a b : determ (api_Or (bF a) (bF b)) (bF (a || b)).
Proof.
  unfold api_Or, api_AssertIsBoolean.
  apply determ_assert_bind; [apply isbool_bF|]. apply determ_assert_bind; [apply isbool_bF|].
  replace (bF (a || b)) with (fsub (fadd (bF a) (bF b)) (fmul (bF a) (bF b))); [apply determ_ret|].
  destruct a, b; cbn [bF orb]; ring.
Qed.
Lemma determ_Xor a b : determ (api_Xor (bF a) (bF b)) (bF (xorb a b)).
Proof.
  unfold api_Xor, api_AssertIsBoolean.
  apply determ_assert_bind; [apply isbool_bF|]. apply determ_assert_bind; [apply isbool_bF|].
  replace (bF (xorb a b)) with (fsub (fadd (bF a) (bF b)) (fadd (fmul (bF a) (bF b)) (fmul (bF a) (bF b)))); [apply determ_ret|].
  destruct a, b; cbn [bF xorb]; ring.
Qed.
Lemma determ_Select b x y : determ (api_Select (bF b) x y) (if b then x else y).
Proof.
  unfold api_Select, api_AssertIsBoolean.
  apply determ_assert_bind; [apply isbool_bF|].
  replace (if b then x else y) with (fadd (fmul (bF b) (fsub x y)) y); [apply determ_ret|].
  destruct b; cbn [bF]; ring.
Qed.
Lemma api_IsZero_eq x : api_IsZero x = bF (feqb x (f0 rBN)).
Proof. reflexivity. Qed.

Lemma determ_fp_Select b x y : determ (fp_Select (bF b) x y) (if b then x else y).
Proof.
  unfold fp_Select, api_AssertIsBoolean. apply determ_assert_bind; [apply isbool_bF|].
  rewrite bF_1. apply determ_ret.
Qed.
Lemma determ_fp_Lookup2 b0 b1 x y z t :
  determ (fp_Lookup2 (bF b0) (bF b1) x y z t)
         (if b1 then (if b0 then t else z) else (if b0 then y else x)).
Proof.
  unfold fp_Lookup2, api_AssertIsBoolean.
  apply determ_assert_bind; [apply isbool_bF|]. apply determ_assert_bind; [apply isbool_bF|].
  rewrite !bF_1. apply determ_ret.
Qed.
Lemma fp_IsZero_eq x : fp_IsZero x = bF (feqb x fp0).
Proof. reflexivity. Qed.

(** soundness of the boolean preconditions *)
Lemma sat_Select_inv b x y z : sat (api_Select b x y) z -> exists c, b = bF c /\ z = if c then x else y.
Proof.
  unfold api_Select, api_AssertIsBoolean. intros H. apply sat_assert_bind in H. destruct H as [H1 H2].
  apply isbool_iff in H1. destruct H1 as [c ->]. exists c; split; [reflexivity|].
  destruct (determ_Select c x y) as [_ D]. apply D.
  unfold api_Select, api_AssertIsBoolean. apply sat_assert_bind. split; [apply isbool_bF | exact H2].
Qed.
Lemma sat_fp_Select_inv b x y z : sat (fp_Select b x y) z -> exists c, b = bF c /\ z = if c then x else y.
Proof.
  unfold fp_Select, api_AssertIsBoolean. intros H. apply sat_assert_bind in H. destruct H as [H1 H2].
  apply isbool_iff in H1. destruct H1 as [c ->]. exists c; split; [reflexivity|].
  cbn in H2. rewrite bF_1 in H2. now symmetry.
Qed.
