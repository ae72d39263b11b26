(** Proofs for C70: selection, table lookup, zero tests and the two unexported
    helpers (ext2.Inverse, MixS). *)
From Coq Require Import ZArith List Bool Lia Ring Field.
From Verif Require Import Params ZMod Primes Circuit Api Emulated Tower TowerSpec
  FieldFacts ApiFacts TowerFacts TowerProofs Poseidon PoseidonSpec PoseidonLin PoseidonCode SelectSpec.
Import ListNotations.
Open Scope Z_scope.
Local Notation toF := (map (ofZ rBN)).

Lemma entry4_eq {A} b0 b1 (a b c d : A) :
  entry4 b0 b1 a b c d = if b1 then (if b0 then d else c) else (if b0 then b else a).
Proof. now destruct b0, b1. Qed.

Lemma sat_fp_Lookup2_inv s0 s1 a b c d z : sat (fp_Lookup2 s0 s1 a b c d) z ->
  exists b0 b1, s0 = bF b0 /\ s1 = bF b1.
Proof.
  unfold fp_Lookup2, api_AssertIsBoolean. intros H. apply sat_assert_bind in H. destruct H as [H0 H].
  apply sat_assert_bind in H. destruct H as [H1 _].
  apply isbool_iff in H0. destruct H0 as [b0 ->]. apply isbool_iff in H1. destruct H1 as [b1 ->].
  now exists b0, b1.
Qed.
Lemma sat_E2_Lookup2_inv s0 s1 a b c d z : sat (E2_Lookup2 s0 s1 a b c d) z ->
  exists b0 b1, s0 = bF b0 /\ s1 = bF b1.
Proof. unfold E2_Lookup2. intros H. apply sat_bind in H. destruct H as (x & H & _). exact (sat_fp_Lookup2_inv _ _ _ _ _ _ _ H). Qed.
Lemma sat_E6_Lookup2_inv s0 s1 a b c d z : sat (E6_Lookup2 s0 s1 a b c d) z ->
  exists b0 b1, s0 = bF b0 /\ s1 = bF b1.
Proof. unfold E6_Lookup2. intros H. apply sat_bind in H. destruct H as (x & H & _). exact (sat_E2_Lookup2_inv _ _ _ _ _ _ _ H). Qed.
Lemma sat_E12_Lookup2_inv s0 s1 a b c d z : sat (E12_Lookup2 s0 s1 a b c d) z ->
  exists b0 b1, s0 = bF b0 /\ s1 = bF b1.
Proof. unfold E12_Lookup2. intros H. apply sat_bind in H. destruct H as (x & H & _). exact (sat_E6_Lookup2_inv _ _ _ _ _ _ _ H). Qed.

Lemma looks_up_intro {A} (L : Fr -> Fr -> A -> A -> A -> A -> Circ A) :
  (forall b0 b1 a b c d, determ (L (bF b0) (bF b1) a b c d)
     (if b1 then (if b0 then d else c) else (if b0 then b else a))) ->
  (forall s0 s1 a b c d z, sat (L s0 s1 a b c d) z -> exists b0 b1, s0 = bF b0 /\ s1 = bF b1) ->
  looks_up L.
Proof.
  intros D I a b c d. split.
  - intros b0 b1. rewrite entry4_eq. exact (proj1 (D b0 b1 a b c d)).
  - intros s0 s1 z. split.
    + intros H. destruct (I _ _ _ _ _ _ _ H) as (b0 & b1 & -> & ->). exists b0, b1.
      split; [reflexivity|]. split; [reflexivity|]. rewrite entry4_eq. exact (proj2 (D b0 b1 a b c d) z H).
    + intros (b0 & b1 & -> & -> & ->). rewrite entry4_eq. apply (determ_sat _ _ (D b0 b1 a b c d)). reflexivity.
Qed.
Lemma lookup_fp : looks_up fp_Lookup2.
Proof. exact (looks_up_intro _ determ_fp_Lookup2 sat_fp_Lookup2_inv). Qed.
Lemma lookup_2 : looks_up E2_Lookup2.
Proof. exact (looks_up_intro _ determ_E2_Lookup2 sat_E2_Lookup2_inv). Qed.
Lemma lookup_6 : looks_up E6_Lookup2.
Proof. exact (looks_up_intro _ determ_E6_Lookup2 sat_E6_Lookup2_inv). Qed.
Lemma lookup_12 : looks_up E12_Lookup2.
Proof. exact (looks_up_intro _ determ_E12_Lookup2 sat_E12_Lookup2_inv). Qed.

Lemma selects_intro {A} (S : Fr -> A -> A -> Circ A) :
  (forall b x y, determ (S (bF b) x y) (if b then x else y)) ->
  (forall s x y z, sat (S s x y) z -> exists b : bool, s = bF b /\ z = if b then x else y) -> selects S.
Proof.
  intros D I x y. split; [intros b; exact (proj1 (D b x y))|]. intros s z. split; [exact (I s x y z)|].
  intros (b & -> & ->). now apply (determ_sat _ _ (D b x y)).
Qed.
Lemma select_2 : selects E2_Select.
Proof. exact (selects_intro _ determ_E2_Select sat_E2_Select_inv). Qed.
Lemma select_6 : selects E6_Select.
Proof. exact (selects_intro _ determ_E6_Select sat_E6_Select_inv). Qed.
Lemma select_12 : selects E12_Select.
Proof. exact (selects_intro _ determ_E12_Select sat_E12_Select_inv). Qed.

Lemma decides_intro c b (P : Prop) : determ c (bF b) -> (b = true <-> P) -> decides c P.
Proof.
  intros D E. split; intros H.
  - apply E in H. rewrite H in D. exact D.
  - destruct b; [destruct H; now apply E|exact D].
Qed.
Lemma iszero_2 x : decides (E2_IsZero x) (x = E2_Zero).
Proof. exact (decides_intro _ _ _ (determ_E2_IsZero x) (E2_eqb_eq x E2_Zero)). Qed.
Lemma iszero_6 x : decides (E6_IsZero x) (x = E6_Zero).
Proof. exact (decides_intro _ _ _ (determ_E6_IsZero x) (E6_eqb_eq x E6_Zero)). Qed.
Lemma iszero_12 x : decides (E12_IsZero x) (x = E12_Zero).
Proof. exact (decides_intro _ _ _ (determ_E12_IsZero x) (E12_eqb_eq x E12_Zero)). Qed.

(** ** ext2.Inverse *)
Lemma determ_fp_Inverse x : x <> fp0 -> determ (fp_Inverse x) (finv x).
Proof.
  intros H. unfold fp_Inverse. destruct (feqb x fp0) eqn:E; [apply feqb_eq in E; now destruct H|]. split.
  - cbn [run]. replace (feqb (fmul (finv x) x) fp1) with true; [reflexivity|]. symmetry. apply feqb_eq.
    exact (finv_l x pBLS_prime H).
  - intros b S. cbn [sat] in S. destruct S as (i & S). apply sat_assert_bind in S. destruct S as [S ->].
    apply feqb_eq in S.
    assert (L := finv_l x pBLS_prime H).
    transitivity (fmul (finv x) (fmul b x)).
    + transitivity (fmul b (fmul (finv x) x)); [rewrite L; change fp1 with (f1 pBLS); ring | ring].
    + rewrite S. change fp1 with (f1 pBLS). ring.
Qed.
Lemma small_inverse x : x <> E2_Zero ->
  exists y, determ (e2_Inverse x) y /\ S2mul (rep2 x) (rep2 y) = S2one.
Proof.
  intros H. exists (E2_inv x). split.
  - unfold e2_Inverse. eapply determ_bind; [apply determ_fp_Inverse; now apply E2_neq0|].
    exact (determ_ret (E2_inv x)).
  - transitivity (rep2 (E2_Mul x (E2_inv x))); [symmetry; apply (fp2_arith x (E2_inv x) fp0 0)|].
    replace (E2_Mul x (E2_inv x)) with E2_One; [reflexivity|]. field. exact H.
Qed.
Lemma small_inverse_0 : unsat (e2_Inverse E2_Zero).
Proof.
  unfold e2_Inverse. apply unsat_bind_l. intros a S. unfold fp_Inverse in S. cbn [sat] in S.
  destruct S as (i & S). apply sat_assert_bind in S. destruct S as [S _]. apply feqb_eq in S.
  revert S. cbn [E2_Zero A0 A1]. intros S.
  assert (Z0 : fp1 = fp0).
  { rewrite <- S. change fp0 with (f0 pBLS). ring. }
  discriminate (f_equal (@fval pBLS) Z0).
Qed.

(** ** MixS *)
Lemma mixS_eq x0 rest s r :
  ((2 * S (length rest) - 1) * S r <= length s)%nat ->
  MixS (x0 :: rest) s r =
    Some (inner (slice (toF s) ((2 * S (length rest) - 1) * r) (S (length rest))) (x0 :: rest) ::
          vadd rest (map (fmul x0) (slice (toF s) ((2 * S (length rest) - 1) * r + S (length rest)) (length rest)))).
Proof.
  intros H. unfold MixS. rewrite sRow_eq by (cbn [length]; nia). cbn [obind].
  rewrite sCol_eq by (cbn [length]; nia). cbn [obind length].
  replace (S (length rest) * 2)%nat with (2 * S (length rest))%nat by lia. reflexivity.
Qed.

Lemma lookup_example :
  run (E2_Lookup2 (f1 rBN) (f0 rBN) E2_Zero E2_One E2_NonResidue E2_NonResidue) = Some E2_One /\
  ~ exists z, sat (E2_Lookup2 (ofZ rBN 2) (f0 rBN) E2_Zero E2_One E2_NonResidue E2_NonResidue) z.
Proof.
  destruct (lookup_2 E2_Zero E2_One E2_NonResidue E2_NonResidue) as [R S]. split; [exact (R true false)|].
  intros [z H]. apply S in H. destruct H as (b0 & b1 & E & _).
  destruct b0; discriminate (f_equal (@fval rBN) E).
Qed.
Lemma inverse_example : E2_One <> E2_Zero /\ run (e2_Inverse E2_One) = Some E2_One.
Proof.
  assert (N : E2_One <> E2_Zero) by (intros H; discriminate (f_equal (fun x => fval (A0 x)) H)).
  split; [exact N|]. vm_compute. reflexivity.
Qed.
