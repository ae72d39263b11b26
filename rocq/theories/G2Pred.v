(** The bit-wise predicates of g2.go and hashG2.go: exact sets of accepted values. *)
From Coq Require Import ZArith List Bool Lia.
From Verif Require Import Params ZMod Circuit Api Emulated ApiFacts FieldFacts Tower TowerFacts Pairing G2 HashG2 G2Spec.
Import ListNotations.
Open Scope Z_scope.

(** the two accepted representatives of a reduced element *)
Definition gap : Z := 2 ^ 381 - pBLS.
Lemma sat_Reduce x z : sat (fp_Reduce x) z <-> z = fval x \/ (z = fval x + pBLS /\ fval x < gap).
Proof.
  assert (R : 0 <= fval x < pBLS) by (apply fval_range; reflexivity).
  assert (P : 0 < pBLS < 2 ^ 381) by (split; reflexivity). assert (P2 : 2 ^ 381 < 2 * pBLS) by reflexivity. assert (G : gap = 2 ^ 381 - pBLS) by reflexivity.
  assert (C : forall t, feqb (ofZ pBLS t) x = true <-> t mod pBLS = fval x).
  { intros t. rewrite feqb_eq. split; [intros <-; now rewrite fval_ofZ | intros E; apply fval_inj; now rewrite fval_ofZ]. }
  unfold fp_Reduce. cbn [sat]. revert P P2 G C. generalize gap. generalize (2 ^ 381). intros M g P P2 Hg C.
  split.
  - intros (t & H). apply sat_assert_bind in H. destruct H as [H1 H]. apply sat_assert_bind in H. destruct H as [H2 H]. cbn [sat] in H. subst z.
    apply C in H2. rewrite andb_true_iff, Z.leb_le, Z.ltb_lt in H1.
    pose proof (Z.div_mod t pBLS ltac:(lia)) as D. rewrite H2 in D.
    assert (Q : t / pBLS = 0 \/ t / pBLS = 1).
    { assert (0 <= t / pBLS) by (apply Z.div_pos; lia). assert (t / pBLS < 2) by (apply Z.div_lt_upper_bound; lia). lia. }
    destruct Q as [Q|Q]; rewrite Q in D; [left | right]; lia.
  - intros H. exists z. apply sat_assert_bind. split; [rewrite andb_true_iff, Z.leb_le, Z.ltb_lt; lia|].
    apply sat_assert_bind. split; [|reflexivity]. apply C. destruct H as [->|[-> _]].
    + apply Z.mod_small. lia.
    + rewrite <- Z.add_mod_idemp_r, Z.mod_same, Z.add_0_r by lia. apply Z.mod_small. lia.
Qed.
Lemma run_Reduce x : run (fp_Reduce x) = Some (fval x).
Proof.
  unfold fp_Reduce. cbn [run]. assert (R : 0 <= fval x < pBLS) by (apply fval_range; reflexivity).
  assert (P : pBLS < 2 ^ 381) by reflexivity.
  rewrite (proj2 (andb_true_iff _ _)) by (rewrite Z.leb_le, Z.ltb_lt; lia). cbn [assert bind].
  rewrite (proj2 (feqb_eq _ _)); [reflexivity|]. apply fval_inj. rewrite fval_ofZ. apply fval_mod.
Qed.
Lemma Reduce_bound x z : sat (fp_Reduce x) z -> 0 <= z < 2 ^ 384.
Proof.
  intros H. apply sat_Reduce in H. assert (R : 0 <= fval x < pBLS) by (apply fval_range; reflexivity).
  assert (P : 2 * pBLS < 2 ^ 384) by reflexivity. assert (0 < pBLS) by reflexivity. generalize dependent (2 ^ 384). lia.
Qed.

(** folds over the bits *)
Lemma bitF_bF z i : bitF z i = bF (Z.testbit z (Z.of_nat i)). Proof. reflexivity. Qed.
Lemma fold_or_bits l : forall a, determ (mfold (fun s b => api_Or s b) (map bF l) (bF a)) (bF (a || existsb (fun b => b) l)).
Proof.
  induction l as [|b l IH]; intros a; cbn [mfold map existsb].
  - rewrite orb_false_r. apply determ_ret.
  - eapply determ_bind; [apply determ_Or|]. rewrite orb_assoc. apply IH.
Qed.
Lemma fold_xor_bits l : forall a, determ (mfold (fun s bc => d <- api_Xor (fst bc) (snd bc) ;; api_Or s d) (map (fun p => (bF (fst p), bF (snd p))) l) (bF a))
  (bF (a || existsb (fun p => xorb (fst p) (snd p)) l)).
Proof.
  induction l as [|[b c] l IH]; intros a; cbn [mfold map existsb fst snd].
  - rewrite orb_false_r. apply determ_ret.
  - eapply determ_bind; [eapply determ_bind; [apply determ_Xor | apply determ_Or]|]. rewrite orb_assoc. apply IH.
Qed.
Lemma combine_map {A B C} (f : A -> B) (g : A -> C) l : combine (map f l) (map g l) = map (fun i => (f i, g i)) l.
Proof. induction l as [|x l IH]; [reflexivity|]. cbn [map combine]. now rewrite IH. Qed.
Lemma bits_differ n x y : 0 <= x < 2 ^ Z.of_nat n -> 0 <= y < 2 ^ Z.of_nat n ->
  existsb (fun i => xorb (Z.testbit x (Z.of_nat i)) (Z.testbit y (Z.of_nat i))) (seq 0 n) = negb (x =? y).
Proof.
  intros Hx Hy. destruct (Z.eqb_spec x y) as [->|N]; cbn [negb].
  - apply not_true_is_false. rewrite existsb_exists. intros (i & _ & H). now rewrite xorb_nilpotent in H.
  - apply not_false_is_true. intros E. apply N, Z.bits_inj'. intros i Hi.
    destruct (Z.lt_ge_cases i (Z.of_nat n)) as [L|L].
    + apply xorb_eq. apply not_true_is_false. intros T. apply not_true_iff_false in E. apply E, existsb_exists.
      exists (Z.to_nat i). rewrite Z2Nat.id by lia. split; [apply in_seq; lia | exact T].
    + assert (B : forall z, 0 <= z < 2 ^ Z.of_nat n -> Z.testbit z i = false).
      { intros z Hz. rewrite <- (Z.mod_small z (2 ^ Z.of_nat n)) by exact Hz. apply Z.mod_pow2_bits_high. lia. }
      now rewrite (B x Hx), (B y Hy).
Qed.
Lemma determ_notEqualBits x y : 0 <= x < 2 ^ 384 -> 0 <= y < 2 ^ 384 -> determ (notEqualBits x y) (bF (negb (x =? y))).
Proof.
  intros Hx Hy. unfold notEqualBits, fp_ToBits, bitsF. rewrite combine_map.
  rewrite <- (bits_differ 384 x y Hx Hy).
  pose proof (fold_xor_bits (map (fun i => (Z.testbit x (Z.of_nat i), Z.testbit y (Z.of_nat i))) (seq 0 384)) false) as H.
  rewrite map_map in H. cbn [fst snd orb] in H.
  assert (E : forall f (l : list nat), existsb (fun p : bool * bool => xorb (fst p) (snd p)) (map (fun i => (Z.testbit x (Z.of_nat i), Z.testbit y (Z.of_nat i))) l) = f l ->
    existsb (fun i => xorb (Z.testbit x (Z.of_nat i)) (Z.testbit y (Z.of_nat i))) l = f l).
  { intros f l <-. induction l as [|i l IH]; [reflexivity|]. cbn [existsb map fst snd]. now rewrite IH. }
  rewrite (E (fun l => existsb (fun p : bool * bool => xorb (fst p) (snd p)) (map (fun i => (Z.testbit x (Z.of_nat i), Z.testbit y (Z.of_nat i))) l)) _ eq_refl).
  exact H.
Qed.
Lemma determ_nz z : 0 <= z < 2 ^ 384 -> determ (mfold (fun s b => api_Or s b) (fp_ToBits z) (f0 rBN)) (bF (negb (z =? 0))).
Proof.
  intros Hz. rewrite <- (bits_differ 384 z 0 Hz ltac:(split; reflexivity || discriminate)).
  pose proof (fold_or_bits (map (fun i => Z.testbit z (Z.of_nat i)) (seq 0 384)) false) as H. rewrite map_map in H. cbn [orb] in H.
  assert (E : forall l : list nat, existsb (fun i => xorb (Z.testbit z (Z.of_nat i)) (Z.testbit 0 (Z.of_nat i))) l = existsb (fun b => b) (map (fun i => Z.testbit z (Z.of_nat i)) l)).
  { induction l as [|i l IH]; [reflexivity|]. cbn [existsb map]. now rewrite IH, Z.testbit_0_l, xorb_false_r. }
  rewrite E. exact H.
Qed.

(** exact sets of accepted values *)
Lemma sat_G1NotZero x v : sat (G1NotZero x) v <-> v = bF true \/ (x = fp0 /\ v = bF false).
Proof.
  unfold G1NotZero. rewrite sat_bind.
  assert (X0 : x = fp0 <-> fval x = 0). { split; [now intros -> | intros E; apply fval_inj; now rewrite E]. }
  assert (R : 0 <= fval x < pBLS) by (apply fval_range; reflexivity).
  split.
  - intros (z & Hz & H). apply (proj2 (determ_nz z (Reduce_bound _ _ Hz))) in H. subst v.
    destruct (Z.eqb_spec z 0) as [E|N]; cbn [negb]; [right | now left]. split; [|reflexivity].
    apply X0. apply sat_Reduce in Hz. generalize dependent pBLS. intros. lia.
  - intros H. assert (Cz : exists z, sat (fp_Reduce x) z /\ v = bF (negb (z =? 0))).
    { destruct (Z.eq_dec (fval x) 0) as [E|N].
      - destruct H as [->|[_ ->]].
        + exists (fval x + pBLS). split; [apply sat_Reduce; right; split; [reflexivity | rewrite E; reflexivity] | rewrite E; reflexivity].
        + exists (fval x). split; [apply sat_Reduce; now left | now rewrite E].
      - destruct H as [->|[C _]]; [|apply X0 in C; contradiction]. exists (fval x). split; [apply sat_Reduce; now left|].
        destruct (Z.eqb_spec (fval x) 0); [contradiction | reflexivity]. }
    destruct Cz as (z & Hz & ->). exists z. split; [exact Hz|]. apply run_sat, (determ_nz z (Reduce_bound _ _ Hz)).
Qed.
Lemma run_G1NotZero x : run (G1NotZero x) = Some (bF (negb (feqb x fp0))).
Proof.
  unfold G1NotZero. rewrite run_bind, run_Reduce. rewrite (proj1 (determ_nz _ (Reduce_bound x _ (run_sat _ _ (run_Reduce x))))). do 2 f_equal.
Qed.
Lemma sat_G1NotEqual x y v : sat (G1NotEqual x y) v <-> (v = bF true /\ (x <> y \/ fval x < gap)) \/ (v = bF false /\ x = y).
Proof.
  unfold G1NotEqual. rewrite sat_bind.
  assert (XY : x = y <-> fval x = fval y). { split; [now intros -> | apply fval_inj]. }
  assert (R : 0 <= fval x < pBLS) by (apply fval_range; reflexivity).
  assert (R' : 0 <= fval y < pBLS) by (apply fval_range; reflexivity).
  split.
  - intros (z & Hz & H). apply sat_bind in H. destruct H as (z' & Hz' & H).
    apply (proj2 (determ_notEqualBits z z' (Reduce_bound _ _ Hz) (Reduce_bound _ _ Hz'))) in H. subst v.
    apply sat_Reduce in Hz, Hz'. destruct (Z.eqb_spec z z') as [E|N]; cbn [negb].
    + right. split; [reflexivity|]. apply XY. generalize dependent pBLS. intros. lia.
    + left. split; [reflexivity|]. rewrite XY. generalize dependent gap. generalize dependent pBLS. intros. lia.
  - assert (Cz : forall z z', sat (fp_Reduce x) z -> sat (fp_Reduce y) z' -> v = bF (negb (z =? z')) -> exists a, sat (fp_Reduce x) a /\ sat (y0 <- fp_Reduce y;; notEqualBits a y0) v).
    { intros z z' Hz Hz' ->. exists z. split; [exact Hz|]. apply sat_bind. exists z'. split; [exact Hz'|].
      apply run_sat, (determ_notEqualBits z z' (Reduce_bound _ _ Hz) (Reduce_bound _ _ Hz')). }
    intros [[-> [N|L]]|[-> E]].
    + apply (Cz (fval x) (fval y)); [apply sat_Reduce; now left | apply sat_Reduce; now left|]. rewrite XY in N. apply Z.eqb_neq in N. now rewrite N.
    + destruct (Z.eq_dec (fval x) (fval y)) as [E|N].
      * apply (Cz (fval x + pBLS) (fval y)); [apply sat_Reduce; now right | apply sat_Reduce; now left|].
        assert (N : fval x + pBLS <> fval y) by (clear L; assert (0 < pBLS) by reflexivity; lia). apply Z.eqb_neq in N. now rewrite N.
      * apply (Cz (fval x) (fval y)); [apply sat_Reduce; now left | apply sat_Reduce; now left|]. apply Z.eqb_neq in N. now rewrite N.
    + apply (Cz (fval x) (fval y)); [apply sat_Reduce; now left | apply sat_Reduce; now left|]. apply XY in E. apply Z.eqb_eq in E. now rewrite E.
Qed.
Lemma feqb_fval n (x y : Fm n) : feqb x y = (fval x =? fval y).
Proof. reflexivity. Qed.
Lemma run_G1NotEqual x y : run (G1NotEqual x y) = Some (bF (negb (feqb x y))).
Proof.
  unfold G1NotEqual. rewrite run_bind, run_Reduce, run_bind, run_Reduce.
  rewrite (proj1 (determ_notEqualBits _ _ (Reduce_bound x _ (run_sat _ _ (run_Reduce x))) (Reduce_bound y _ (run_sat _ _ (run_Reduce y))))). reflexivity.
Qed.
Lemma sat_G1NotEqualOne x v : sat (G1NotEqualOne x) v <-> v = bF true \/ (v = bF false /\ x = fp1).
Proof.
  unfold G1NotEqualOne. rewrite sat_bind.
  assert (X1 : x = fp1 <-> fval x = 1). { split; [now intros -> | intros E; apply fval_inj; now rewrite E]. }
  assert (R : 0 <= fval x < pBLS) by (apply fval_range; reflexivity). assert (O : 0 <= 1 < 2 ^ 384) by (split; reflexivity || discriminate).
  split.
  - intros (z & Hz & H). apply (proj2 (determ_notEqualBits z 1 (Reduce_bound _ _ Hz) O)) in H. subst v.
    destruct (Z.eqb_spec z 1) as [E|N]; cbn [negb]; [right | now left]. split; [reflexivity|].
    apply X1. apply sat_Reduce in Hz. assert (1 < pBLS) by reflexivity. generalize dependent pBLS. intros. lia.
  - intros H. assert (Cz : exists z, sat (fp_Reduce x) z /\ v = bF (negb (z =? 1))).
    { destruct (Z.eq_dec (fval x) 1) as [E|N].
      - destruct H as [->|[-> _]].
        + exists (fval x + pBLS). split; [apply sat_Reduce; right; split; [reflexivity | rewrite E; reflexivity] | rewrite E; reflexivity].
        + exists (fval x). split; [apply sat_Reduce; now left | now rewrite E].
      - destruct H as [->|[_ C]]; [|apply X1 in C; contradiction]. exists (fval x). split; [apply sat_Reduce; now left|].
        destruct (Z.eqb_spec (fval x) 1); [contradiction | reflexivity]. }
    destruct Cz as (z & Hz & ->). exists z. split; [exact Hz|]. apply run_sat, (determ_notEqualBits z 1 (Reduce_bound _ _ Hz) O).
Qed.
Lemma run_G1NotEqualOne x : run (G1NotEqualOne x) = Some (bF (negb (feqb x fp1))).
Proof.
  unfold G1NotEqualOne. rewrite run_bind, run_Reduce. assert (O : 0 <= 1 < 2 ^ 384) by (split; reflexivity || discriminate).
  rewrite (proj1 (determ_notEqualBits _ 1 (Reduce_bound x _ (run_sat _ _ (run_Reduce x))) O)). reflexivity.
Qed.

Lemma sat_Or a b v : sat (api_Or (bF a) (bF b)) v <-> v = bF (a || b).
Proof. split; [apply determ_Or | intros ->; apply run_sat, determ_Or]. Qed.
(** accepted values of the predicates on Fp2 *)
Lemma E2_split x : x = mkE2 (A0 x) (A1 x). Proof. now destruct x. Qed.
Lemma sat_E2NotZero x v : sat (E2NotZero x) v <-> v = bF true \/ (x = E2_Zero /\ v = bF false).
Proof.
  unfold E2NotZero. rewrite sat_bind. split.
  - intros (a & Ha & H). apply sat_bind in H. destruct H as (b & Hb & H). apply sat_G1NotZero in Ha, Hb.
    destruct Ha as [->|[Ea ->]], Hb as [->|[Eb ->]]; apply sat_Or in H; subst v; auto. right. split; [|reflexivity]. rewrite (E2_split x), Ea, Eb. reflexivity.
  - assert (C : forall a b, sat (G1NotZero (A0 x)) (bF a) -> sat (G1NotZero (A1 x)) (bF b) -> v = bF (a || b) ->
      exists a, sat (G1NotZero (A0 x)) a /\ sat (a1NotZero <- G1NotZero (A1 x);; api_Or a a1NotZero) v).
    { intros a b Ha Hb ->. exists (bF a). split; [exact Ha|]. apply sat_bind. exists (bF b). split; [exact Hb | now apply sat_Or]. }
    intros [->|[E ->]].
    + apply (C true true); [apply sat_G1NotZero; now left | apply sat_G1NotZero; now left | reflexivity].
    + subst x. apply (C false false); [apply sat_G1NotZero; now right | apply sat_G1NotZero; now right | reflexivity].
Qed.
Lemma run_E2NotZero x : run (E2NotZero x) = Some (bF (negb (E2_eqb x E2_Zero))).
Proof.
  unfold E2NotZero. rewrite run_bind, run_G1NotZero, run_bind, run_G1NotZero, (proj1 (determ_Or _ _)). do 2 f_equal. unfold E2_eqb. now rewrite negb_andb.
Qed.
Lemma sat_E2NotEqual x y v : sat (E2NotEqual x y) v <->
  (v = bF true /\ (x <> y \/ fval (A0 x) < gap \/ fval (A1 x) < gap)) \/ (v = bF false /\ x = y).
Proof.
  assert (D : x <> y <-> A0 x <> A0 y \/ A1 x <> A1 y).
  { split; [|intros [N|N] E; apply N; now rewrite E]. intros N. destruct (feq_dec (A0 x) (A0 y)) as [E|]; [|now left]. right. intros E'. apply N. rewrite (E2_split x), E, E'. now destruct y. }
  unfold E2NotEqual. rewrite sat_bind. split.
  - intros (a & Ha & H). apply sat_bind in H. destruct H as (b & Hb & H). apply sat_G1NotEqual in Ha, Hb.
    destruct Ha as [[-> Ea]|[-> Ea]], Hb as [[-> Eb]|[-> Eb]]; apply sat_Or in H; subst v; [left|left|left|right]; (split; [reflexivity|]); try rewrite D; try tauto.
    rewrite (E2_split x), Ea, Eb. now destruct y.
  - assert (C : forall a b, sat (G1NotEqual (A0 x) (A0 y)) (bF a) -> sat (G1NotEqual (A1 x) (A1 y)) (bF b) -> v = bF (a || b) ->
      exists a, sat (G1NotEqual (A0 x) (A0 y)) a /\ sat (b <- G1NotEqual (A1 x) (A1 y) ;; api_Or a b) v).
    { intros a b Ha Hb ->. exists (bF a). split; [exact Ha|]. apply sat_bind. exists (bF b). split; [exact Hb | now apply sat_Or]. }
    assert (HR : forall x y, sat (G1NotEqual x y) (bF (negb (feqb x y)))) by (intros; apply run_sat, run_G1NotEqual).
    intros [[-> H]|[-> ->]].
    + assert (H' : sat (G1NotEqual (A0 x) (A0 y)) (bF true) \/ sat (G1NotEqual (A1 x) (A1 y)) (bF true)).
      { rewrite D in H. rewrite !sat_G1NotEqual. tauto. }
      destruct H' as [H'|H']; [apply (C true _ H' (HR _ _)); reflexivity | apply (C _ true (HR _ _) H'); now rewrite orb_true_r].
    + apply (C false false); [apply sat_G1NotEqual; now right | apply sat_G1NotEqual; now right | reflexivity].
Qed.
Lemma run_E2NotEqual x y : run (E2NotEqual x y) = Some (bF (negb (E2_eqb x y))).
Proof.
  unfold E2NotEqual. rewrite run_bind, run_G1NotEqual, run_bind, run_G1NotEqual, (proj1 (determ_Or _ _)). do 2 f_equal. unfold E2_eqb. now rewrite negb_andb.
Qed.
Lemma sat_E2NotOne x v : sat (E2NotOne x) v <-> v = bF true \/ (x = E2_One /\ v = bF false).
Proof.
  unfold E2NotOne. rewrite sat_bind. split.
  - intros (a & Ha & H). apply sat_bind in H. destruct H as (b & Hb & H). apply sat_G1NotEqualOne in Ha. apply sat_G1NotZero in Hb.
    destruct Ha as [->|[-> Ea]], Hb as [->|[Eb ->]]; apply sat_Or in H; subst v; auto. right. split; [|reflexivity]. rewrite (E2_split x), Ea, Eb. reflexivity.
  - assert (C : forall a b, sat (G1NotEqualOne (A0 x)) (bF a) -> sat (G1NotZero (A1 x)) (bF b) -> v = bF (a || b) ->
      exists a, sat (G1NotEqualOne (A0 x)) a /\ sat (a1NotZero <- G1NotZero (A1 x);; api_Or a a1NotZero) v).
    { intros a b Ha Hb ->. exists (bF a). split; [exact Ha|]. apply sat_bind. exists (bF b). split; [exact Hb | now apply sat_Or]. }
    intros [->|[E ->]].
    + apply (C true true); [apply sat_G1NotEqualOne; now left | apply sat_G1NotZero; now left | reflexivity].
    + subst x. apply (C false false); [apply sat_G1NotEqualOne; now right | apply sat_G1NotZero; now right | reflexivity].
Qed.
Lemma run_E2NotOne x : run (E2NotOne x) = Some (bF (negb (E2_eqb x E2_One))).
Proof.
  unfold E2NotOne. rewrite run_bind, run_G1NotEqualOne, run_bind, run_G1NotZero, (proj1 (determ_Or _ _)). do 2 f_equal. unfold E2_eqb. now rewrite negb_andb.
Qed.
Lemma sat_NotInf x y v : sat (G2AffineNotInfinity (mkG2 x y)) v <-> v = bF true \/ (x = E2_Zero /\ y = E2_Zero /\ v = bF false).
Proof.
  unfold G2AffineNotInfinity. cbn [g2X g2Y]. rewrite sat_bind. split.
  - intros (a & Ha & H). apply sat_bind in H. destruct H as (b & Hb & H). apply sat_E2NotZero in Ha, Hb.
    destruct Ha as [->|[Ea ->]], Hb as [->|[Eb ->]]; apply sat_Or in H; subst v; auto.
  - assert (C : forall a b, sat (E2NotZero x) (bF a) -> sat (E2NotZero y) (bF b) -> v = bF (a || b) ->
      exists a, sat (E2NotZero x) a /\ sat (b <- E2NotZero y;; api_Or a b) v).
    { intros a b Ha Hb ->. exists (bF a). split; [exact Ha|]. apply sat_bind. exists (bF b). split; [exact Hb | now apply sat_Or]. }
    intros [->|(E & E' & ->)].
    + apply (C true true); [apply sat_E2NotZero; now left | apply sat_E2NotZero; now left | reflexivity].
    + apply (C false false); [apply sat_E2NotZero; now right | apply sat_E2NotZero; now right | reflexivity].
Qed.
Lemma run_NotInf x y : run (G2AffineNotInfinity (mkG2 x y)) = Some (bF (negb (E2_eqb x E2_Zero && E2_eqb y E2_Zero))).
Proof.
  unfold G2AffineNotInfinity. cbn [g2X g2Y]. rewrite run_bind, run_E2NotZero, run_bind, run_E2NotZero, (proj1 (determ_Or _ _)). do 2 f_equal. now rewrite negb_andb.
Qed.
