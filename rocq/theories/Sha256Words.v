(** Word gadgets of the SHA-256 model against Z arithmetic (C04). *)
From Coq Require Import ZArith List Bool Lia.
From Verif Require Import Params ZMod Circuit Api ApiFacts Sha256 Sha256Spec.
Import ListNotations.
Open Scope Z_scope.

(** *** combinators *)
Definition reach {A} (c : Circ A) (P : A -> Prop) : Prop := exists a, determ c a /\ P a.
Lemma reach_ret {A} (a : A) (P : A -> Prop) : P a -> reach (Ret a) P.
Proof. intros H. exists a. split; [apply determ_ret | exact H]. Qed.
Lemma reach_bind {A B} (c : Circ A) (f : A -> Circ B) P Q :
  reach c P -> (forall a, P a -> reach (f a) Q) -> reach (bind c f) Q.
Proof.
  intros (a & D & H) K. destruct (K a H) as (b & D' & H'). exists b. split; [|exact H'].
  eapply determ_bind; eassumption.
Qed.
Lemma reach_det {A} (c : Circ A) a : determ c a -> reach c (fun x => x = a).
Proof. intros D. now exists a. Qed.
Lemma det_bind {A B} (c : Circ A) (f : A -> Circ B) a Q : determ c a -> reach (f a) Q -> reach (bind c f) Q.
Proof. intros D (b & D' & H). exists b. split; [|exact H]. eapply determ_bind; eassumption. Qed.
Lemma reach_mfold {A S T} (f : S -> A -> Circ S) (g : T -> A -> T) (R : S -> T -> Prop) l s t :
  (forall s t x, In x l -> R s t -> reach (f s x) (fun s' => R s' (g t x))) -> R s t ->
  reach (mfold f l s) (fun s' => R s' (fold_left g l t)).
Proof.
  revert s t. induction l as [|x l IH]; intros s t H HR; cbn [mfold fold_left].
  - now apply reach_ret.
  - eapply reach_bind; [apply H; [now left | exact HR]|]. intros s' HR'. apply IH; [|exact HR'].
    intros s0 t0 y Hy. apply H. now right.
Qed.
Lemma mmap_map {A B C} (f : B -> Circ C) (h : A -> B) l : mmap f (map h l) = mmap (fun x => f (h x)) l.
Proof. induction l as [|x l IH]; cbn [mmap map]; [reflexivity | now rewrite IH]. Qed.

(** *** bits *)
Lemma bitF_bF z i : bitF z i = bF (Z.testbit z (Z.of_nat i)). Proof. reflexivity. Qed.
Lemma bitsF_length n z : length (bitsF n z) = n.
Proof. unfold bitsF. now rewrite map_length, seq_length. Qed.
Lemma nth_map_seq {A} (f : nat -> A) n i d : (i < n)%nat -> nth i (map f (seq 0 n)) d = f i.
Proof.
  intros H. rewrite nth_indep with (d' := f 0%nat) by (now rewrite map_length, seq_length).
  rewrite map_nth. f_equal. now rewrite seq_nth.
Qed.
Lemma nth_bitsF n z i : (i < n)%nat -> nth i (bitsF n z) fr0 = bF (Z.testbit z (Z.of_nat i)).
Proof. intros H. unfold bitsF. now rewrite nth_map_seq. Qed.
Lemma bitsF_ext n a b : (forall i, 0 <= i < Z.of_nat n -> Z.testbit a i = Z.testbit b i) -> bitsF n a = bitsF n b.
Proof.
  intros H. unfold bitsF. apply map_ext_in. intros i Hi. apply in_seq in Hi. rewrite !bitF_bF, H by lia. reflexivity.
Qed.
Lemma bitsF_map n z (f : nat -> bool) : (forall i, (i < n)%nat -> f i = Z.testbit z (Z.of_nat i)) ->
  map (fun i => bF (f i)) (seq 0 n) = bitsF n z.
Proof. intros H. unfold bitsF. apply map_ext_in. intros i Hi. apply in_seq in Hi. rewrite bitF_bF, H by lia. reflexivity. Qed.
Lemma bitsF_mod n z : bitsF n (z mod 2 ^ Z.of_nat n) = bitsF n z.
Proof. apply bitsF_ext. intros i Hi. now rewrite Z.mod_pow2_bits_low. Qed.
Lemma bitsF_S n z : bitsF (S n) z = bF (Z.odd z) :: bitsF n (z / 2).
Proof.
  unfold bitsF. cbn [seq map]. rewrite bitF_bF. cbn [Z.of_nat]. rewrite Z.bit0_odd. f_equal.
  rewrite <- seq_shift, map_map. apply map_ext. intros i. rewrite !bitF_bF. f_equal.
  rewrite Nat2Z.inj_succ, Z.div2_bits by lia. reflexivity.
Qed.
Lemma firstn_bitsF n m z : (n <= m)%nat -> firstn n (bitsF m z) = bitsF n z.
Proof.
  intros H. unfold bitsF. rewrite firstn_map. f_equal.
  replace m with (n + (m - n))%nat by lia. rewrite seq_app, firstn_app, seq_length, Nat.sub_diag, firstn_O, app_nil_r.
  now rewrite firstn_all2 by (rewrite seq_length; lia).
Qed.
Lemma bF_ofZ b : bF b = ofZ rBN (Z.b2z b).
Proof. destruct b; reflexivity. Qed.
Lemma FromBinary_bits n : forall z, api_FromBinary (bitsF n z) = ofZ rBN (z mod 2 ^ Z.of_nat n).
Proof.
  induction n as [|n IH]; intros z.
  - cbn [bitsF seq map api_FromBinary Z.of_nat Z.pow]. rewrite Z.mod_1_r. reflexivity.
  - rewrite bitsF_S. cbn [api_FromBinary]. rewrite IH, bF_ofZ, <- ofZ_mul, <- ofZ_add. f_equal.
    rewrite Nat2Z.inj_succ, Z.pow_succ_r by lia.
    pose proof (Z.div_mod z 2 ltac:(lia)) as E. rewrite Zmod_odd in E.
    assert (P : 0 < 2 ^ Z.of_nat n) by (apply Z.pow_pos_nonneg; lia).
    rewrite Z.rem_mul_r by lia. rewrite Zmod_odd. destruct (Z.odd z); cbn [Z.b2z]; lia.
Qed.
Lemma FromBinary_bits_small n z : 0 <= z < 2 ^ Z.of_nat n -> api_FromBinary (bitsF n z) = ofZ rBN z.
Proof. intros H. rewrite FromBinary_bits, Z.mod_small by exact H. reflexivity. Qed.

Lemma bools_bits bs : forallb isbool bs = true -> exists z, 0 <= z < 2 ^ Z.of_nat (length bs) /\ bs = bitsF (length bs) z.
Proof.
  induction bs as [|b bs IH]; intros H; cbn [length].
  - exists 0. split; [cbn; lia | reflexivity].
  - cbn [forallb] in H. apply andb_true_iff in H. destruct H as (Hb & H). apply isbool_iff in Hb. destruct Hb as (c & ->).
    destruct (IH H) as (z & Hz & E). exists (2 * z + Z.b2z c).
    rewrite Nat2Z.inj_succ, Z.pow_succ_r by lia.
    assert (Hc : 0 <= Z.b2z c <= 1) by (destruct c; cbn; lia).
    split; [lia|]. rewrite bitsF_S. f_equal.
    + rewrite Z.odd_add, Z.odd_mul. cbn [Z.odd]. rewrite andb_false_l, xorb_false_l. now destruct c.
    + rewrite E at 1. f_equal. rewrite (Z.mul_comm 2), Z.div_add_l by lia. rewrite Z.div_small by lia. lia.
Qed.
Lemma rBN_pos : 0 < rBN. Proof. reflexivity. Qed.
Lemma sat_ToBinary n x bs : 2 ^ Z.of_nat n <= rBN ->
  (sat (api_ToBinary n x) bs <-> fval x < 2 ^ Z.of_nat n /\ bs = bitsF n (fval x)).
Proof.
  intros Hn. unfold api_ToBinary. rewrite sat_ask. split.
  - intros (t & H). apply sat_assert_bind in H. destruct H as (HL & H). apply Nat.eqb_eq in HL.
    apply sat_assert_bind in H. destruct H as (HB & H). unfold api_AssertIsEqual in H.
    apply sat_assert_bind in H. destruct H as (HE & H). apply feqb_eq in HE. apply sat_ret_inv in H. subst bs.
    destruct (bools_bits t HB) as (z & Hz & E). rewrite HL in *.
    rewrite E, FromBinary_bits_small in HE by exact Hz.
    assert (V : fval x = z). { rewrite <- HE. apply fval_ofZ_small. lia. }
    rewrite V. split; [lia | exact E].
  - intros (Hx & ->). exists (bitsF n (fval x)).
    pose proof (fval_range x rBN_pos) as R.
    apply sat_assert_bind. split; [rewrite bitsF_length; apply Nat.eqb_refl|].
    apply sat_assert_bind. split.
    { apply forallb_forall. intros b Hb. unfold bitsF in Hb. apply in_map_iff in Hb. destruct Hb as (i & <- & _). apply isbool_bF. }
    unfold api_AssertIsEqual. apply sat_assert_bind. split; [|reflexivity].
    apply feqb_eq. rewrite FromBinary_bits_small by lia. apply ofZ_fval.
Qed.
Lemma determ_ToBinary n x : 2 ^ Z.of_nat n <= rBN -> fval x < 2 ^ Z.of_nat n ->
  determ (api_ToBinary n x) (bitsF n (fval x)).
Proof.
  intros Hn Hx. pose proof (fval_range x rBN_pos) as R. split.
  - unfold api_ToBinary. cbn [run]. rewrite bitsF_length, Nat.eqb_refl. cbn [assert bind].
    replace (forallb isbool (bitsF n (fval x))) with true.
    2:{ symmetry. apply forallb_forall. intros b Hb. unfold bitsF in Hb. apply in_map_iff in Hb. destruct Hb as (i & <- & _). apply isbool_bF. }
    cbn [assert bind]. unfold api_AssertIsEqual. rewrite FromBinary_bits_small, ofZ_fval, feqb_refl by lia. reflexivity.
  - intros bs H. apply sat_ToBinary in H; [|exact Hn]. now destruct H.
Qed.
Lemma unsat_ToBinary n x : 2 ^ Z.of_nat n <= rBN -> 2 ^ Z.of_nat n <= fval x -> unsat (api_ToBinary n x).
Proof. intros Hn Hx bs H. apply sat_ToBinary in H; [|exact Hn]. lia. Qed.

(** *** bitwise operations *)
Lemma opBits_det n op bop b0 zs :
  (forall a b, determ (op (bF a) (bF b)) (bF (bop a b))) ->
  determ (opBits n op (bF b0) (map (bitsF n) zs))
    (map (fun i => bF (fold_left (fun r z => bop r (Z.testbit z (Z.of_nat i))) zs b0)) (seq 0 n)).
Proof.
  intros H. unfold opBits. apply determ_mmap. intros i Hi. apply in_seq in Hi.
  revert b0. induction zs as [|z zs IH]; intros b0; cbn [map mfold fold_left]; [apply determ_ret|].
  eapply determ_bind; [|apply IH]. rewrite nth_bitsF by lia. apply H.
Qed.
Lemma u_xor_det n zs : determ (u_xor n (map (bitsF n) zs)) (bitsF n (fold_left Z.lxor zs 0)).
Proof.
  unfold u_xor. rewrite <- (bitsF_map n _ (fun i => fold_left (fun r z => xorb r (Z.testbit z (Z.of_nat i))) zs false)).
  - exact (opBits_det n api_Xor xorb false zs determ_Xor).
  - intros i _. rewrite <- (Z.bits_0 (Z.of_nat i)). generalize 0.
    induction zs as [|z zs IH]; intros a; cbn [fold_left]; [reflexivity|]. now rewrite <- Z.lxor_spec, IH.
Qed.
Lemma u_or_det n zs : determ (u_or n (map (bitsF n) zs)) (bitsF n (fold_left Z.lor zs 0)).
Proof.
  unfold u_or. rewrite <- (bitsF_map n _ (fun i => fold_left (fun r z => orb r (Z.testbit z (Z.of_nat i))) zs false)).
  - exact (opBits_det n api_Or orb false zs determ_Or).
  - intros i _. rewrite <- (Z.bits_0 (Z.of_nat i)). generalize 0.
    induction zs as [|z zs IH]; intros a; cbn [fold_left]; [reflexivity|]. now rewrite <- Z.lor_spec, IH.
Qed.
Lemma u_and_det n zs : determ (u_and n (map (bitsF n) zs)) (bitsF n (fold_left Z.land zs (-1))).
Proof.
  unfold u_and. rewrite <- (bitsF_map n _ (fun i => fold_left (fun r z => andb r (Z.testbit z (Z.of_nat i))) zs true)).
  - exact (opBits_det n api_And andb true zs determ_And).
  - intros i _.
    assert (G : forall a, fold_left (fun r z => andb r (Z.testbit z (Z.of_nat i))) zs (Z.testbit a (Z.of_nat i)) = Z.testbit (fold_left Z.land zs a) (Z.of_nat i)).
    { induction zs as [|z zs IH]; intros a; cbn [fold_left]; [reflexivity|]. now rewrite <- Z.land_spec, IH. }
    rewrite <- (G (-1)), Z.bits_m1 by lia. reflexivity.
Qed.
Lemma u_not_det n z : determ (u_not n (bitsF n z)) (bitsF n (2 ^ Z.of_nat n - 1 - z)).
Proof.
  unfold u_not. rewrite <- (bitsF_map n (2 ^ Z.of_nat n - 1 - z) (fun i => xorb (Z.testbit z (Z.of_nat i)) true)).
  - apply determ_mmap. intros i Hi. apply in_seq in Hi. cbv beta. rewrite nth_bitsF by lia. exact (determ_Xor _ true).
  - intros i Hi. rewrite xorb_true_r, <- Z.lnot_spec by lia.
    rewrite <- (Z.mod_pow2_bits_low (Z.lnot z) (Z.of_nat n)) by lia.
    rewrite <- (Z.mod_pow2_bits_low (2 ^ Z.of_nat n - 1 - z) (Z.of_nat n)) by lia. f_equal.
    unfold Z.lnot. replace (2 ^ Z.of_nat n - 1 - z) with (Z.pred (- z) + 1 * 2 ^ Z.of_nat n) by lia.
    now rewrite Z_mod_plus_full.
Qed.

(** *** shifts and rotations *)
Lemma map_seq_app {A} (f g : nat -> A) a b :
  map f (seq 0 a) ++ map g (seq a b) = map (fun i => if Nat.ltb i a then f i else g i) (seq 0 (a + b)).
Proof.
  rewrite seq_app, map_app. f_equal; apply map_ext_in; intros i Hi; apply in_seq in Hi.
  - destruct (Nat.ltb_spec i a); [reflexivity | lia].
  - cbn [plus] in Hi. destruct (Nat.ltb_spec i a); [lia | reflexivity].
Qed.
Lemma high_bit n z i : 0 <= z < 2 ^ n -> n <= i -> Z.testbit z i = false.
Proof.
  intros H Hi. destruct (Z.eq_dec z 0) as [->|Nz]; [apply Z.bits_0|].
  apply Z.bits_above_log2; [lia|]. apply Z.lt_le_trans with n; [|exact Hi]. apply Z.log2_lt_pow2; lia.
Qed.
Lemma u_rshift_eq n z s : (s <= n)%nat -> 0 <= z < 2 ^ Z.of_nat n ->
  u_rshift n (bitsF n z) s = bitsF n (Z.shiftr z (Z.of_nat s)).
Proof.
  intros Hs Hz. unfold u_rshift. rewrite map_seq_app. replace (n - s + s)%nat with n by lia.
  unfold bitsF at 2. apply map_ext_in. intros i Hi. apply in_seq in Hi.
  rewrite bitF_bF, Z.shiftr_spec by lia. destruct (Nat.ltb_spec i (n - s)).
  - rewrite nth_bitsF by lia. do 2 f_equal. lia.
  - rewrite (high_bit (Z.of_nat n)) by lia. reflexivity.
Qed.
Lemma u_lshift_eq n z s : (s <= n)%nat -> u_lshift n (bitsF n z) s = bitsF n (Z.shiftl z (Z.of_nat s)).
Proof.
  intros Hs. unfold u_lshift. rewrite map_seq_app. replace (s + (n - s))%nat with n by lia.
  unfold bitsF at 2. apply map_ext_in. intros i Hi. apply in_seq in Hi.
  rewrite bitF_bF, Z.shiftl_spec by lia. destruct (Nat.ltb_spec i s).
  - rewrite Z.testbit_neg_r by lia. reflexivity.
  - rewrite nth_bitsF by lia. do 2 f_equal. lia.
Qed.
(** rotation by any amount in [-n, n], in terms of the bits *)
Lemma u_lrot_eq n z r : 0 < r < Z.of_nat n -> 0 <= z < 2 ^ Z.of_nat n ->
  u_lrot n (bitsF n z) (- r) = bitsF n (Z.lor (Z.shiftr z r) (Z.shiftl z (Z.of_nat n - r) mod 2 ^ Z.of_nat n)).
Proof.
  intros Hr Hz. unfold u_lrot. unfold bitsF at 2. apply map_ext_in. intros i Hi. apply in_seq in Hi.
  rewrite bitF_bF. replace (Z.of_nat i - - r + Z.of_nat n) with (Z.of_nat i + r + 1 * Z.of_nat n) by lia.
  rewrite Z.rem_mod_nonneg, Z_mod_plus_full by lia.
  pose proof (Z.mod_pos_bound (Z.of_nat i + r) (Z.of_nat n) ltac:(lia)) as B.
  rewrite nth_bitsF by lia. f_equal. rewrite Z2Nat.id by lia.
  rewrite Z.lor_spec, Z.shiftr_spec, Z.mod_pow2_bits_low, Z.shiftl_spec by lia.
  destruct (Z_lt_ge_dec (Z.of_nat i + r) (Z.of_nat n)).
  - rewrite Z.mod_small by lia. rewrite (Z.testbit_neg_r z (Z.of_nat i - _)) by lia. now rewrite orb_false_r.
  - rewrite (high_bit (Z.of_nat n) z (Z.of_nat i + r)) by lia. cbn [orb]. f_equal.
    replace (Z.of_nat i + r) with (Z.of_nat i + r - Z.of_nat n + 1 * Z.of_nat n) by lia.
    rewrite Z_mod_plus_full, Z.mod_small by lia. lia.
Qed.

(** *** addition *)
Lemma fold_fadd_ofZ zs a : fold_left fadd (map (ofZ rBN) zs) (ofZ rBN a) = ofZ rBN (fold_left Z.add zs a).
Proof. revert a. induction zs as [|z zs IH]; intros a; cbn [map fold_left]; [reflexivity|]. now rewrite <- ofZ_add, IH. Qed.
Lemma fold_add_range zs a B : 0 <= a -> Forall (fun z => 0 <= z < B) zs ->
  a <= fold_left Z.add zs a <= a + Z.of_nat (length zs) * B.
Proof.
  revert a. induction zs as [|z zs IH]; intros a Ha F; cbn [fold_left length]; [lia|].
  inversion F as [|? ? Hz F']; subst. specialize (IH (a + z) ltac:(lia) F'). lia.
Qed.
Lemma pow33 k : (Z.of_nat k + 2) * 2 ^ 32 <= 2 ^ Z.of_nat (33 + k).
Proof.
  rewrite Nat2Z.inj_add, Z.pow_add_r by lia. change (2 ^ Z.of_nat 33) with (2 * 2 ^ 32).
  assert (Z.of_nat k + 2 <= 2 * 2 ^ Z.of_nat k); [|nia].
  induction k as [|k IH]; [cbn; lia|]. rewrite Nat2Z.inj_succ, Z.pow_succ_r by lia. lia.
Qed.
Lemma u_add_det a b zs : 0 <= a < 2 ^ 32 -> 0 <= b < 2 ^ 32 -> Forall (fun z => 0 <= z < 2 ^ 32) zs ->
  (length zs <= 200)%nat ->
  determ (u_add (bitsF 32 a) (bitsF 32 b) (map (bitsF 32) zs)) (bitsF 32 (fold_left Z.add zs (a + b) mod 2 ^ 32)).
Proof.
  intros Ha Hb F L. unfold u_add. rewrite map_length, map_map. unfold fromUint.
  rewrite (FromBinary_bits_small 32 a Ha), (FromBinary_bits_small 32 b Hb), <- ofZ_add.
  replace (map (fun x => api_FromBinary (bitsF 32 x)) zs) with (map (ofZ rBN) zs).
  2:{ apply map_ext_in. intros z Hz. symmetry. apply (FromBinary_bits_small 32). revert z Hz. now apply Forall_forall. }
  rewrite fold_fadd_ofZ. set (s := fold_left Z.add zs (a + b)).
  assert (R : 0 <= s < 2 ^ Z.of_nat (33 + length zs)).
  { pose proof (fold_add_range zs (a + b) (2 ^ 32) ltac:(lia) F) as R. fold s in R.
    pose proof (pow33 (length zs)). lia. }
  assert (Q : 2 ^ Z.of_nat (33 + length zs) <= rBN).
  { apply Z.le_trans with (2 ^ 233); [apply Z.pow_le_mono_r; lia | now apply Z.leb_le]. }
  assert (V : fval (ofZ rBN s) = s) by (apply fval_ofZ_small; lia).
  eapply determ_bind; [apply determ_ToBinary; [exact Q | rewrite V; lia]|].
  rewrite V, firstn_bitsF by lia. rewrite <- (bitsF_mod 32 s). apply determ_ret.
Qed.

(** *** widths *)
Lemma toUint32_eq z : 0 <= z < 256 -> toUint32 (bitsF 8 z) = bitsF 32 z.
Proof.
  intros Hz. unfold toUint32. rewrite (map_seq_app _ _ 8 24). unfold bitsF at 2. apply map_ext_in.
  intros i Hi. apply in_seq in Hi. rewrite bitF_bF. destruct (Nat.ltb_spec i 8).
  - now rewrite nth_bitsF.
  - rewrite (high_bit 8) by (try exact Hz; lia). reflexivity.
Qed.
Lemma toUint8_eq n z : (8 <= n)%nat -> toUint8 (bitsF n z) = bitsF 8 z.
Proof.
  intros Hn. unfold toUint8. unfold bitsF at 2. apply map_ext_in. intros i Hi. apply in_seq in Hi.
  rewrite nth_bitsF by lia. reflexivity.
Qed.
Lemma PutUint32_eq z : 0 <= z < 2 ^ 32 -> PutUint32 (bitsF 32 z) = map (bitsF 8) (be_bytes 4 z).
Proof.
  intros Hz. unfold PutUint32. rewrite !u_rshift_eq, !toUint8_eq by (cbn; lia).
  rewrite !Z.shiftr_div_pow2 by lia. unfold be_bytes. cbn [seq map]. change 256 with (2 ^ Z.of_nat 8).
  rewrite !bitsF_mod. repeat f_equal. cbn. now rewrite Z.div_1_r.
Qed.
Lemma PutUint64_eq z : 0 <= z < 2 ^ 64 -> PutUint64 (bitsF 64 z) = map (bitsF 8) (be_bytes 8 z).
Proof.
  intros Hz. unfold PutUint64. rewrite !u_rshift_eq, !toUint8_eq by (cbn; lia).
  rewrite !Z.shiftr_div_pow2 by lia. unfold be_bytes. cbn [seq map]. change 256 with (2 ^ Z.of_nat 8).
  rewrite !bitsF_mod. repeat f_equal. cbn. now rewrite Z.div_1_r.
Qed.
