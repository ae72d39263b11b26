(** The host-side helpers against the circuits (C47, C54, C55). *)
From Coq Require Import ZArith List Bool Lia Permutation.
From Verif Require Import Params ZMod Circuit Emulated FieldFacts TowerFacts Pairing Poseidon PoseidonEval HashField HashFieldSpec HashFieldProofs HashG2 Bls BlsSpec BlsProofs
  BlsExamples BlsRefute CircuitSpec CircuitProofs Helpers.
Import ListNotations.
Open Scope Z_scope.
Local Notation fr0 := (f0 rBN).
Opaque Poseidon.

(** ** limbs *)
Lemma digits_le n : forall z, 0 <= z -> fold_right (fun d acc => d + 2 ^ 64 * acc) 0 (map (fun i => (z / 2 ^ (64 * Z.of_nat i)) mod 2 ^ 64) (seq 0 n)) = z mod 2 ^ (64 * Z.of_nat n).
Proof.
  induction n as [|n IH]; intros z Hz.
  - cbn [seq map fold_right]. change (64 * Z.of_nat 0) with 0. rewrite Z.pow_0_r, Z.mod_1_r. reflexivity.
  - cbn [seq map fold_right]. rewrite <- seq_shift, map_map.
    change (64 * Z.of_nat 0) with 0. rewrite Z.pow_0_r, Z.div_1_r.
    rewrite (map_ext _ (fun i => ((z / 2 ^ 64) / 2 ^ (64 * Z.of_nat i)) mod 2 ^ 64)).
    2:{ intros i. replace (64 * Z.of_nat (S i)) with (64 + 64 * Z.of_nat i) by lia. rewrite Z.pow_add_r by lia.
        rewrite Z.div_div by (try apply Z.pow_pos_nonneg; try apply Z.pow_nonzero; lia). reflexivity. }
    rewrite IH by (apply Z.div_pos; lia).
    replace (64 * Z.of_nat (S n)) with (64 + 64 * Z.of_nat n) by lia. rewrite Z.pow_add_r by lia.
    assert (0 < 2 ^ 64) by lia. assert (0 < 2 ^ (64 * Z.of_nat n)) by (apply Z.pow_pos_nonneg; lia).
    rewrite Z.rem_mul_r by lia. reflexivity.
Qed.
Lemma limbsOf_range z : Forall (fun d => 0 <= d < 2 ^ 64) (limbsOf z).
Proof. unfold limbsOf. apply Forall_forall. intros d Hd. apply in_map_iff in Hd. destruct Hd as (i & <- & _). apply Z.mod_pos_bound. lia. Qed.
Lemma limbsOf_len z : length (limbsOf z) = 6%nat. Proof. reflexivity. Qed.
Lemma pBLS_381 : pBLS < 2 ^ 381. Proof. reflexivity. Qed.
Lemma r_64 : 2 ^ 64 < rBN. Proof. reflexivity. Qed.
Lemma limbsOf_ok z : 0 <= z < pBLS -> digits_ok (limbsOf z) = true /\ digits (limbsOf z) = z.
Proof.
  intros H. pose proof pBLS_381 as P.
  assert (E : digits (limbsOf z) = z).
  { unfold digits, limbsOf. rewrite digits_le by lia. apply Z.mod_small.
    assert (2 ^ 381 < 2 ^ (64 * Z.of_nat 6)) by reflexivity. lia. }
  split; [|exact E]. unfold digits_ok. rewrite E, limbsOf_len. cbn [Nat.eqb andb]. rewrite !andb_true_iff. split.
  - apply forallb_forall. intros d Hd. apply andb_true_iff. rewrite Z.leb_le, Z.ltb_lt.
    exact (proj1 (Forall_forall _ _) (limbsOf_range z) d Hd).
  - apply Z.ltb_lt. lia.
Qed.
Theorem newG1_ok v : 0 <= hX v < pBLS -> 0 <= hY v < pBLS ->
  key_wf (NewG1Affine v) /\ key_point (NewG1Affine v) = CurveSpec.Aff (ofZ pBLS (hX v)) (ofZ pBLS (hY v)).
Proof.
  intros HX HY. destruct (limbsOf_ok _ HX) as [X1 X2]. destruct (limbsOf_ok _ HY) as [Y1 Y2].
  destruct (digits_wf _ X1) as [W1 E1]. destruct (digits_wf _ Y1) as [W2 E2].
  split; [split; [exact W1 | exact W2]|]. unfold key_point, key_x, key_y, NewG1Affine. cbn [kX kY].
  fold (frs (limbsOf (hX v))). fold (frs (limbsOf (hY v))). now rewrite E1, E2, X2, Y2.
Qed.
Lemma ofZ_inj a b : 0 <= a < rBN -> 0 <= b < rBN -> ofZ rBN a = ofZ rBN b -> a = b.
Proof. intros Ha Hb E. apply (f_equal fval) in E. rewrite !fval_ofZ_small in E; assumption. Qed.
Lemma limbs_inj z z' : 0 <= z < pBLS -> 0 <= z' < pBLS -> map (ofZ rBN) (limbsOf z) = map (ofZ rBN) (limbsOf z') -> z = z'.
Proof.
  intros H H' E. destruct (limbsOf_ok _ H) as [X1 <-]. destruct (limbsOf_ok _ H') as [Y1 <-]. f_equal.
  pose proof (limbsOf_range z) as R. pose proof (limbsOf_range z') as R'. pose proof r_64 as B.
  revert E R R'. clear -B. generalize (limbsOf z), (limbsOf z'). intros a. induction a as [|x a IH]; intros [|y b] E R R'; cbn [map] in E; try discriminate; [reflexivity|].
  pose proof (f_equal (hd fr0) E) as E1. cbn [hd] in E1. pose proof (f_equal (@tl Fr) E) as E2. cbn [tl] in E2.
  apply Forall_cons_iff in R. destruct R as [R1 R2]. apply Forall_cons_iff in R'. destruct R' as [R1' R2'].
  f_equal; [apply ofZ_inj; lia || assumption | now apply IH].
Qed.

(** ** C47 *)
Definition host_ok (v : HostG1) : Prop := 0 <= hX v < pBLS /\ 0 <= hY v < pBLS.
Lemma limbs_Fr z : Forall (fun d => 0 <= d < rBN) (limbsOf z).
Proof. eapply Forall_impl; [|apply limbsOf_range]. cbv beta. pose proof r_64. intros a. lia. Qed.
Lemma genOne_ok hash pk w : iden3_hash hash -> 0 <= w < rBN ->
  exists c, genOne hash pk w = Some c /\ 0 <= c < rBN /\ key_commit (NewG1Affine pk, ofZ rBN w) (ofZ rBN c).
Proof.
  intros [Hh _] Hw. unfold genOne.
  destruct (Hh (limbsOf (hX pk)) ltac:(rewrite limbsOf_len; lia) (limbs_Fr _)) as (cx & -> & Rx & Px). cbn [obind].
  destruct (Hh (limbsOf (hY pk)) ltac:(rewrite limbsOf_len; lia) (limbs_Fr _)) as (cy & -> & Ry & Py). cbn [obind].
  destruct (Hh [cx; cy; w] ltac:(cbn [length]; lia) ltac:(repeat constructor; assumption || lia)) as (c & -> & Rc & Pc).
  exists c. split; [reflexivity|]. split; [exact Rc|]. exists (ofZ rBN cx), (ofZ rBN cy). cbn [fst snd NewG1Affine kX kY].
  split; [exact Px|]. split; [exact Py|]. exact Pc.
Qed.
Lemma omap_seq_pairs {A B C} (g : A -> B -> option C) (a : list A) (b : list B) da db n : length a = n -> length b = n ->
  omap (fun i => g (nth i a da) (nth i b db)) (seq 0 n) = omap (fun ab => g (fst ab) (snd ab)) (combine a b).
Proof.
  intros La Lb. rewrite <- (seq_pairs a b da db n La Lb). generalize (seq 0 n). induction l as [|i l IH]; [reflexivity|].
  cbn [omap map fst snd]. now rewrite IH.
Qed.
Theorem commitment_agrees hash pks ws : iden3_hash hash -> length pks = 10%nat -> length ws = 10%nat ->
  Forall (fun w => 0 <= w < rBN) ws ->
  exists c, genCommitment hash pks ws = Some c /\ 0 <= c < rBN /\
    determ (ComputeAPKCommitment (NewG1AffineArray pks) (bigIntToVariableArray ws)) (ofZ rBN c).
Proof.
  intros Hh Lk Lw F. unfold genCommitment. rewrite (omap_seq_pairs (genOne hash) pks ws _ _ 10 Lk Lw).
  assert (K : exists cs, omap (fun ab => genOne hash (fst ab) (snd ab)) (combine pks ws) = Some cs /\ Forall (fun z => 0 <= z < rBN) cs /\
    Forall2 key_commit (combine (NewG1AffineArray pks) (bigIntToVariableArray ws)) (map (ofZ rBN) cs)).
  { clear Lk Lw. revert ws F. induction pks as [|pk pks IH]; intros ws F; [exists []; repeat split; constructor|].
    destruct ws as [|w ws]; [exists []; repeat split; constructor|].
    apply Forall_cons_iff in F. destruct F as [F1 F2].
    destruct (genOne_ok hash pk w Hh F1) as (c & E & R & K). destruct (IH ws F2) as (cs & E' & R' & K').
    exists (c :: cs). cbn [combine omap fst snd]. rewrite E. cbn [obind]. rewrite E'. cbn [obind]. split; [reflexivity|].
    split; [now constructor|]. cbn [map NewG1AffineArray bigIntToVariableArray combine]. now constructor. }
  destruct K as (cs & E & R & K). rewrite E. cbn [obind].
  assert (L : length cs = 10%nat).
  { pose proof (F2len _ _ _ K) as L. unfold NewG1AffineArray, bigIntToVariableArray in L. rewrite map_length, combine_length, !map_length in L. lia. }
  destruct (proj1 Hh cs ltac:(lia) R) as (c & Ec & Rc & Pc). exists c. split; [exact Ec|]. split; [exact Rc|].
  apply commit_det; [unfold NewG1AffineArray; now rewrite map_length | unfold bigIntToVariableArray; now rewrite map_length|].
  exists (map (ofZ rBN) cs). now split.
Qed.
(** a weight that is not below r: the helper panics *)
Theorem commitment_panics hash pks ws : iden3_hash hash -> length pks = 10%nat -> length ws = 10%nat ->
  Exists (fun w => rBN <= w) ws -> genCommitment hash pks ws = None.
Proof.
  intros Hh Lk Lw X. unfold genCommitment. rewrite (omap_seq_pairs (genOne hash) pks ws _ _ 10 Lk Lw).
  replace (omap _ (combine pks ws)) with (@None (list Z)); [reflexivity|]. symmetry.
  assert (L : length pks = length ws) by lia. clear Lk Lw. revert ws L X.
  induction pks as [|pk pks IH]; intros [|w ws] L X; cbn [length] in L; try discriminate; [inversion X|].
  cbn [combine omap fst snd]. inversion X as [? ? Hw|? ? Hw]; subst.
  - unfold genOne. destruct (hash (limbsOf (hX pk))) as [cx|]; [cbn [obind]|reflexivity].
    destruct (hash (limbsOf (hY pk))) as [cy|]; [cbn [obind]|reflexivity].
    rewrite (proj2 Hh [cx; cy; w]); [reflexivity|]. right. do 2 apply Exists_cons_tl. now apply Exists_cons_hd.
  - rewrite (IH ws ltac:(lia) Hw). now destruct (genOne hash pk w).
Qed.
(** the contract can be met *)
Definition codeHash (l : list Z) : option Z :=
  if existsb (fun z => rBN <=? z) l then None else option_map fval (Poseidon (map (ofZ rBN) l)).
Lemma codeHash_ok : iden3_hash codeHash.
Proof.
  split.
  - intros l L F. unfold codeHash.
    replace (existsb (fun z => rBN <=? z) l) with false.
    2:{ symmetry. apply not_true_is_false. intros H. apply existsb_exists in H. destruct H as (z & Hz & H). apply Z.leb_le in H.
        pose proof (proj1 (Forall_forall _ _) F z Hz). cbv beta in *. lia. }
    destruct (Poseidon (map (ofZ rBN) l)) as [h|] eqn:E.
    + exists (fval h). split; [reflexivity|]. split; [apply fval_range; reflexivity|].
      replace (ofZ rBN (fval h)) with h; [exact (proj1 (poseidon_iff _ _) E)|]. apply fval_inj. rewrite fval_ofZ. symmetry. apply fval_mod.
    + exfalso. apply (proj2 (PoseidonHash.hash_arity (map (ofZ rBN) l))); [now rewrite map_length | exact E].
  - intros l [L|X]; unfold codeHash.
    + destruct (existsb _ l); [reflexivity|].
      destruct (Poseidon (map (ofZ rBN) l)) as [h|] eqn:E; [|reflexivity]. exfalso. apply L. rewrite <- (map_length (ofZ rBN) l).
      apply PoseidonHash.hash_arity. congruence.
    + replace (existsb (fun z => rBN <=? z) l) with true; [reflexivity|]. symmetry. apply existsb_exists.
      apply Exists_exists in X. destruct X as (z & Hz & H). exists z. split; [exact Hz | now apply Z.leb_le].
Qed.

(** ** C54 *)
Lemma bytesLE_spec n : forall z, 0 <= z < 256 ^ Z.of_nat n -> OS2IP (rev (bytesLE n z)) = z /\
  (z = 0 -> length (bytesLE n z) = 0%nat) /\ (0 < z -> 256 ^ (Z.of_nat (length (bytesLE n z)) - 1) <= z < 256 ^ Z.of_nat (length (bytesLE n z))).
Proof.
  induction n as [|n IH]; intros z H.
  - change (256 ^ Z.of_nat 0) with 1 in H. assert (z = 0) by lia. subst. cbn. split; [reflexivity|]. split; [reflexivity | lia].
  - cbn [bytesLE]. destruct (Z.eqb_spec z 0) as [->|N]; [cbn; split; [reflexivity|]; split; [reflexivity | lia]|].
    rewrite Nat2Z.inj_succ, Z.pow_succ_r in H by lia.
    assert (Hd : 0 <= z / 256 < 256 ^ Z.of_nat n) by (split; [apply Z.div_pos; lia | apply Z.div_lt_upper_bound; lia]).
    destruct (IH _ Hd) as (E1 & E2 & E3). pose proof (Z.div_mod z 256 ltac:(lia)) as D. pose proof (Z.mod_pos_bound z 256 ltac:(lia)) as M.
    split; [|split; [lia|]].
    + cbn [rev]. rewrite OS2IP_app, E1. cbn [length]. unfold OS2IP. cbn [fold_left]. change (256 ^ Z.of_nat 1) with 256. lia.
    + intros _. cbn [length]. set (k := length (bytesLE n (z / 256))) in *.
      replace (Z.of_nat (S k) - 1) with (Z.of_nat k) by lia. rewrite Nat2Z.inj_succ, Z.pow_succ_r by lia.
      destruct (Z.eq_dec (z / 256) 0) as [Z0|Z0].
      * rewrite (E2 Z0). change (256 ^ Z.of_nat 0) with 1. lia.
      * destruct (E3 ltac:(lia)) as [E4 E5]. split; [|lia].
        assert (K : (1 <= k)%nat). { destruct k; [|lia]. change (256 ^ Z.of_nat 0) with 1 in E5. lia. }
        replace (Z.of_nat k) with (Z.succ (Z.of_nat k - 1)) by lia. rewrite Z.pow_succ_r by lia. lia.
Qed.
Lemma bigBytes_spec c : 0 < c -> OS2IP (bigBytes c) = c /\ 256 ^ (Z.of_nat (length (bigBytes c)) - 1) <= c < 256 ^ Z.of_nat (length (bigBytes c)).
Proof.
  intros H. unfold bigBytes. rewrite Z.abs_eq by lia. rewrite rev_length.
  pose proof (Z.log2_nonneg c) as L. pose proof (Z.log2_spec c H) as [_ U].
  destruct (bytesLE_spec (Z.to_nat (Z.log2 c / 8 + 1)) c) as (E1 & _ & E3).
  - split; [lia|]. pose proof (Z.div_pos (Z.log2 c) 8 L ltac:(lia)). rewrite Z2Nat.id by lia.
    change 256 with (2 ^ 8). rewrite <- Z.pow_mul_r by lia. eapply Z.lt_le_trans; [exact U|]. apply Z.pow_le_mono_r; [lia|].
    pose proof (Z.mod_pos_bound (Z.log2 c) 8 ltac:(lia)). pose proof (Z.div_mod (Z.log2 c) 8 ltac:(lia)). lia.
  - split; [exact E1 | now apply E3].
Qed.
Lemma rBN_256 : rBN < 256 ^ 32. Proof. reflexivity. Qed.
Lemma pow256_lt a b : 0 <= a -> 256 ^ a < 256 ^ b -> a < b.
Proof. intros Ha H. destruct (Z.lt_ge_cases a b) as [L|L]; [exact L|]. exfalso. pose proof (Z.pow_le_mono_r 256 b a ltac:(lia) L). lia. Qed.
Theorem message_length c : 0 < c < rBN -> OS2IP (helperMessage c) = c /\ (length (helperMessage c) <= 32)%nat /\
  (length (helperMessage c) = 32%nat <-> 2 ^ 248 <= c).
Proof.
  intros H. unfold helperMessage. destruct (bigBytes_spec c ltac:(lia)) as (E & L & U). split; [exact E|].
  pose proof rBN_256 as R. change (2 ^ 248) with (256 ^ 31). set (n := length (bigBytes c)) in *.
  assert (N : (1 <= n)%nat). { destruct n; [|lia]. change (256 ^ Z.of_nat 0) with 1 in U. lia. }
  assert (B : Z.of_nat n - 1 < 32). { apply pow256_lt; [lia|]. revert L R H. generalize (256 ^ 32), (256 ^ (Z.of_nat n - 1)), rBN. lia. }
  split; [lia|]. split.
  - intros E32. rewrite E32 in L. exact L.
  - intros G. assert (31 < Z.of_nat n); [|lia]. apply pow256_lt; [lia|]. revert G U. generalize (256 ^ 31), (256 ^ Z.of_nat n). lia.
Qed.
(** ten validators with the key (generator of G1) and weight 5 *)
Definition gHost : HostG1 := mkHost (exX (hd (mkEx 0 0 [] []) exs)) (exY (hd (mkEx 0 0 [] []) exs)).
Lemma gHost_X : limbsOf (hX gHost) = gXl. Proof. vm_compute. reflexivity. Qed.
Lemma gHost_Y : limbsOf (hY gHost) = gYl. Proof. vm_compute. reflexivity. Qed.
Lemma gc5_range : 0 < gc5 < 2 ^ 248. Proof. split; reflexivity. Qed.
Lemma in_rBN z : (0 <=? z) && (z <? rBN) = true -> 0 <= z < rBN.
Proof. rewrite andb_true_iff, Z.leb_le, Z.ltb_lt. tauto. Qed.
Lemma det_val hash l v : iden3_hash hash -> (1 <= length l <= 16)%nat -> forallb (fun z => (0 <=? z) && (z <? rBN)) l = true ->
  (0 <=? v) && (v <? rBN) = true -> Poseidon (map (ofZ rBN) l) = Some (ofZ rBN v) -> hash l = Some v.
Proof.
  intros [Hh _] L F V P. assert (F' : Forall (fun z => 0 <= z < rBN) l).
  { apply Forall_forall. intros z Hz. apply in_rBN. exact (proj1 (forallb_forall _ _) F z Hz). }
  destruct (Hh l L F') as (h & E & R & I). rewrite E. f_equal. apply ofZ_inj; [exact R | now apply in_rBN|].
  apply poseidon_iff in I. congruence.
Qed.
Theorem commit_gc5 hash : iden3_hash hash -> genCommitment hash (repeat gHost 10) (repeat 5 10) = Some gc5.
Proof.
  intros Hh. unfold genCommitment.
  assert (G : genOne hash gHost 5 = Some gk5).
  { unfold genOne. rewrite gHost_X, gHost_Y.
    rewrite (det_val hash gXl gcx Hh ltac:(cbn; lia) eq_refl eq_refl hash_gX). cbn [obind].
    rewrite (det_val hash gYl gcy Hh ltac:(cbn; lia) eq_refl eq_refl hash_gY). cbn [obind].
    exact (det_val hash [gcx; gcy; 5] gk5 Hh ltac:(cbn; lia) eq_refl eq_refl hash_gk). }
  replace (omap _ (seq 0 10)) with (Some (repeat gk5 10)).
  - cbn [obind]. exact (det_val hash (repeat gk5 10) gc5 Hh ltac:(cbn; lia) eq_refl eq_refl hash_gc).
  - symmetry. cbn [seq omap nth repeat]. rewrite G. reflexivity.
Qed.

(** ** C55 *)
Lemma newG1_inj a b : host_ok a -> host_ok b -> NewG1Affine a = NewG1Affine b -> a = b.
Proof.
  intros [A1 A2] [B1 B2] E. destruct a as [ax ay], b as [bx by']. cbn [hX hY] in *.
  pose proof (f_equal kX E) as E1. pose proof (f_equal kY E) as E2. unfold NewG1Affine in E1, E2. cbn [kX kY hX hY] in E1, E2. clear E.
  f_equal; [exact (limbs_inj _ _ A1 B1 E1) | exact (limbs_inj _ _ A2 B2 E2)].
Qed.
Lemma newG1_nonzero a : host_ok a -> a <> mkHost 0 0 -> NewG1Affine a <> zero_key.
Proof.
  intros A N E. apply N. apply (newG1_inj a (mkHost 0 0)); [exact A | split; split; reflexivity || (cbn [hX hY]; lia) |].
  rewrite E. reflexivity.
Qed.
Lemma int64_id z : 0 <= z < 2 ^ 63 -> int64 z = z.
Proof. intros H. unfold int64. rewrite Z.mod_small; lia. Qed.
Lemma contains_iff l v : contains l v = true <-> In v l.
Proof.
  unfold contains. rewrite existsb_exists. split.
  - intros (x & Hx & E). apply Z.eqb_eq in E. now subst.
  - intros H. exists v. split; [exact H | apply Z.eqb_refl].
Qed.
Definition hstep (tt : list Z) (acc : Z) (x : HostG1 * Z * Z) : Z :=
  if contains tt (hX (fst (fst x))) && (int64 (snd (fst x)) =? 1) then int64 (acc + int64 (snd x)) else acc.
Lemma helper_fold old new ws bits n : length new = n -> length bits = n -> length ws = n ->
  helperTrusted old new ws bits = fold_left (hstep (map hX old)) (combine (combine new bits) ws) 0.
Proof.
  intros Ln Lb Lw. unfold helperTrusted. rewrite Ln.
  rewrite <- (seq_pairs (combine new bits) ws (mkHost 0 0, 0) 0 n) by (rewrite ?combine_length; lia).
  assert (G : forall l acc, fold_left (fun acc i =>
      let isOld := contains (map hX old) (hX (nth i new (mkHost 0 0))) in
      if isOld && (int64 (nth i bits 0) =? 1) then int64 (acc + int64 (nth i ws 0)) else acc) l acc =
    fold_left (hstep (map hX old)) (map (fun i => (nth i (combine new bits) (mkHost 0 0, 0), nth i ws 0)) l) acc).
  { induction l as [|i l IH]; intros acc; [reflexivity|].
    cbn [fold_left map]. rewrite IH. unfold hstep at 3. cbn [fst snd]. rewrite combine_nth by lia. cbn [fst snd]. reflexivity. }
  apply G.
Qed.
Definition kept_or_fresh (old new : list HostG1) (wo wn : list Z) (i : nat) : Prop :=
  (nth i new (mkHost 0 0) = nth i old (mkHost 0 0) /\ nth i wn 0 = nth i wo 0) \/ ~ In (hX (nth i new (mkHost 0 0))) (map hX old).
Definition kf (tt : list Z) (old new : list HostG1) (wo wn : list Z) (i : nat) : Prop :=
  (nth i new (mkHost 0 0) = nth i old (mkHost 0 0) /\ nth i wn 0 = nth i wo 0) \/ ~ In (hX (nth i new (mkHost 0 0))) tt.
Lemma small_r : 2 ^ 63 < rBN. Proof. reflexivity. Qed.
Lemma trusted_ind tt : forall n old new wo wn bits, length old = n -> length new = n -> length wo = n -> length wn = n -> length bits = n ->
  Forall host_ok old -> Forall host_ok new -> Forall (fun b => b = 0 \/ b = 1) bits -> Forall (fun w => 0 <= w < 2 ^ 58) wo ->
  incl (map hX old) tt -> (forall i, (i < n)%nat -> kf tt old new wo wn i) ->
  forall acc, 0 <= acc -> acc + Z.of_nat n * 2 ^ 58 < 2 ^ 63 ->
  exists z, weight_where signed_and_kept (positions (bigIntToVariableArray bits) (NewG1AffineArray new) (NewG1AffineArray old) (bigIntToVariableArray wo)) z /\
    0 <= z <= Z.of_nat n * 2 ^ 58 /\ fold_left (hstep tt) (combine (combine new bits) wn) acc = acc + z.
Proof.
  induction n as [|n IH]; intros old new wo wn bits L1 L2 L3 L4 L5 F1 F2 F3 F4 I K acc A B.
  - destruct bits; [|discriminate]. destruct new; [|discriminate]. exists 0. split; [constructor|]. split; [lia|]. cbn [combine fold_left]. lia.
  - destruct old as [|o old]; [discriminate|]. destruct new as [|m new]; [discriminate|]. destruct wo as [|w wo]; [discriminate|].
    destruct wn as [|v wn]; [discriminate|]. destruct bits as [|b bits]; [discriminate|]. cbn [length] in *.
    apply Forall_cons_iff in F1, F2, F3, F4. destruct F1 as [O1 F1], F2 as [N1 F2], F3 as [B1 F3], F4 as [W1 F4].
    assert (I' : incl (map hX old) tt) by (intros x Hx; apply I; now right).
    assert (K' : forall i, (i < n)%nat -> kf tt old new wo wn i) by (intros i Hi; exact (K (S i) ltac:(lia))).
    pose proof (K 0%nat ltac:(lia)) as K0. unfold kf in K0. cbn [nth] in K0.
    specialize (IH old new wo wn bits ltac:(lia) ltac:(lia) ltac:(lia) ltac:(lia) ltac:(lia) F1 F2 F3 F4 I' K').
    assert (Wr : fval (ofZ rBN w) = w) by (apply fval_ofZ_small; pose proof small_r; lia).
    assert (Eb : int64 b = b) by (apply int64_id; destruct B1; lia).
    cbn [combine fold_left]. unfold hstep at 2. cbn [fst snd]. rewrite Eb.
    destruct (contains tt (hX m) && (b =? 1)) eqn:C.
    + apply andb_true_iff in C. destruct C as [C1 C2]. apply contains_iff in C1. apply Z.eqb_eq in C2.
      destruct K0 as [[-> ->]|K0]; [|contradiction].
      rewrite (int64_id w) by lia. rewrite int64_id by lia.
      destruct (IH (acc + w) ltac:(lia) ltac:(lia)) as (z & Z1 & Z2 & Z3). exists (w + z).
      split; [|split; [lia | rewrite Z3; lia]].
      unfold positions, bigIntToVariableArray, NewG1AffineArray in *. cbn [map combine].
      rewrite <- Wr at 2. apply ww_in; [|exact Z1]. split; [|reflexivity]. cbn [fst snd]. rewrite C2. apply fval_ofZ_small. pose proof small_r. lia.
    + destruct (IH acc A ltac:(lia)) as (z & Z1 & Z2 & Z3). exists z. split; [|split; [lia | exact Z3]].
      unfold positions, bigIntToVariableArray, NewG1AffineArray in *. cbn [map combine]. apply ww_out; [|exact Z1].
      intros [S1 S2]. cbn [fst snd] in S1, S2. apply (newG1_inj m o N1 O1) in S2. subst m.
      assert (C1 : contains tt (hX o) = true) by (apply contains_iff, I; now left). rewrite C1 in C. cbn [andb] in C. apply Z.eqb_neq in C.
      apply C. rewrite fval_ofZ_small in S1; [exact S1|]. destruct B1; pose proof small_r; lia.
Qed.
Lemma helper_len {A B} (f : A -> B) l n : length l = n -> length (map f l) = n. Proof. now rewrite map_length. Qed.
Theorem trusted_agrees old new wo wn bits :
  length old = 10%nat -> length new = 10%nat -> length wo = 10%nat -> length wn = 10%nat -> length bits = 10%nat ->
  Forall host_ok old -> Forall host_ok new -> Forall (fun k => k <> mkHost 0 0) old ->
  Forall (fun b => b = 0 \/ b = 1) bits -> Forall (fun w => 0 <= w < 2 ^ 58) wo ->
  (forall i, (i < 10)%nat -> kept_or_fresh old new wo wn i) ->
  determ (CalculateTrustedWeight (NewG1AffineArray old) (NewG1AffineArray new) (bigIntToVariableArray bits) (bigIntToVariableArray wo))
    (ofZ rBN (helperTrusted old new wn bits)).
Proof.
  intros L1 L2 L3 L4 L5 F1 F2 F0 F3 F4 K.
  destruct (trusted_ind (map hX old) 10 old new wo wn bits L1 L2 L3 L4 L5 F1 F2 F3 F4 (fun x Hx => Hx) K 0 ltac:(lia) ltac:(lia)) as (z & Z1 & Z2 & Z3).
  rewrite (helper_fold old new wn bits 10 L2 L5 L4), Z3. change (0 + z) with z.
  assert (K6 : forall l, Forall key6 (NewG1AffineArray l)).
  { intros l. apply Forall_forall. intros k Hk. apply in_map_iff in Hk. destruct Hk as (v & <- & _). split; reflexivity. }
  pose proof (trusted_formula (NewG1AffineArray old) (NewG1AffineArray new) (bigIntToVariableArray bits) (bigIntToVariableArray wo)
    (helper_len _ _ _ L1) (helper_len _ _ _ L2) (helper_len _ _ _ L5) (helper_len _ _ _ L3) (K6 _) (K6 _)) as T.
  assert (NZ : Forall (fun k => k <> zero_key) (NewG1AffineArray old)).
  { apply Forall_forall. intros k Hk. apply in_map_iff in Hk. destruct Hk as (v & <- & Hv).
    apply newG1_nonzero; [exact (proj1 (Forall_forall _ _) F1 v Hv) | exact (proj1 (Forall_forall _ _) F0 v Hv)]. }
  assert (IB : is_bits (bigIntToVariableArray bits)).
  { apply Forall_forall. intros k Hk. apply in_map_iff in Hk. destruct Hk as (b & <- & Hb').
    pose proof small_r. destruct (proj1 (Forall_forall _ _) F3 b Hb') as [-> | ->]; [left | right]; apply fval_ofZ_small; lia. }
  assert (S : forall t, sat (CalculateTrustedWeight (NewG1AffineArray old) (NewG1AffineArray new) (bigIntToVariableArray bits) (bigIntToVariableArray wo)) t <-> t = ofZ rBN z).
  { intros t. rewrite (T t NZ). split.
    - intros [_ (z' & Hz' & E)]. apply fval_inj. rewrite E, fval_ofZ. f_equal.
      refine (weight_where_fun signed_and_kept signed_and_kept _ _ _ _ Hz' Z1). apply Forall_forall. tauto.
    - intros ->. split; [exact IB|]. exists z. split; [exact Z1 | apply fval_ofZ]. }
  split; [|intros b Hb'; exact (proj1 (S b) Hb')].
  exact (trusted_run _ _ _ _ (helper_len _ _ _ L1) (helper_len _ _ _ L2) (helper_len _ _ _ L5) (helper_len _ _ _ L3) _ (proj2 (S _) eq_refl)).
Qed.

Lemma ww_unique {A} (P : A -> Prop) l z z' : weight_where P l z -> weight_where P l z' -> z = z'.
Proof. apply weight_where_fun. apply Forall_forall. intros x _. reflexivity. Qed.
(** the same validators in another order: the helper and the circuit disagree *)
Definition hostE (e : exkey) : HostG1 := mkHost (exX e) (exY e).
Definition hA : HostG1 := hostE (nth 0 exs (mkEx 0 0 [] [])).
Definition hB : HostG1 := hostE (nth 1 exs (mkEx 0 0 [] [])).
Lemma host_okB v : (0 <=? hX v) && (hX v <? pBLS) && (0 <=? hY v) && (hY v <? pBLS) = true -> host_ok v.
Proof. rewrite !andb_true_iff, !Z.leb_le, !Z.ltb_lt. unfold host_ok. tauto. Qed.
Lemma hA_ok : host_ok hA. Proof. apply host_okB. vm_compute. reflexivity. Qed.
Lemma hB_ok : host_ok hB. Proof. apply host_okB. vm_compute. reflexivity. Qed.
Lemma hAB : hX hA <> hX hB. Proof. vm_compute. discriminate. Qed.
Definition oldR : list HostG1 := hA :: hB :: repeat hB 8.
Definition newR : list HostG1 := hB :: hA :: repeat hB 8.
Lemma helperR : helperTrusted oldR newR (repeat 2 10) (repeat 1 10) = 20. Proof. vm_compute. reflexivity. Qed.
Theorem trusted_reordered_refuted : exists old new wo wn bits,
  length old = 10%nat /\ length wo = 10%nat /\ length bits = 10%nat /\
  Forall host_ok old /\ Forall (fun b => b = 0 \/ b = 1) bits /\
  Permutation (combine old wo) (combine new wn) /\
  exists t, determ (CalculateTrustedWeight (NewG1AffineArray old) (NewG1AffineArray new) (bigIntToVariableArray bits) (bigIntToVariableArray wo)) t /\
    t <> ofZ rBN (helperTrusted old new wn bits).
Proof.
  exists oldR, newR, (repeat 2 10), (repeat 2 10), (repeat 1 10).
  split; [reflexivity|]. split; [reflexivity|]. split; [reflexivity|].
  split; [unfold oldR; repeat (apply Forall_cons; [apply hA_ok || apply hB_ok|]); repeat (apply Forall_cons; [exact hB_ok|]); constructor|].
  split; [repeat constructor; now right|].
  split; [unfold oldR, newR; cbn [combine repeat]; apply perm_swap|].
  rewrite helperR. exists (ofZ rBN 16). split.
  - assert (K6 : forall l, Forall key6 (NewG1AffineArray l)).
    { intros l. apply Forall_forall. intros k Hk. apply in_map_iff in Hk. destruct Hk as (v & <- & _). split; reflexivity. }
    pose proof (trusted_formula (NewG1AffineArray oldR) (NewG1AffineArray newR) (bigIntToVariableArray (repeat 1 10)) (bigIntToVariableArray (repeat 2 10))
      eq_refl eq_refl eq_refl eq_refl (K6 _) (K6 _)) as T.
    assert (NZ : Forall (fun k => k <> zero_key) (NewG1AffineArray oldR)).
    { apply Forall_forall. intros k Hk. apply in_map_iff in Hk. destruct Hk as (v & <- & Hv).
      assert (V : v = hA \/ v = hB). { unfold oldR in Hv. destruct Hv as [<-|[<-|Hv]]; [now left | now right|]. apply repeat_spec in Hv. now right. }
      destruct V as [-> | ->]; (apply newG1_nonzero; [apply hA_ok || apply hB_ok|]); intros E; apply (f_equal hX) in E; vm_compute in E; discriminate. }
    assert (F1 : fval (ofZ rBN 1) = 1) by (apply fval_ofZ_small; pose proof small_r; lia).
    assert (F2 : fval (ofZ rBN 2) = 2) by (apply fval_ofZ_small; pose proof small_r; lia).
    assert (IB : is_bits (bigIntToVariableArray (repeat 1 10))).
    { apply Forall_forall. intros k Hk. apply in_map_iff in Hk. destruct Hk as (b & <- & Hb). apply repeat_spec in Hb. subst b. now right. }
    assert (D : NewG1Affine hA <> NewG1Affine hB). { intros E. apply (newG1_inj _ _ hA_ok hB_ok) in E. apply hAB. now rewrite E. }
    assert (W : weight_where signed_and_kept (positions (bigIntToVariableArray (repeat 1 10)) (NewG1AffineArray newR) (NewG1AffineArray oldR) (bigIntToVariableArray (repeat 2 10))) 16).
    { unfold positions, newR, oldR, bigIntToVariableArray, NewG1AffineArray. cbn [repeat map combine].
      generalize (NewG1Affine hA), (NewG1Affine hB), D, (ofZ rBN 1), (ofZ rBN 2), F1, F2. clear. intros a b D o w Fo Fw.
      apply ww_out; [intros [_ E]; cbn [fst snd] in E; congruence|]. apply ww_out; [intros [_ E]; cbn [fst snd] in E; congruence|].
      assert (S : forall l z, weight_where signed_and_kept l z -> weight_where signed_and_kept ((o, b, b, w) :: l) (2 + z)).
      { intros l z H. rewrite <- Fw. apply ww_in; [|exact H]. split; [exact Fo | reflexivity]. }
      change 16 with (2 + (2 + (2 + (2 + (2 + (2 + (2 + (2 + 0)))))))). repeat apply S. constructor. }
    split.
    + refine (trusted_run (NewG1AffineArray oldR) (NewG1AffineArray newR) (bigIntToVariableArray (repeat 1 10)) (bigIntToVariableArray (repeat 2 10))
        eq_refl eq_refl eq_refl eq_refl (ofZ rBN 16) (proj2 (T _ NZ) _)). split; [exact IB|]. exists 16. split; [exact W|]. apply fval_ofZ.
    + intros t Ht. destruct (proj1 (T t NZ) Ht) as [_ (z & Hz & E)]. apply fval_inj. rewrite E, fval_ofZ. refine (f_equal (fun a => a mod rBN) _).
      exact (ww_unique _ _ _ _ Hz W).
  - intros E. apply ofZ_inj in E; [lia| |]; pose proof small_r; lia.
Qed.
Lemma ex0_y : key_y (keyE ex0) = fpZ (exY ex0). Proof. exact (proj2 (proj2 (exKeys_facts ex0 ex0_in))). Qed.
(** the message of the helper in a case where it is too short *)
Theorem message_short_refuted : exists pks ws c, length pks = 10%nat /\ length ws = 10%nat /\
  Forall host_ok pks /\ Forall (fun k => oncurve1 (key_point (NewG1Affine k))) pks /\ Forall (fun w => 0 <= w < 2 ^ 10) ws /\
  (forall hash, iden3_hash hash -> genCommitment hash pks ws = Some c) /\
  length (helperMessage c) = 31%nat.
Proof.
  exists (repeat gHost 10), (repeat 5 10), gc5. split; [reflexivity|]. split; [reflexivity|].
  assert (OK : host_ok gHost) by (apply host_okB; vm_compute; reflexivity).
  split; [apply Forall_forall; intros k Hk; apply repeat_spec in Hk; now subst|].
  split.
  { apply Forall_forall. intros k Hk. apply repeat_spec in Hk. subst k. destruct OK as [O1 O2]. rewrite (proj2 (newG1_ok _ O1 O2)).
    change (oncurve1 (CurveSpec.Aff (fpZ (exX ex0)) (fpZ (exY ex0)))). rewrite <- ex0_x, <- ex0_y.
    exact (proj1 (Forall_forall _ _) exKeys_curve _ (or_introl eq_refl)). }
  split; [apply Forall_forall; intros w Hw; apply repeat_spec in Hw; subst; lia|].
  split; [exact commit_gc5 | vm_compute; reflexivity].
Qed.
