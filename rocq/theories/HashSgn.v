(** g2Sgn0 and E2Exp (C26, C27). *)
From Coq Require Import ZArith NArith List Bool Lia.
From Verif Require Import Params ZMod RingPow Circuit Api Emulated ApiFacts FieldFacts Tower TowerFacts TowerProofs Pairing G2 HashG2 G2Spec G2Pred.
Import ListNotations.
Open Scope Z_scope.
Add Field E2FS : E2_ft.

(** ** g2Sgn0 *)
(** the loop overwrites its accumulator: only the last bit survives *)
Lemma fold_last s l : forall a, determ (mfold (fun _ b => api_Or (bF s) b) (map bF l) (bF a)) (bF (match l with [] => a | _ => s || last l false end)).
Proof.
  induction l as [|b l IH]; intros a; cbn [mfold map]; [apply determ_ret|].
  eapply determ_bind; [apply determ_Or|]. specialize (IH (s || b)). destruct l as [|c l]; exact IH.
Qed.
Lemma toBits_map z : fp_ToBits z = map bF (map (fun i => Z.testbit z (Z.of_nat i)) (seq 0 384)).
Proof. unfold fp_ToBits, bitsF. rewrite map_map. reflexivity. Qed.
Lemma last_map {A} (f : nat -> A) n d : last (map f (seq 0 (S n))) d = f n.
Proof. rewrite seq_S, map_app. cbn [map]. rewrite last_last. reflexivity. Qed.
Lemma zero_loop z : 0 <= z < 2 ^ 383 -> determ (mfold (fun _ b => api_Or (bF (Z.odd z)) b) (fp_ToBits z) (f0 rBN)) (bF (Z.odd z)).
Proof.
  intros Hz. rewrite toBits_map. pose proof (fold_last (Z.odd z) (map (fun i => Z.testbit z (Z.of_nat i)) (seq 0 384)) false) as H.
  assert (E : last (map (fun i => Z.testbit z (Z.of_nat i)) (seq 0 384)) false = false).
  { rewrite last_map. change (Z.of_nat 383) with 383. apply Z.bits_above_log2; [lia|]. destruct (Z.eq_dec z 0) as [->|N]; [reflexivity|]. apply Z.log2_lt_pow2; lia. }
  rewrite E, orb_false_r in H. exact H.
Qed.
Lemma first_bit z : nth 0 (fp_ToBits z) (f0 rBN) = bF (Z.odd z).
Proof. rewrite toBits_map. rewrite <- Z.bit0_odd. reflexivity. Qed.
Lemma sgn_step (a0 a1 : Z) : 0 <= a0 < 2 ^ 383 ->
  determ (let A0Bits := fp_ToBits a0 in
  let sign := f0 rBN in
  let zero := f1 rBN in
  let signI := nth 0 A0Bits (f0 rBN) in
  zeroI <- mfold (fun _ b => api_Or signI b) A0Bits (f0 rBN) ;;
  zs <- api_And zero signI ;;
  sign <- api_Or sign zs ;;
  zero <- api_And zero zeroI ;;
  let signI := nth 0 (fp_ToBits a1) (f0 rBN) in
  zs <- api_And zero signI ;;
  api_Or sign zs) (bF (Z.odd a0)).
Proof.
  intros H. cbv zeta. rewrite !first_bit. eapply determ_bind; [exact (zero_loop a0 H)|].
  change (f1 rBN) with (bF true). change (f0 rBN) with (bF false).
  eapply determ_bind; [apply determ_And|]. eapply determ_bind; [apply determ_Or|]. eapply determ_bind; [apply determ_And|]. eapply determ_bind; [apply determ_And|].
  pose proof (determ_Or (false || (true && Z.odd a0)) ((true && Z.odd a0) && Z.odd a1)) as D.
  replace ((false || (true && Z.odd a0)) || ((true && Z.odd a0) && Z.odd a1)) with (Z.odd a0) in D by (destruct (Z.odd a0), (Z.odd a1); reflexivity). exact D.
Qed.
Lemma Reduce_383 x z : sat (fp_Reduce x) z -> 0 <= z < 2 ^ 383.
Proof.
  intros H. apply sat_Reduce in H. assert (R : 0 <= fval x < pBLS) by (apply fval_range; reflexivity).
  assert (P : 2 * pBLS < 2 ^ 383) by reflexivity. assert (0 < pBLS) by reflexivity. generalize dependent (2 ^ 383). lia.
Qed.
(** what is accepted: the parity of the representative chosen for A0 *)
Theorem sat_sgn0 u v : sat (g2Sgn0 u) v <-> v = bF (Z.odd (fval (A0 u))) \/ (fval (A0 u) < gap /\ v = bF (negb (Z.odd (fval (A0 u))))).
Proof.
  assert (O : forall z, Z.odd (z + pBLS) = negb (Z.odd z)) by (intros z; rewrite Z.odd_add; change (Z.odd pBLS) with true; now destruct (Z.odd z)).
  unfold g2Sgn0. split.
  - intros H. apply sat_bind in H. destruct H as (a0 & H0 & H). apply sat_bind in H. destruct H as (a1 & H1 & H).
    apply (proj2 (sgn_step a0 a1 (Reduce_383 _ _ H0))) in H. apply sat_Reduce in H0. destruct H0 as [->|[-> L]]; [now left|]. right. rewrite O in H. now split.
  - intros H. assert (exists a0, sat (fp_Reduce (A0 u)) a0 /\ v = bF (Z.odd a0)) as (a0 & H0 & ->).
    { destruct H as [->|[L ->]]; [exists (fval (A0 u)); split; [apply sat_Reduce; now left | reflexivity]|]. exists (fval (A0 u) + pBLS). split; [apply sat_Reduce; now right | now rewrite O]. }
    apply sat_bind. exists a0. split; [exact H0|]. apply sat_bind. exists (fval (A1 u)). split; [apply sat_Reduce; now left|]. exact (run_sat _ _ (proj1 (sgn_step a0 _ (Reduce_383 _ _ H0)))).
Qed.
Theorem run_sgn0 u : run (g2Sgn0 u) = Some (bF (Z.odd (fval (A0 u)))).
Proof.
  unfold g2Sgn0. rewrite run_bind, run_Reduce, run_bind, run_Reduce. exact (proj1 (sgn_step _ _ (Reduce_383 _ _ (run_sat _ _ (run_Reduce (A0 u)))))).
Qed.
Theorem sgn0_agrees u : fval (A0 u) <> 0 \/ Z.odd (fval (A1 u)) = false -> run (g2Sgn0 u) = Some (bF (sgn0 u)).
Proof.
  intros H. rewrite run_sgn0. do 2 apply f_equal. unfold sgn0. destruct H as [H|H]; [apply Z.eqb_neq in H; now rewrite H, orb_false_r | now rewrite H, andb_false_r, orb_false_r].
Qed.
Lemma sgn0_wrong : run (g2Sgn0 (mkE2 fp0 fp1)) = Some (bF false) /\ sgn0 (mkE2 fp0 fp1) = true.
Proof. split; [rewrite run_sgn0; reflexivity | reflexivity]. Qed.
Lemma sgn0_flip : sat (g2Sgn0 E2_One) (bF true) /\ sat (g2Sgn0 E2_One) (bF false).
Proof. split; apply sat_sgn0; [left; reflexivity | right; split; reflexivity]. Qed.

(** ** E2Exp *)
Local Opaque E2_Mul.
Lemma expBit_pow x w n j : expBit x w (e2pow x n) j = e2pow x (2 * n + N.b2n (Z.testbit w (7 - Z.of_nat j))).
Proof.
  unfold expBit. cbv zeta. rewrite E2_Square_eq, <- npow_addE2. replace (n + n)%N with (2 * n)%N by lia.
  destruct (Z.testbit w (7 - Z.of_nat j)); cbn [N.b2n]; [|now rewrite N.add_0_r]. rewrite (npow_addE2 _ (2 * n) 1), npow_1. reflexivity.
Qed.
Lemma fold_pow x w l : forall n, fold_left (expBit x w) l (e2pow x n) = e2pow x (fold_left (fun n j => (2 * n + N.b2n (Z.testbit w (7 - Z.of_nat j)))%N) l n).
Proof. induction l as [|j l IH]; intros n; [reflexivity|]. cbn [fold_left]. rewrite expBit_pow. apply IH. Qed.
Lemma byte_bits n w : 0 <= w < 256 -> fold_left (fun n j => (2 * n + N.b2n (Z.testbit w (7 - Z.of_nat j)))%N) (seq 0 8) n = (256 * n + Z.to_N w)%N.
Proof.
  intros H. assert (E : w = Z.b2z (Z.testbit w 0) + 2 * Z.b2z (Z.testbit w 1) + 4 * Z.b2z (Z.testbit w 2) + 8 * Z.b2z (Z.testbit w 3) + 16 * Z.b2z (Z.testbit w 4) + 32 * Z.b2z (Z.testbit w 5) + 64 * Z.b2z (Z.testbit w 6) + 128 * Z.b2z (Z.testbit w 7)).
  { rewrite !Z.testbit_spec' by lia.
    change (2 ^ 0) with 1. change (2 ^ 1) with 2. change (2 ^ 2) with 4. change (2 ^ 3) with 8. change (2 ^ 4) with 16. change (2 ^ 5) with 32. change (2 ^ 6) with 64. change (2 ^ 7) with 128.
    Z.div_mod_to_equations. lia. }
  cbn [seq fold_left].
  change (7 - Z.of_nat 0) with 7. change (7 - Z.of_nat 1) with 6. change (7 - Z.of_nat 2) with 5. change (7 - Z.of_nat 3) with 4.
  change (7 - Z.of_nat 4) with 3. change (7 - Z.of_nat 5) with 2. change (7 - Z.of_nat 6) with 1. change (7 - Z.of_nat 7) with 0.
  assert (B : forall b, N.b2n b = Z.to_N (Z.b2z b)) by (intros []; reflexivity). assert (R : forall b, 0 <= Z.b2z b <= 1) by (intros []; cbn; lia). rewrite !B.
  pose proof (R (Z.testbit w 0)). pose proof (R (Z.testbit w 1)). pose proof (R (Z.testbit w 2)). pose proof (R (Z.testbit w 3)).
  pose proof (R (Z.testbit w 4)). pose proof (R (Z.testbit w 5)). pose proof (R (Z.testbit w 6)). pose proof (R (Z.testbit w 7)).
  generalize dependent (Z.b2z (Z.testbit w 0)). generalize dependent (Z.b2z (Z.testbit w 1)). generalize dependent (Z.b2z (Z.testbit w 2)). generalize dependent (Z.b2z (Z.testbit w 3)).
  generalize dependent (Z.b2z (Z.testbit w 4)). generalize dependent (Z.b2z (Z.testbit w 5)). generalize dependent (Z.b2z (Z.testbit w 6)). generalize dependent (Z.b2z (Z.testbit w 7)).
  intros. lia.
Qed.
Definition bytesVal (l : list Z) (n : N) : N := fold_left (fun n w => (256 * n + Z.to_N w)%N) l n.
Lemma expLoop_pow x l : Forall (fun w => 0 <= w < 256) l -> forall n, expLoop x l (e2pow x n) = e2pow x (bytesVal l n).
Proof.
  induction 1 as [|w l Hw Hl IH]; intros n; [reflexivity|]. unfold expLoop in *. cbn [fold_left bytesVal]. rewrite fold_pow, byte_bits by exact Hw. apply IH.
Qed.
Lemma bytesLE_range f : forall z, Forall (fun w => 0 <= w < 256) (bytesLE f z).
Proof. induction f as [|f IH]; intros z; cbn [bytesLE]; [constructor|]. destruct (z =? 0); constructor; [apply Z.mod_pos_bound; lia | apply IH]. Qed.
Lemma bytesLE_val f : forall z, 0 <= z < 256 ^ Z.of_nat f -> bytesVal (rev (bytesLE f z)) 0 = Z.to_N z.
Proof.
  induction f as [|f IH]; intros z Hz; cbn [bytesLE].
  - change (256 ^ Z.of_nat 0) with 1 in Hz. now replace z with 0 by lia.
  - destruct (Z.eqb_spec z 0) as [->|N]; [reflexivity|]. cbn [rev]. unfold bytesVal in *. rewrite fold_left_app, IH.
    + cbn [fold_left]. pose proof (Z.div_mod z 256 ltac:(lia)). pose proof (Z.mod_pos_bound z 256 ltac:(lia)). assert (0 <= z / 256) by (apply Z.div_pos; lia). lia.
    + split; [apply Z.div_pos; lia|]. apply Z.div_lt_upper_bound; [lia|]. rewrite Nat2Z.inj_succ, Z.pow_succ_r in Hz by lia. lia.
Qed.
Lemma bigBytes_val k : bytesVal (bigBytes k) 0 = Z.to_N (Z.abs k).
Proof.
  unfold bigBytes. apply bytesLE_val. split; [apply Z.abs_nonneg|]. destruct (Z.eq_dec (Z.abs k) 0) as [->|N]; [apply Z.pow_pos_nonneg; lia|].
  pose proof (Z.log2_spec (Z.abs k) ltac:(lia)) as [_ L]. pose proof (Z.log2_nonneg (Z.abs k)).
  rewrite Z2Nat.id by (apply Z.add_nonneg_nonneg; [apply Z.div_pos; lia | lia]).
  apply Z.lt_le_trans with (1 := L). change 256 with (2 ^ 8). rewrite <- Z.pow_mul_r by (try apply Z.add_nonneg_nonneg; try apply Z.div_pos; lia).
  apply Z.pow_le_mono_r; [lia|]. pose proof (Z.div_mod (Z.log2 (Z.abs k)) 8 ltac:(lia)). pose proof (Z.mod_pos_bound (Z.log2 (Z.abs k)) 8 ltac:(lia)). lia.
Qed.
Lemma expLoop_all x k : expLoop x (bigBytes k) E2_One = e2pow x (Z.to_N (Z.abs k)).
Proof.
  change E2_One with (e2pow x 0). rewrite expLoop_pow, bigBytes_val; [reflexivity|]. unfold bigBytes. apply Forall_rev, bytesLE_range.
Qed.
Theorem exp_nonneg x k : 0 <= k -> determ (E2Exp x k) (e2pow x (Z.to_N k)).
Proof.
  intros H. unfold E2Exp. destruct (Z.eqb_spec k 0) as [->|N]; [apply determ_ret|]. replace (k <? 0) with false by (symmetry; apply Z.ltb_ge; lia).
  eapply determ_bind; [apply determ_ret|]. rewrite expLoop_all, Z.abs_eq by lia. apply determ_ret.
Qed.
Theorem exp_neg x k : k < 0 -> x <> E2_Zero -> exists y, E2_Mul y x = E2_One /\ determ (E2Exp x k) (e2pow y (Z.to_N (- k))).
Proof.
  intros H N. exists (E2_inv x). split; [now apply E2_inv_l|]. unfold E2Exp. replace (k =? 0) with false by (symmetry; apply Z.eqb_neq; lia). replace (k <? 0) with true by (symmetry; apply Z.ltb_lt; lia).
  eapply determ_bind; [now apply determ_E2_Inverse|]. rewrite expLoop_all, Z.abs_neq by lia. apply determ_ret.
Qed.
Theorem exp_neg_zero k : k < 0 -> unsat (E2Exp E2_Zero k).
Proof.
  intros H r S. unfold E2Exp in S. replace (k =? 0) with false in S by (symmetry; apply Z.eqb_neq; lia). replace (k <? 0) with true in S by (symmetry; apply Z.ltb_lt; lia).
  apply sat_bind in S. destruct S as (i & Hi & _). exact (unsat_E2_Inverse0 _ Hi).
Qed.
