(** Linear algebra on lists over Fr, and the equivalence of the optimised
    Poseidon schedule (sparse partial rounds) with the textbook one, under
    identities between the two parameter sets. *)
From Coq Require Import ZArith List Bool Lia Ring Field.
From Verif Require Import Params ZMod RingPow Emulated FieldFacts PoseidonSpec Poseidon.
Import ListNotations.
Open Scope Z_scope.
Local Notation fr0 := (f0 rBN).

Definition vscal (k : Fr) (v : list Fr) : list Fr := map (fmul k) v.
Definition vzero (n : nat) : list Fr := repeat fr0 n.
Lemma vadd_len u v : length u = length v -> length (vadd u v) = length u.
Proof. revert v; induction u as [|x u IH]; intros [|y v] H; cbn [vadd length] in *; try discriminate; [reflexivity|]. rewrite IH; lia. Qed.
Lemma vscal_len k v : length (vscal k v) = length v.
Proof. apply map_length. Qed.
Lemma mv_len M v : length (mv M v) = length M.
Proof. apply map_length. Qed.
Lemma inner_add_r a u v : length u = length v -> inner a (vadd u v) = fadd (inner a u) (inner a v).
Proof.
  revert u v; induction a as [|x a IH]; intros [|y u] [|z v] H; cbn [inner vadd length] in *; try discriminate; try ring.
  rewrite IH by lia. ring.
Qed.
Lemma inner_add_l a u v : length u = length v -> inner (vadd u v) a = fadd (inner u a) (inner v a).
Proof.
  revert u v; induction a as [|x a IH]; intros [|y u] [|z v] H; cbn [inner vadd length] in *; try discriminate; try ring.
  rewrite IH by lia. ring.
Qed.
Lemma inner_scal_r a k v : inner a (vscal k v) = fmul k (inner a v).
Proof. revert v; induction a as [|x a IH]; intros [|y v]; cbn [inner vscal map]; try ring. unfold vscal in IH. rewrite IH. ring. Qed.
Lemma inner_scal_l a k v : inner (vscal k v) a = fmul k (inner v a).
Proof. revert a; induction v as [|x v IH]; intros [|y a]; cbn [inner vscal map]; try ring. unfold vscal in IH. rewrite IH. ring. Qed.
Lemma inner_zero_l n a : inner (vzero n) a = fr0.
Proof. revert a; induction n as [|n IH]; intros [|y a]; cbn [inner vzero repeat]; try reflexivity. unfold vzero in IH. rewrite IH. ring. Qed.
Lemma mv_add M u v : length u = length v -> mv M (vadd u v) = vadd (mv M u) (mv M v).
Proof. intros H. induction M as [|r M IH]; cbn [mv map vadd]; [reflexivity|]. f_equal; [now apply inner_add_r | exact IH]. Qed.
Lemma mv_scal M k v : mv M (vscal k v) = vscal k (mv M v).
Proof. unfold mv, vscal. rewrite map_map. apply map_ext. intros r. apply inner_scal_r. Qed.
(** row vector times matrix with n columns *)
Fixpoint vm (r : list Fr) (A : list (list Fr)) (n : nat) : list Fr :=
  match r, A with x :: r', row :: A' => vadd (vscal x row) (vm r' A' n) | _, _ => vzero n end.
Lemma vm_len r A n : Forall (fun row => length row = n) A -> length (vm r A n) = n.
Proof.
  revert A; induction r as [|x r IH]; intros [|row A] F; cbn [vm]; try apply repeat_length.
  inversion F; subst. rewrite vadd_len; rewrite ?vscal_len, ?IH; auto.
Qed.
Lemma inner_vm r A n v : Forall (fun row => length row = n) A -> inner (vm r A n) v = inner r (mv A v).
Proof.
  revert A; induction r as [|x r IH]; intros [|row A] F; cbn [vm mv map inner]; try apply inner_zero_l.
  inversion F; subst. rewrite inner_add_l by (rewrite vscal_len, vm_len; auto). rewrite inner_scal_l, IH by assumption. reflexivity.
Qed.
Definition mm (A B : list (list Fr)) (n : nat) : list (list Fr) := map (fun r => vm r B n) A.
Lemma mm_mv A B n v : Forall (fun row => length row = n) B -> mv (mm A B n) v = mv A (mv B v).
Proof. intros F. unfold mm, mv at 1 2. rewrite map_map. apply map_ext. intros r. now apply inner_vm. Qed.
Lemma mm_rows A B n : Forall (fun row => length row = n) B -> Forall (fun row => length row = n) (mm A B n).
Proof. intros F. unfold mm. apply Forall_forall. intros x Hx. apply in_map_iff in Hx. destruct Hx as (r & <- & _). now apply vm_len. Qed.
Fixpoint iter {A} (k : nat) (f : A -> A) (x : A) : A := match k with O => x | S k => f (iter k f x) end.
Lemma iter_S_r {A} k (f : A -> A) x : iter (S k) f x = iter k f (f x).
Proof. induction k as [|k IH]; [reflexivity|]. cbn [iter] in *. now rewrite IH. Qed.
Lemma iter_add {A} j k (f : A -> A) x : iter (j + k) f x = iter j f (iter k f x).
Proof. induction j as [|j IH]; [reflexivity|]. cbn [Nat.add iter]. now rewrite IH. Qed.
Fixpoint mpow (A : list (list Fr)) (n : nat) (p : positive) : list (list Fr) :=
  match p with
  | xH => A
  | xO q => let B := mpow A n q in mm B B n
  | xI q => let B := mpow A n q in mm A (mm B B n) n
  end.
Lemma mpow_rows A n p : Forall (fun row => length row = n) A -> Forall (fun row => length row = n) (mpow A n p).
Proof. intros F. induction p; cbn [mpow]; auto using mm_rows. Qed.
Lemma mpow_mv A n p v : Forall (fun row => length row = n) A -> mv (mpow A n p) v = iter (Pos.to_nat p) (mv A) v.
Proof.
  intros F. revert v. induction p as [p IH|p IH|]; intros v; cbn [mpow].
  - pose proof (mpow_rows A n p F) as R. rewrite mm_mv by (now apply mm_rows). rewrite mm_mv by exact R. rewrite !IH, <- iter_add, Pos2Nat.inj_xI.
    replace (S (2 * Pos.to_nat p)) with (S (Pos.to_nat p + Pos.to_nat p)) by lia. reflexivity.
  - pose proof (mpow_rows A n p F) as R. rewrite mm_mv by exact R. rewrite !IH, <- iter_add, Pos2Nat.inj_xO. f_equal. lia.
  - reflexivity.
Qed.

Lemma vadd_assoc u v w : vadd (vadd u v) w = vadd u (vadd v w).
Proof. revert v w; induction u as [|x u IH]; intros [|y v] [|z w]; cbn [vadd]; try reflexivity. rewrite IH. f_equal. ring. Qed.
Lemma vadd_comm u v : vadd u v = vadd v u.
Proof. revert v; induction u as [|x u IH]; intros [|y v]; cbn [vadd]; try reflexivity. rewrite IH. f_equal. ring. Qed.
Lemma vadd_0 u n : length u = n -> vadd u (vzero n) = u.
Proof. intros <-. induction u as [|x u IH]; [reflexivity|]. cbn [length vzero repeat vadd]. unfold vzero in IH. rewrite IH. f_equal. ring. Qed.

(** ** powers of the lower-right block *)
Section Hat.
Variables (n : nat) (H : list (list Fr)).
Hypothesis Hl : length H = n.
Notation h k := (iter k (mv H)).
Lemma h_len k v : length v = n -> length (h k v) = n.
Proof. intros L. destruct k; cbn [iter]; [exact L|]. now rewrite mv_len. Qed.
Lemma h_add k u v : length u = n -> length v = n -> h k (vadd u v) = vadd (h k u) (h k v).
Proof. intros Lu Lv. induction k as [|k IH]; [reflexivity|]. cbn [iter]. rewrite IH, mv_add; [reflexivity|]. now rewrite !h_len. Qed.
Lemma h_scal k c v : h k (vscal c v) = vscal c (h k v).
Proof. induction k as [|k IH]; [reflexivity|]. cbn [iter]. now rewrite IH, mv_scal. Qed.
(** diag(1, H^k) *)
Definition Ld (k : nat) (v : list Fr) : list Fr := match v with [] => [] | x :: xs => x :: h k xs end.
Variables (m00 : Fr) (mrow mcol : list Fr).
Hypotheses (Lr : length mrow = n) (Lc : length mcol = n).
Definition fullM : list (list Fr) := (m00 :: mrow) :: map (fun p => fst p :: snd p) (combine mcol H).
Lemma mv_lower x xs : mv (map (fun p => fst p :: snd p) (combine mcol H)) (x :: xs) = vadd (vscal x mcol) (mv H xs).
Proof.
  clear Lr. revert mcol Lc. revert n Hl. induction H as [|r H' IH]; intros k Hk mc Hc; destruct mc as [|c mc]; cbn [combine map mv vadd vscal length] in *; try reflexivity; try lia.
  f_equal; [cbn [inner fst snd]; ring|]. apply (IH (length H') eq_refl mc). lia.
Qed.
Lemma mv_full x xs : mv fullM (x :: xs) = fadd (fmul m00 x) (inner mrow xs) :: vadd (vscal x mcol) (mv H xs).
Proof. unfold fullM. cbn [mv map]. f_equal. apply mv_lower. Qed.
Lemma mv_full_len v : length (mv fullM v) = S n.
Proof. rewrite mv_len. unfold fullM. cbn [length]. rewrite map_length, combine_length. lia. Qed.

(** one sparse layer *)
Variables (nP : nat) (rows cols : list (list Fr)).
Hypotheses (Rn : length rows = nP) (Cn : length cols = nP).
Hypothesis rows_ok : forall r, (r < nP)%nat -> forall v, length v = n ->
  inner (nth r rows []) (mv H v) = inner (nth (S r) (rows ++ [mrow]) []) v.
Hypothesis cols_ok : forall r, (r < nP)%nat -> nth r cols [] = h (nP - 1 - r) mcol.
Definition sparse (r : nat) (st : list Fr) : list Fr :=
  match st with [] => [] | x :: xs => fadd (fmul m00 x) (inner (nth r rows []) xs) :: vadd xs (vscal x (nth r cols [])) end.
Lemma rows_iter k : forall r, (r + k = nP)%nat -> forall v, length v = n -> inner (nth r (rows ++ [mrow]) []) (h k v) = inner mrow v.
Proof.
  induction k as [|k IH]; intros r E v Lv.
  - cbn [iter]. rewrite app_nth2, Rn by lia. replace (r - nP)%nat with O by lia. reflexivity.
  - cbn [iter]. rewrite app_nth1 by lia. rewrite rows_ok by (try lia; now apply h_len). apply IH; [lia | exact Lv].
Qed.
Lemma sparse_step r x xs : (r < nP)%nat -> length xs = n ->
  sparse r (Ld (nP - r) (x :: xs)) = Ld (nP - S r) (mv fullM (x :: xs)).
Proof.
  intros Hr Lx. rewrite mv_full. cbn [Ld sparse]. f_equal.
  - f_equal. rewrite <- (rows_iter (nP - r) r) by (lia || assumption). now rewrite app_nth1 by lia.
  - rewrite cols_ok by exact Hr. rewrite h_add by (rewrite ?vscal_len, ?mv_len; assumption). rewrite h_scal.
    replace (nP - 1 - r)%nat with (nP - S r)%nat by lia. rewrite vadd_comm. f_equal.
    replace (nP - r)%nat with (S (nP - S r)) by lia. apply iter_S_r.
Qed.
End Hat.

(** ** the two schedules *)
Lemma slice_len {B} (l : list B) i k : (i + k <= length l)%nat -> length (slice l i k) = k.
Proof. intros B'. unfold slice. rewrite firstn_length, skipn_length. lia. Qed.
Section Sched.
Variables (n nP : nat) (rc c : list Fr) (H P : list (list Fr)) (m00 : Fr) (mrow mcol : list Fr) (rows cols : list (list Fr)).
Variable dl : nat -> list Fr.
Notation t := (S n).
Notation M := (fullM H m00 mrow mcol).
Notation A r := (slice rc (r * t) t).
Notation L k := (Ld H k).
Hypotheses (Hl : length H = n) (Lr : length mrow = n) (Lc : length mcol = n) (Rn : length rows = nP) (Cn : length cols = nP).
Hypothesis rows_ok : forall r, (r < nP)%nat -> forall v, length v = n -> inner (nth r rows []) (mv H v) = inner (nth (S r) (rows ++ [mrow]) []) v.
Hypothesis cols_ok : forall r, (r < nP)%nat -> nth r cols [] = iter (nP - 1 - r) (mv H) mcol.
Hypothesis rc_len : length rc = ((8 + nP) * t)%nat.
Hypothesis c_len : length c = (8 * t + nP)%nat.
Hypothesis dl_len : forall r, (r <= nP)%nat -> length (dl r) = n.
Hypothesis id0 : slice c 0 t = A 0.
Hypothesis id1 : forall r, (r < 3)%nat -> mv M (slice c ((r + 1) * t) t) = A (r + 1).
Hypothesis idd0 : mv M (slice c (4 * t) t) = vadd (A 4) (fr0 :: dl 0).
Hypothesis idd : forall r, (r < nP)%nat -> mv M (nth (5 * t + r) c fr0 :: dl r) = vadd (A (5 + r)) (fr0 :: dl (S r)).
Hypothesis iddn : dl nP = vzero n.
Hypothesis id2 : forall r, (r < 3)%nat -> mv M (slice c (5 * t + nP + r * t) t) = A (5 + nP + r).
Hypothesis idP : forall v, length v = t -> mv P v = L nP (mv M v).

Lemma A_len r : (r < 8 + nP)%nat -> length (A r) = t.
Proof. intros Hr. apply slice_len. rewrite rc_len. nia. Qed.

(** the code's schedule, on vectors *)
Definition cfull (st : list Fr) (off : nat) : list Fr := mv M (vadd (map pow5 st) (slice c off t)).
Definition cpart (st : list Fr) (r : nat) : list Fr :=
  match st with [] => [] | x :: xs => sparse m00 rows cols r (fadd (pow5 x) (nth (5 * t + r) c fr0) :: xs) end.
Definition csched (st : list Fr) : list Fr :=
  let st := vadd st (slice c 0 t) in
  let st := fold_left (fun st r => cfull st ((r + 1) * t)) (seq 0 3) st in
  let st := mv P (vadd (map pow5 st) (slice c (4 * t) t)) in
  let st := fold_left cpart (seq 0 nP) st in
  let st := fold_left (fun st r => cfull st (5 * t + nP + r * t)) (seq 0 3) st in
  mv M (map pow5 st).

Notation tb := (fun k st => fold_left (p_round rc M t nP) (seq 0 k) st).
Lemma tb_S k st : tb (S k) st = p_round rc M t nP (tb k st) k.
Proof. cbv beta. rewrite seq_S, fold_left_app. reflexivity. Qed.
Lemma tb_len k st : length st = t -> length (tb k st) = t.
Proof. intros Ls. destruct k; [exact Ls|]. rewrite tb_S. unfold p_round. apply (mv_full_len n); assumption. Qed.
Lemma full_step s off r : length s = t -> (r < 8 + nP)%nat -> (off + t <= length c)%nat -> mv M (slice c off t) = A (S r) ->
  cfull (vadd s (A r)) off = vadd (mv M (map pow5 (vadd s (A r)))) (A (S r)).
Proof.
  intros Ls Hr Ho E. unfold cfull. rewrite mv_add, E; [reflexivity|].
  rewrite map_length, vadd_len by (rewrite A_len; assumption). rewrite slice_len by exact Ho. exact Ls.
Qed.
Lemma phase1 st k : length st = t -> (k <= 3)%nat ->
  fold_left (fun st r => cfull st ((r + 1) * t)) (seq 0 k) (vadd st (slice c 0 t)) = vadd (tb k st) (A k).
Proof.
  intros Ls. induction k as [|k IH]; intros Hk.
  - cbn [seq fold_left]. now rewrite id0.
  - rewrite (tb_S k st), (seq_S k 0), fold_left_app. cbn [fold_left Nat.add]. rewrite IH by lia. rewrite (full_step _ _ k).
    + unfold p_round. replace (k <? 4)%nat with true by (symmetry; apply Nat.ltb_lt; lia). cbn [orb sboxes]. reflexivity.
    + now apply tb_len.
    + lia.
    + rewrite c_len. nia.
    + replace (S k) with (k + 1)%nat by lia. apply id1. lia.
Qed.
Lemma phase2 st : length st = t ->
  mv P (vadd (map pow5 (vadd (tb 3%nat st) (A 3))) (slice c (4 * t) t)) = L nP (vadd (vadd (tb 4%nat st) (A 4)) (fr0 :: dl 0)).
Proof.
  intros Ls. assert (L3 : length (vadd (tb 3%nat st) (A 3)) = t) by (rewrite vadd_len; [now apply tb_len | rewrite A_len by lia; now apply tb_len]).
  assert (Lsl : length (slice c (4 * t) t) = t) by (apply slice_len; rewrite c_len; nia).
  rewrite idP by (rewrite vadd_len; rewrite map_length; [exact L3 | now rewrite Lsl]). f_equal.
  rewrite mv_add, idd0 by (rewrite map_length, Lsl; exact L3). rewrite (vadd_assoc _ (A 4)). f_equal.
Qed.
Lemma phase3 st k : length st = t -> (k <= nP)%nat ->
  fold_left cpart (seq 0 k) (L nP (vadd (vadd (tb 4%nat st) (A 4)) (fr0 :: dl 0))) =
  L (nP - k) (vadd (vadd (tb (4 + k)%nat st) (A (4 + k))) (fr0 :: dl k)).
Proof.
  intros Ls. induction k as [|k IH]; intros Hk.
  - cbn [seq fold_left]. rewrite Nat.sub_0_r, Nat.add_0_r. reflexivity.
  - rewrite (seq_S k 0), fold_left_app. cbn [fold_left]. rewrite IH by lia. change (0 + k)%nat with k. clear IH.
    replace (4 + S k)%nat with (S (4 + k)) by lia. rewrite (tb_S (4 + k)).
    assert (Ly : length (vadd (tb (4 + k)%nat st) (A (4 + k))) = t) by (rewrite vadd_len; [now apply tb_len | rewrite A_len by lia; now apply tb_len]).
    unfold p_round at 2.
    replace (4 + k <? 4)%nat with false by (symmetry; apply Nat.ltb_ge; lia).
    replace (4 + nP <=? 4 + k)%nat with false by (symmetry; apply Nat.leb_gt; lia). cbn [orb sboxes].
    cbv beta in Ly |- *. destruct (vadd (fold_left (p_round rc M t nP) (seq 0 (4 + k)) st) (A (4 + k))) as [|y ys]; [discriminate Ly|]. injection Ly as Ly.
    cbn [vadd Ld cpart]. replace (fadd y fr0) with y by ring.
    pose proof (sparse_step n H Hl m00 mrow mcol Lr Lc nP rows cols Rn Cn rows_ok cols_ok k
                  (fadd (pow5 y) (nth (5 * t + k) c fr0)) (vadd ys (dl k))) as SP.
    cbn [Ld] in SP. rewrite SP by (try lia; rewrite vadd_len; rewrite ?dl_len; lia). f_equal.
    change (fadd (pow5 y) (nth (5 * t + k) c fr0) :: vadd ys (dl k)) with (vadd (pow5 y :: ys) (nth (5 * t + k) c fr0 :: dl k)).
    rewrite mv_add by (cbn [length]; rewrite dl_len; lia). rewrite idd by lia. now rewrite vadd_assoc.
Qed.
Lemma phase4 st k : length st = t -> (k <= 3)%nat ->
  fold_left (fun st r => cfull st (5 * t + nP + r * t)) (seq 0 k) (vadd (tb (4 + nP)%nat st) (A (4 + nP))) =
  vadd (tb (4 + nP + k)%nat st) (A (4 + nP + k)).
Proof.
  intros Ls. induction k as [|k IH]; intros Hk.
  - cbn [seq fold_left]. now rewrite Nat.add_0_r.
  - rewrite (seq_S k 0), fold_left_app. cbn [fold_left]. change (0 + k)%nat with k. rewrite IH by lia. rewrite (full_step _ _ (4 + nP + k)).
    + replace (4 + nP + S k)%nat with (S (4 + nP + k)) by lia. rewrite (tb_S (4 + nP + k)). unfold p_round at 2.
      replace (4 + nP <=? 4 + nP + k)%nat with true by (symmetry; apply Nat.leb_le; lia). rewrite orb_true_r. reflexivity.
    + now apply tb_len.
    + lia.
    + rewrite c_len. nia.
    + replace (S (4 + nP + k)) with (5 + nP + k)%nat by lia. apply id2. lia.
Qed.
Theorem sched_eq st : length st = t -> csched st = permutation rc M t nP st.
Proof.
  intros Ls. unfold csched. cbv zeta. rewrite (phase1 st 3 Ls) by lia. rewrite (phase2 st Ls).
  rewrite (phase3 st nP Ls) by lia. rewrite Nat.sub_diag, iddn.
  assert (Ly : length (vadd (tb (4 + nP)%nat st) (A (4 + nP))) = t) by (rewrite vadd_len; [now apply tb_len | rewrite A_len by lia; now apply tb_len]).
  replace (Ld H 0 (vadd (vadd (tb (4 + nP)%nat st) (A (4 + nP))) (fr0 :: vzero n))) with (vadd (tb (4 + nP)%nat st) (A (4 + nP))).
  2:{ change (fr0 :: vzero n) with (vzero t). rewrite vadd_0 by exact Ly. destruct (vadd (fold_left _ _ _) _); reflexivity. }
  rewrite (phase4 st 3 Ls) by lia. unfold permutation.
  replace (8 + nP)%nat with (S (4 + nP + 3)) by lia. rewrite (tb_S (4 + nP + 3)). unfold p_round at 2.
  replace (4 + nP <=? 4 + nP + 3)%nat with true by (symmetry; apply Nat.leb_le; lia). rewrite orb_true_r. reflexivity.
Qed.
End Sched.
