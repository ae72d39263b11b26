(** The SHA-256 model refines FIPS 180-4 (C01-C03). *)
From Coq Require Import ZArith List Bool Lia.
From Verif Require Import Params ZMod Circuit Api ApiFacts Sha256 Sha256Spec Sha256Words.
Import ListNotations.
Open Scope Z_scope.

Definition w32 (z : Z) : Prop := 0 <= z < 2 ^ 32.
Notation W := (bitsF 32).
Notation B := (bitsF 8).

(** *** range of the word operations *)
Lemma bits_range n z : 0 <= n -> (forall i, n <= i -> Z.testbit z i = false) -> 0 <= z -> z < 2 ^ n.
Proof.
  intros Hn H Hz. destruct (Z.eq_dec z 0) as [->|Nz]; [apply Z.pow_pos_nonneg; lia|].
  apply Z.log2_lt_pow2; [lia|]. destruct (Z_lt_ge_dec (Z.log2 z) n) as [L|G]; [exact L|].
  specialize (H (Z.log2 z) ltac:(lia)). rewrite Z.bit_log2 in H by lia. discriminate.
Qed.
Lemma lxor_w a b : w32 a -> w32 b -> w32 (Z.lxor a b).
Proof.
  unfold w32. intros Ha Hb. assert (0 <= Z.lxor a b) by (apply Z.lxor_nonneg; lia). split; [assumption|].
  apply bits_range; try lia. intros i Hi. rewrite Z.lxor_spec, (high_bit 32 a), (high_bit 32 b) by lia. reflexivity.
Qed.
Lemma land_w a b : w32 a -> w32 (Z.land a b).
Proof.
  unfold w32. intros Ha. assert (0 <= Z.land a b) by (apply Z.land_nonneg; lia). split; [assumption|].
  apply bits_range; try lia. intros i Hi. rewrite Z.land_spec, (high_bit 32 a) by lia. reflexivity.
Qed.
Lemma lor_w a b : w32 a -> w32 b -> w32 (Z.lor a b).
Proof.
  unfold w32. intros Ha Hb. assert (0 <= Z.lor a b) by (apply Z.lor_nonneg; lia). split; [assumption|].
  apply bits_range; try lia. intros i Hi. rewrite Z.lor_spec, (high_bit 32 a), (high_bit 32 b) by lia. reflexivity.
Qed.
Lemma shiftr_w n a : 0 <= n -> w32 a -> w32 (Z.shiftr a n).
Proof.
  unfold w32. intros Hn Ha. rewrite Z.shiftr_div_pow2 by lia. assert (0 < 2 ^ n) by (apply Z.pow_pos_nonneg; lia).
  split; [apply Z.div_pos; lia|]. apply Z.le_lt_trans with a; [|lia]. apply Z.div_le_upper_bound; nia.
Qed.
Lemma wmod_w a : w32 (a mod M32). Proof. apply Z.mod_pos_bound. reflexivity. Qed.
Lemma rotr_w n a : 0 <= n -> w32 a -> w32 (ROTR n a).
Proof. intros Hn Ha. unfold ROTR. apply lor_w; [now apply shiftr_w | apply wmod_w]. Qed.
Lemma wadd_w a b : w32 (wadd a b). Proof. apply wmod_w. Qed.
Lemma wnot_w a : w32 a -> w32 (Wnot a). Proof. unfold w32, Wnot, M32. lia. Qed.
#[local] Hint Resolve lxor_w land_w lor_w shiftr_w rotr_w wadd_w wnot_w : w32.

(** *** gadget steps in the form they are used *)
Lemma xor3 a b c : determ (u_xor 32 [W a; W b; W c]) (W (Z.lxor (Z.lxor a b) c)).
Proof. exact (u_xor_det 32 [a; b; c]). Qed.
Lemma xor2 a b : determ (u_xor 32 [W a; W b]) (W (Z.lxor a b)).
Proof. exact (u_xor_det 32 [a; b]). Qed.
Lemma and2 a b : determ (u_and 32 [W a; W b]) (W (Z.land a b)).
Proof. pose proof (u_and_det 32 [a; b]) as H. cbn [map fold_left] in H. now rewrite Z.land_m1_l in H. Qed.
Lemma not1 a : determ (u_not 32 (W a)) (W (Wnot a)).
Proof. exact (u_not_det 32 a). Qed.
Lemma rot r a : 0 < r < 32 -> w32 a -> u_lrot 32 (W a) (- r) = W (ROTR r a).
Proof. intros Hr Ha. exact (u_lrot_eq 32 a r Hr Ha). Qed.
Lemma shr s a : (s <= 32)%nat -> w32 a -> u_rshift 32 (W a) s = W (SHR (Z.of_nat s) a).
Proof. intros Hs Ha. exact (u_rshift_eq 32 a s Hs Ha). Qed.
Lemma wadd_l x y : wadd (x mod M32) y = (x + y) mod M32.
Proof. apply Zplus_mod_idemp_l. Qed.
Lemma add2 a b : w32 a -> w32 b -> determ (u_add (W a) (W b) []) (W (wadd a b)).
Proof. intros Ha Hb. exact (u_add_det a b [] Ha Hb ltac:(constructor) ltac:(cbn; lia)). Qed.
Lemma add4 a b c d : w32 a -> w32 b -> w32 c -> w32 d ->
  determ (u_add (W a) (W b) [W c; W d]) (W (wadd (wadd (wadd a b) c) d)).
Proof.
  intros Ha Hb Hc Hd. change (wadd a b) with ((a + b) mod M32). rewrite !wadd_l.
  exact (u_add_det a b [c; d] Ha Hb ltac:(repeat first [assumption | apply Forall_nil | apply Forall_cons]) ltac:(cbn; lia)).
Qed.
Lemma add5 a b c d e : w32 a -> w32 b -> w32 c -> w32 d -> w32 e ->
  determ (u_add (W a) (W b) [W c; W d; W e]) (W (wadd (wadd (wadd (wadd a b) c) d) e)).
Proof.
  intros Ha Hb Hc Hd He. change (wadd a b) with ((a + b) mod M32). rewrite !wadd_l.
  exact (u_add_det a b [c; d; e] Ha Hb ltac:(repeat first [assumption | apply Forall_nil | apply Forall_cons]) ltac:(cbn; lia)).
Qed.

(** *** message words *)
Lemma lor_disj a b n : 0 <= n -> 0 <= b < 2 ^ n -> Z.lor (Z.shiftl a n) b = a * 2 ^ n + b.
Proof.
  intros Hn Hb. rewrite <- Z.shiftl_mul_pow2 by lia. rewrite <- Z.lxor_lor; [symmetry; apply Z.add_nocarry_lxor|];
  (apply Z.bits_inj'; intros i Hi; rewrite Z.land_spec, Z.bits_0, Z.shiftl_spec by lia;
   destruct (Z_lt_ge_dec i n); [now rewrite Z.testbit_neg_r by lia | now rewrite (high_bit n b), andb_false_r by lia]).
Qed.
Lemma load_or a b c d : is_byte a -> is_byte b -> is_byte c -> is_byte d ->
  Z.lor (Z.lor (Z.lor (Z.lor 0 (Z.shiftl a 24)) (Z.shiftl b 16)) (Z.shiftl c 8)) d
  = a * 2 ^ 24 + b * 2 ^ 16 + c * 2 ^ 8 + d.
Proof.
  unfold is_byte. intros Ha Hb Hc Hd. rewrite Z.lor_0_l.
  replace (Z.shiftl a 24) with (Z.shiftl (Z.shiftl (Z.shiftl a 8) 8) 8) by now rewrite !Z.shiftl_shiftl.
  replace (Z.shiftl b 16) with (Z.shiftl (Z.shiftl b 8) 8) by now rewrite !Z.shiftl_shiftl.
  rewrite <- !Z.shiftl_lor. rewrite (lor_disj a b 8) by lia.
  rewrite (lor_disj _ c 8), (lor_disj _ d 8) by lia. lia.
Qed.
Lemma nth_map_B bs i : (i < length bs)%nat -> nth i (map B bs) [] = B (nth i bs 0).
Proof. intros H. rewrite nth_indep with (d' := B 0) by (now rewrite map_length). apply map_nth. Qed.
Lemma nth_map_W ws i : (i < length ws)%nat -> nth i (map W ws) [] = W (nth i ws 0).
Proof. intros H. rewrite nth_indep with (d' := W 0) by (now rewrite map_length). apply map_nth. Qed.
Lemma Forall_nth' {A} (P : A -> Prop) l i d : Forall P l -> (i < length l)%nat -> P (nth i l d).
Proof. intros F H. rewrite Forall_forall in F. apply F, nth_In, H. Qed.

Lemma loadWord_det bs w i : length bs = 64%nat -> Forall is_byte bs -> (i < 16)%nat ->
  determ (loadWord (map B bs) w i) (upd w i (W (blockWord bs i))).
Proof.
  intros L F Hi. unfold loadWord. cbv zeta. rewrite !nth_map_B by lia.
  replace (i * 4)%nat with (4 * i)%nat by lia.
  pose proof (fun j (H : (j < 64)%nat) => Forall_nth' is_byte bs j 0 F ltac:(lia)) as N.
  rewrite !toUint32_eq by (apply N; lia). rewrite !u_lshift_eq by lia.
  eapply determ_bind.
  - exact (u_or_det 32 [Z.shiftl (nth (4 * i) bs 0) 24; Z.shiftl (nth (4 * i + 1) bs 0) 16;
                        Z.shiftl (nth (4 * i + 2) bs 0) 8; nth (4 * i + 3) bs 0]).
  - cbn [fold_left]. rewrite load_or by (apply N; lia). apply determ_ret.
Qed.
Lemma blockWord_w bs i : length bs = 64%nat -> Forall is_byte bs -> (i < 16)%nat -> w32 (blockWord bs i).
Proof.
  intros L F Hi. unfold w32, blockWord.
  pose proof (fun j (H : (j < 64)%nat) => Forall_nth' is_byte bs j 0 F ltac:(lia)) as N. unfold is_byte in N.
  pose proof (N (4 * i)%nat ltac:(lia)). pose proof (N (4 * i + 1)%nat ltac:(lia)).
  pose proof (N (4 * i + 2)%nat ltac:(lia)). pose proof (N (4 * i + 3)%nat ltac:(lia)). lia.
Qed.

Lemma upd_app {A} (l r : list A) x v : upd (l ++ x :: r) (length l) v = l ++ v :: r.
Proof. induction l as [|y l IH]; cbn [app length upd]; [reflexivity | now rewrite IH]. Qed.
(** first [k] schedule words are done, the rest is scratch *)
Definition partW (k : nat) (w : list word) (ws : list Z) : Prop :=
  length ws = k /\ Forall w32 ws /\ exists r, w = map W ws ++ r /\ length r = (64 - k)%nat.
Lemma partW_upd k w ws v : partW k w ws -> (k < 64)%nat -> w32 v -> partW (S k) (upd w k (W v)) (ws ++ [v]).
Proof.
  intros (L & F & r & -> & Lr) Hk Hv. split; [rewrite app_length; cbn; lia|]. split.
  - apply Forall_app. split; [exact F | apply Forall_cons; [exact Hv | apply Forall_nil]].
  - destruct r as [|x r]; [cbn [length] in Lr; lia|]. exists r. split; [|cbn [length] in Lr; lia].
    rewrite <- L, <- (map_length W ws), upd_app, map_app, <- app_assoc. reflexivity.
Qed.
Lemma partW_nth k w ws i : partW k w ws -> (i < k)%nat -> nth i w [] = W (nth i ws 0) /\ w32 (nth i ws 0).
Proof.
  intros (L & F & r & -> & _) Hi. split; [|apply Forall_nth'; [exact F | lia]].
  rewrite app_nth1 by (rewrite map_length; lia). apply nth_map_W. lia.
Qed.
Lemma reach_mfold_seq {S} (f : S -> nat -> Circ S) (I : nat -> S -> Prop) n : forall a s,
  (forall k s, (a <= k < a + n)%nat -> I k s -> reach (f s k) (I (Datatypes.S k))) -> I a s ->
  reach (mfold f (seq a n) s) (I (a + n)%nat).
Proof.
  induction n as [|n IH]; intros a s H HI; cbn [seq mfold].
  - rewrite Nat.add_0_r. now apply reach_ret.
  - eapply reach_bind; [apply (H a s); [lia | exact HI]|]. intros s' HI'. rewrite <- Nat.add_succ_comm.
    apply IH; [|exact HI']. intros k s0 Hk. apply H. lia.
Qed.
Lemma load_all bs w : length bs = 64%nat -> Forall is_byte bs -> length w = 64%nat ->
  reach (mfold (loadWord (map B bs)) (seq 0 16) w) (fun w' => partW 16 w' (map (blockWord bs) (seq 0 16))).
Proof.
  intros L F Lw.
  apply (reach_mfold_seq (loadWord (map B bs)) (fun k w' => partW k w' (map (blockWord bs) (seq 0 k))) 16 0).
  - intros k s Hk P. exists (upd s k (W (blockWord bs k))). split; [apply loadWord_det; [exact L | exact F | lia]|].
    rewrite seq_S, map_app. apply partW_upd; [exact P | lia | apply blockWord_w; [exact L | exact F | lia]].
  - split; [reflexivity|]. split; [constructor|]. exists w. split; [reflexivity | exact Lw].
Qed.

Lemma schedWord_ok k w ws : partW k w ws -> (16 <= k < 64)%nat ->
  reach (schedWord w k) (fun w' => partW (S k) w' (nextW ws k)).
Proof.
  intros P Hk. unfold schedWord, nextW. cbv zeta.
  destruct (partW_nth k w ws (k - 2) P ltac:(lia)) as (-> & H2).
  destruct (partW_nth k w ws (k - 7) P ltac:(lia)) as (-> & H7).
  destruct (partW_nth k w ws (k - 15) P ltac:(lia)) as (-> & H15).
  destruct (partW_nth k w ws (k - 16) P ltac:(lia)) as (-> & H16).
  rewrite (rot 17), (rot 19), (rot 7), (rot 18), (shr 10), (shr 3) by (assumption || lia).
  eapply det_bind; [apply xor3|]. eapply det_bind; [apply xor3|].
  eapply det_bind; [apply add4; unfold SHR; auto 8 with w32|].
  - apply lxor_w; [apply lxor_w; apply rotr_w; (assumption || lia) | apply shiftr_w; (assumption || lia)].
  - apply lxor_w; [apply lxor_w; apply rotr_w; (assumption || lia) | apply shiftr_w; (assumption || lia)].
  - apply reach_ret. apply partW_upd; [exact P | lia | apply wadd_w].
Qed.
Lemma sched_all bs w : length bs = 64%nat -> Forall is_byte bs -> length w = 64%nat ->
  reach (bind (mfold (loadWord (map B bs)) (seq 0 16) w) (fun w => mfold schedWord (seq 16 48) w))
        (fun w' => partW 64 w' (schedule bs)).
Proof.
  intros L F Lw. eapply reach_bind; [apply load_all; assumption|]. intros w1 P1.
  assert (G : reach (mfold schedWord (seq 16 48) w1)
    (fun w' => partW (16 + 48) w' (fold_left nextW (seq 16 (16 + 48 - 16)) (map (blockWord bs) (seq 0 16))))); [|exact G].
  apply (reach_mfold_seq schedWord (fun k w' => partW k w' (fold_left nextW (seq 16 (k - 16)) (map (blockWord bs) (seq 0 16)))) 48 16).
  - intros k s Hk P. replace (S k - 16)%nat with (S (k - 16)) by lia. rewrite seq_S, fold_left_app. cbn [fold_left].
    replace (16 + (k - 16))%nat with k by lia. apply schedWord_ok; [exact P | lia].
  - exact P1.
Qed.

(** *** rounds *)
Inductive R8 : eight word -> list Z -> Prop :=
| R8_intro a b c d e f g h : w32 a -> w32 b -> w32 c -> w32 d -> w32 e -> w32 f -> w32 g -> w32 h ->
    R8 (mk8 (W a) (W b) (W c) (W d) (W e) (W f) (W g) (W h)) [a; b; c; d; e; f; g; h].

Lemma K_ok : shaK = K256.
Proof. vm_compute. reflexivity. Qed.
Lemma K_w : Forall w32 shaK.
Proof. apply Forall_forall. intros z Hz. unfold w32.
  assert (T : forallb (fun z => (0 <=? z) && (z <? 2 ^ 32)) shaK = true) by (vm_compute; reflexivity).
  rewrite forallb_forall in T. specialize (T z Hz). apply andb_true_iff in T.
  rewrite Z.leb_le, Z.ltb_lt in T. exact T.
Qed.
Opaque shaK K256.
Lemma round_ok w ws k s l : partW 64 w ws -> (k < 64)%nat -> R8 s l ->
  reach (roundStep w s k) (fun s' => R8 s' (sround ws l k)).
Proof.
  intros P Hk [a b c d e f g h Ha Hb Hc Hd He Hf Hg Hh]. unfold roundStep, sround, constUint.
  destruct (partW_nth 64 w ws k P Hk) as (-> & Hw).
  assert (HK : w32 (nth k shaK 0)). { apply Forall_nth'; [exact K_w|]. rewrite K_ok. exact Hk. }
  rewrite (rot 6), (rot 11), (rot 25), (rot 2), (rot 13), (rot 22) by (assumption || lia).
  eapply det_bind; [apply xor3|]. eapply det_bind; [apply and2|].
  eapply det_bind; [apply not1|]. eapply det_bind; [apply and2|]. eapply det_bind; [apply xor2|].
  assert (S1 : w32 (Sigma1 e)) by (unfold Sigma1; apply lxor_w; [apply lxor_w|]; apply rotr_w; (assumption || lia)).
  assert (S0 : w32 (Sigma0 a)) by (unfold Sigma0; apply lxor_w; [apply lxor_w|]; apply rotr_w; (assumption || lia)).
  assert (C : w32 (Ch e f g)) by (unfold Ch; apply lxor_w; apply land_w; [assumption | now apply wnot_w]).
  assert (M : w32 (Maj a b c)) by (unfold Maj; apply lxor_w; [apply lxor_w|]; apply land_w; assumption).
  eapply det_bind; [apply add5; [exact Hh | exact S1 | exact C | exact HK | exact Hw]|].
  eapply det_bind; [apply xor3|]. do 3 (eapply det_bind; [apply and2|]). eapply det_bind; [apply xor3|].
  eapply det_bind; [apply add2; [exact S0 | exact M]|].
  eapply det_bind; [apply add2; [exact Hd | apply wadd_w]|].
  eapply det_bind; [apply add2; apply wadd_w|].
  apply reach_ret. rewrite <- K_ok. constructor; try assumption; apply wadd_w.
Qed.
Lemma rounds_ok w ws s l : partW 64 w ws -> R8 s l ->
  reach (mfold (roundStep w) (seq 0 64) s) (fun s' => R8 s' (fold_left (sround ws) (seq 0 64) l)).
Proof.
  intros P H. apply reach_mfold; [|exact H]. intros s0 t0 x Hx. apply in_seq in Hx. apply round_ok; [exact P | lia].
Qed.
Lemma oneBlock_ok w s bs l : length bs = 64%nat -> Forall is_byte bs -> length w = 64%nat -> R8 s l ->
  reach (oneBlock (w, s) (map B bs)) (fun st => length (fst st) = 64%nat /\ R8 (snd st) (compress l bs)).
Proof.
  intros L F Lw H. unfold oneBlock.
  destruct (sched_all bs w L F Lw) as (w2 & D & P).
  assert (D1 : exists w1, determ (mfold (loadWord (map B bs)) (seq 0 16) w) w1 /\ reach (mfold schedWord (seq 16 48) w1) (fun w' => partW 64 w' (schedule bs))).
  { destruct (load_all bs w L F Lw) as (w1 & D1 & P1). exists w1. split; [exact D1|]. exists w2. split; [|exact P].
    destruct D as (D & U). destruct D1 as (D1 & U1). rewrite run_bind, D1 in D. split; [exact D|].
    intros b Hb. apply U. apply sat_bind. exists w1. split; [now apply run_sat | exact Hb]. }
  clear D P w2. destruct D1 as (w1 & D1 & S1). eapply det_bind; [exact D1|]. eapply reach_bind; [exact S1|].
  clear w1 D1 S1. intros w2 P. eapply reach_bind; [apply (rounds_ok w2 _ s l P H)|].
  intros r Hr. unfold compress.
  destruct H as [a b c d e f g h Ha Hb Hc Hd He Hf Hg Hh].
  remember (fold_left (sround (schedule bs)) (seq 0 64) [a; b; c; d; e; f; g; h]) as rl eqn:E. clear E.
  destruct Hr as [a' b' c' d' e' f' g' h' Ha' Hb' Hc' Hd' He' Hf' Hg' Hh'].
  cbn [wa wb wc wd we wf wg wh combine map fst snd].
  do 8 (eapply det_bind; [apply add2; assumption|]).
  apply reach_ret. cbn [fst snd]. split.
  - destruct P as (L2 & _ & r & -> & Lr). rewrite app_length, map_length. lia.
  - constructor; apply wadd_w.
Qed.
Lemma Forall_firstn' {A} (P : A -> Prop) n l : Forall P l -> Forall P (firstn n l).
Proof. intros F. rewrite <- (firstn_skipn n l), Forall_app in F. tauto. Qed.
Lemma Forall_skipn' {A} (P : A -> Prop) n l : Forall P l -> Forall P (skipn n l).
Proof. intros F. rewrite <- (firstn_skipn n l), Forall_app in F. tauto. Qed.
Lemma blockLoop_ok n : forall fuel w s l bs, (n < fuel)%nat -> length bs = (64 * n)%nat -> Forall is_byte bs -> length w = 64%nat -> R8 s l ->
  reach (blockLoop fuel (w, s) (map B bs)) (fun st => R8 (snd st) (fold_left compress (blocks n bs) l)).
Proof.
  induction n as [|n IH]; intros fuel w s l bs Hf L F Lw H; (destruct fuel as [|fuel]; [lia|]); cbn [blockLoop blocks fold_left].
  - rewrite map_length, L. cbn [Nat.mul Nat.leb]. now apply reach_ret.
  - rewrite map_length, (proj2 (Nat.leb_le 64 (length bs))) by lia. rewrite firstn_map, skipn_map.
    eapply reach_bind.
    + apply oneBlock_ok; [|now apply Forall_firstn'| exact Lw | exact H]. rewrite firstn_length. lia.
    + intros [w' s'] (Lw' & H'). cbn [fst snd] in *. apply IH; [lia | rewrite skipn_length; lia | now apply Forall_skipn' | exact Lw' | exact H'].
Qed.

Lemma blockGeneric_ok n s l bs : length bs = (64 * n)%nat -> Forall is_byte bs -> R8 s l ->
  reach (blockGeneric s (map B bs)) (fun s' => R8 s' (fold_left compress (blocks n bs) l)).
Proof.
  intros L F H. unfold blockGeneric.
  eapply det_bind.
  - apply (determ_mmap (fun _ => asUint 32 fr0) (fun _ => bitsF 32 0)). intros x _.
    apply (determ_ToBinary 32 fr0); [vm_compute; discriminate | reflexivity].
  - eapply reach_bind.
    + apply (blockLoop_ok n); [rewrite map_length; lia | exact L | exact F | now rewrite map_length, seq_length | exact H].
    + intros [w' s'] H'. apply reach_ret. exact H'.
Qed.
Lemma blocks_app a : forall b m p, length m = (64 * a)%nat -> blocks (a + b) (m ++ p) = blocks a m ++ blocks b p.
Proof.
  induction a as [|a IH]; intros b m p L; cbn [Nat.add blocks app].
  - destruct m; [reflexivity | cbn in L; lia].
  - rewrite firstn_app, skipn_app. replace (64 - length m)%nat with 0%nat by lia.
    rewrite firstn_O, app_nil_r. change (skipn 0 p) with p. f_equal. apply IH. rewrite skipn_length. lia.
Qed.

(** *** the digest state *)
Definition hashed (k : nat) (q : list Z) : list Z := fold_left compress (blocks k q) H256.
Inductive InvH (h : eight word) (x : list word) (nx : nat) : list Z -> Prop :=
| InvH_intro k q t : length q = (64 * k)%nat -> (length t < 64)%nat -> Forall is_byte q -> Forall is_byte t ->
    nx = length t -> length x = 64%nat -> firstn nx x = map B t -> R8 h (hashed k q) -> InvH h x nx (q ++ t).
Definition Inv (d : digest) (m : list Z) : Prop :=
  dLen d = Z.of_nat (length m) mod 2 ^ 64 /\ InvH (dH d) (dX d) (dNx d) m.

Lemma init_ok : R8 shaInit H256.
Proof.
  assert (E : H256 = [0x6A09E667; 0xBB67AE85; 0x3C6EF372; 0xA54FF53A; 0x510E527F; 0x9B05688C; 0x1F83D9AB; 0x5BE0CD19])
    by (vm_compute; reflexivity).
  rewrite E. apply R8_intro; unfold w32; lia.
Qed.
Opaque H256.
Lemma Inv_New : Inv New [].
Proof. split; [reflexivity|]. refine (InvH_intro (dH New) (dX New) 0 0 [] [] eq_refl _ (Forall_nil _) (Forall_nil _) eq_refl eq_refl eq_refl init_ok). cbn [length]. lia. Qed.

Lemma copyAt_length x n p : length x = 64%nat -> (n <= 64)%nat -> length (copyAt x n p) = 64%nat.
Proof. intros L Hn. unfold copyAt. rewrite !app_length, !firstn_length, skipn_length. lia. Qed.

Definition wtail (h : eight word) (x : list word) (nx : nat) (len : Z) (p : list word) : Circ digest :=
  ' (h, p) <-
    (if Nat.leb 64 (length p) then
       let n := (length p - length p mod 64)%nat in
       h <- blockGeneric h (firstn n p) ;; Ret (h, skipn n p)
     else Ret (h, p)) ;;
  if Nat.ltb 0 (length p) then
    Ret (mkD h (copyAt x 0 p) (Nat.min 64 (length p)) len)
  else Ret (mkD h x nx len).

Lemma wend_ok h x len k q p : length q = (64 * k)%nat -> Forall is_byte q -> Forall is_byte p -> (length p < 64)%nat -> length x = 64%nat ->
  R8 h (hashed k q) ->
  reach (if Nat.ltb 0 (length (map B p)) then Ret (mkD h (copyAt x 0 (map B p)) (Nat.min 64 (length (map B p))) len) else Ret (mkD h x 0 len))
        (fun d => dLen d = len /\ InvH (dH d) (dX d) (dNx d) (q ++ p)).
Proof.
  intros Lq Fq Fp Lp Lx H. rewrite map_length. destruct (Nat.ltb 0 (length p)) eqn:E.
  - apply reach_ret. split; [reflexivity|]. cbn [dH dX dNx]. apply (InvH_intro _ _ _ k q p); try assumption.
    + lia.
    + apply copyAt_length; [exact Lx | lia].
    + rewrite Nat.min_r by lia. unfold copyAt. cbn [firstn app]. rewrite firstn_all2 with (n := (64 - 0)%nat) by (rewrite map_length; lia).
      rewrite firstn_app, map_length, Nat.sub_diag, firstn_O, app_nil_r. rewrite firstn_all2; [reflexivity | rewrite map_length; lia].
  - apply reach_ret. split; [reflexivity|]. cbn [dH dX dNx]. apply Nat.ltb_ge in E. destruct p; [|cbn in E; lia].
    apply (InvH_intro _ _ _ k q []); try assumption; try reflexivity.
Qed.
Lemma wtail_ok h x len k q p : length q = (64 * k)%nat -> Forall is_byte q -> Forall is_byte p -> length x = 64%nat -> R8 h (hashed k q) ->
  reach (wtail h x 0 len (map B p)) (fun d => dLen d = len /\ InvH (dH d) (dX d) (dNx d) (q ++ p)).
Proof.
  intros Lq Fq Fp Lx H. unfold wtail. rewrite map_length. destruct (Nat.leb 64 (length p)) eqn:E.
  - set (n := (length p - length p mod 64)%nat). rewrite firstn_map, skipn_map.
    pose proof (Nat.div_mod (length p) 64 ltac:(lia)) as DM. pose proof (Nat.mod_upper_bound (length p) 64 ltac:(lia)) as MB.
    assert (Ln : length (firstn n p) = (64 * (length p / 64))%nat) by (rewrite firstn_length; lia).
    eapply reach_bind with (P := fun hp => R8 (fst hp) (hashed (k + length p / 64) (q ++ firstn n p)) /\ snd hp = map B (skipn n p)).
    + eapply reach_bind; [apply (blockGeneric_ok (length p / 64) h (hashed k q) (firstn n p) Ln); [now apply Forall_firstn' | exact H]|].
      intros h' H'. apply reach_ret. cbn [fst snd]. split; [|reflexivity]. unfold hashed in *.
      rewrite blocks_app, fold_left_app by exact Lq.
      exact H'.
    + intros [h' p'] (H' & E'). cbn [fst snd] in *. subst p'.
      replace (q ++ p) with ((q ++ firstn n p) ++ skipn n p) by (now rewrite <- app_assoc, firstn_skipn).
      apply (wend_ok h' x len (k + length p / 64) (q ++ firstn n p)); [rewrite app_length; lia | | now apply Forall_skipn' | rewrite skipn_length; lia | exact Lx | exact H'].
      apply Forall_app. split; [exact Fq | now apply Forall_firstn'].
  - eapply det_bind; [apply determ_ret|]. apply Nat.leb_gt in E. apply (wend_ok h x len k q p); assumption.
Qed.
Lemma write_ok d m p : Inv d m -> Forall is_byte p -> reach (write d (map B p)) (fun d' => Inv d' (m ++ p)).
Proof.
  intros (Hlen & HI) Fp. destruct d as [h x nx len]. cbn [dLen dH dX dNx] in *.
  assert (EL : (len + Z.of_nat (@length word (map B p))) mod 2 ^ 64 = Z.of_nat (length (m ++ p)) mod 2 ^ 64).
  { rewrite Hlen, map_length, app_length, Nat2Z.inj_add. apply Zplus_mod_idemp_l. }
  unfold write. cbn [dLen dH dX dNx]. cbv zeta. rewrite EL. clear EL Hlen len.
  set (len := Z.of_nat (length (m ++ p)) mod 2 ^ 64).
  enough (G : reach (bind (if Nat.ltb 0 nx then
         let n := Nat.min (64 - nx) (length (map B p)) in
         let x := copyAt x nx (map B p) in
         let nx := (nx + n)%nat in
         if Nat.eqb nx 64 then h <- blockGeneric h x ;; Ret (h, x, 0%nat, skipn n (map B p)) else Ret (h, x, nx, skipn n (map B p))
       else Ret (h, x, nx, map B p)) (fun '(h, x, nx, p) => wtail h x nx len p))
     (fun d => dLen d = len /\ InvH (dH d) (dX d) (dNx d) (m ++ p))) by exact G.
  destruct HI as [k q t Lq Lt Fq Ft Enx Lx EX H]. cbv zeta. destruct (Nat.ltb 0 nx) eqn:E.
  - rewrite map_length, skipn_map.
    assert (EC : forall y, copyAt x nx (map B p) = y -> firstn (length t + Nat.min (64 - nx) (length p)) y = map B (t ++ firstn (64 - nx) p)).
    { intros y <-. unfold copyAt. rewrite EX, firstn_map, app_assoc, <- map_app.
      rewrite firstn_app, firstn_all2 by (rewrite map_length, app_length, firstn_length; lia).
      rewrite map_length, app_length, firstn_length.
      replace (length t + Nat.min (64 - nx) (length p) - (length t + Nat.min (64 - nx) (length p)))%nat with 0%nat by lia.
      now rewrite firstn_O, app_nil_r. }
    specialize (EC _ eq_refl). pose proof (copyAt_length x nx (map B p) Lx ltac:(lia)) as LC.
    set (y := copyAt x nx (map B p)) in *. clearbody y.
    destruct (Nat.eqb (nx + Nat.min (64 - nx) (length p)) 64) eqn:E2.
    + apply Nat.eqb_eq in E2. rewrite <- Enx, E2, firstn_all2 in EC by lia. rewrite EC.
      assert (L1 : length (t ++ firstn (64 - nx) p) = 64%nat) by (rewrite app_length, firstn_length; lia).
      eapply reach_bind with (P := fun r => snd r = map B (skipn (64 - nx) p) /\ snd (fst r) = 0%nat /\ length (snd (fst (fst r))) = 64%nat
        /\ R8 (fst (fst (fst r))) (hashed (k + 1) (q ++ (t ++ firstn (64 - nx) p)))).
      * eapply reach_bind; [apply (blockGeneric_ok 1 h (hashed k q) (t ++ firstn (64 - nx) p) L1); [|exact H]|].
        -- apply Forall_app. split; [exact Ft | now apply Forall_firstn'].
        -- intros h' H'. apply reach_ret. cbn [fst snd]. split; [now replace (Nat.min (64 - nx) (length p)) with (64 - nx)%nat by lia|].
           split; [reflexivity|]. split; [now rewrite map_length|]. unfold hashed in *. rewrite blocks_app, fold_left_app by exact Lq. exact H'.
      * intros [[[h' x'] nx'] p'] (E1 & E3 & L3 & H'). cbn [fst snd] in *. subst p' nx'.
        replace ((q ++ t) ++ p) with ((q ++ (t ++ firstn (64 - nx) p)) ++ skipn (64 - nx) p)
          by (rewrite <- !app_assoc, firstn_skipn; reflexivity).
        apply (wtail_ok h' x' len (k + 1)); [rewrite app_length; lia | | now apply Forall_skipn' | exact L3 | exact H'].
        apply Forall_app. split; [exact Fq|]. apply Forall_app. split; [exact Ft | now apply Forall_firstn'].
    + apply Nat.eqb_neq in E2. eapply det_bind; [apply determ_ret|]. cbv beta iota.
      rewrite skipn_all2 by lia. unfold wtail. cbn [map length Nat.leb]. eapply det_bind; [apply determ_ret|].
      cbn [length Nat.ltb Nat.leb]. apply reach_ret. split; [reflexivity|]. cbn [dH dX dNx].
      rewrite <- app_assoc. apply (InvH_intro _ _ _ k q (t ++ p)); try assumption.
      * rewrite app_length. lia.
      * apply Forall_app. now split.
      * rewrite app_length. lia.
      * rewrite <- Enx in EC. rewrite EC. rewrite firstn_all2 by lia. reflexivity.
  - apply Nat.ltb_ge in E. assert (nx = 0%nat) by lia. subst nx. assert (t = []) as -> by (apply length_zero_iff_nil; lia). rewrite app_nil_r.
    eapply det_bind; [apply determ_ret|]. cbv beta iota. apply (wtail_ok h x len k); assumption.
Qed.

Lemma tmp_eq : constUint 8 0x80 :: map (fun _ => constUint 8 0) (seq 1 63) = map B (128 :: repeat 0 63).
Proof. reflexivity. Qed.
Lemma be_bytes_byte n x : Forall is_byte (be_bytes n x).
Proof. apply Forall_forall. intros y Hy. apply in_map_iff in Hy. destruct Hy as (i & <- & _). apply Z.mod_pos_bound. reflexivity. Qed.
Lemma PutUint32_B z : 0 <= z < 2 ^ 32 -> map fromUint (PutUint32 (W z)) = map (ofZ rBN) (be_bytes 4 z).
Proof.
  intros Hz. rewrite PutUint32_eq, map_map by exact Hz. apply map_ext_in. intros y Hy.
  pose proof (be_bytes_byte 4 z) as F. rewrite Forall_forall in F. apply (FromBinary_bits_small 8). exact (F y Hy).
Qed.
Lemma firstn_repeat' {A} (x : A) : forall n m, (n <= m)%nat -> firstn n (repeat x m) = repeat x n.
Proof. induction n as [|n IH]; intros [|m] H; cbn; try reflexivity; try lia. f_equal. apply IH. lia. Qed.
Lemma checkSum_ok d m : Inv d m -> 8 * Z.of_nat (length m) < 2 ^ 64 -> Forall is_byte m ->
  determ (checkSum d) (map (ofZ rBN) (sha256 m)).
Proof.
  intros HI Hm Fm. unfold checkSum. rewrite tmp_eq. cbv zeta.
  pose proof (proj1 HI) as HL. rewrite Z.mod_small in HL by lia. rewrite HL.
  set (l := Z.of_nat (length m)) in *.
  set (z := Z.to_nat ((55 - l) mod 64)).
  assert (E1 : (if l mod 64 <? 56 then write d (firstn (Z.to_nat (56 - l mod 64)) (map B (128 :: repeat 0 63)))
     else write d (firstn (Z.to_nat (64 + 56 - l mod 64)) (map B (128 :: repeat 0 63)))) = write d (map B (128 :: repeat 0 z))).
  { assert (forall n, n = z -> firstn (S n) (map B (128 :: repeat 0 63)) = map B (128 :: repeat 0 z)) as A.
    { intros n ->. rewrite firstn_map. cbn [firstn]. rewrite firstn_repeat'; [reflexivity|].
      unfold z. pose proof (Z.mod_pos_bound (55 - l) 64 ltac:(lia)). lia. }
    destruct (Z.ltb_spec (l mod 64) 56) as [C|C]; f_equal.
    - replace (Z.to_nat (56 - l mod 64)) with (S (Z.to_nat (55 - l mod 64))) by (pose proof (Z.mod_pos_bound l 64); lia).
      apply A. unfold z. f_equal. Z.div_mod_to_equations. lia.
    - replace (Z.to_nat (64 + 56 - l mod 64)) with (S (Z.to_nat (119 - l mod 64))) by (pose proof (Z.mod_pos_bound l 64); lia).
      apply A. unfold z. f_equal. Z.div_mod_to_equations. lia. }
  assert (Fz : Forall is_byte (128 :: repeat 0 z)).
  { apply Forall_cons; [unfold is_byte; lia|]. apply Forall_forall. intros y Hy. apply repeat_spec in Hy. subst y. unfold is_byte. lia. }
  destruct (write_ok d m _ HI Fz) as (d1 & D1 & I1).
  eapply determ_bind; [exact (eq_ind_r (fun c => determ c d1) D1 E1)|]. clear E1 D1.
  rewrite (Z.mod_small (l * 8)) by lia.
  eapply determ_bind.
  { apply (determ_ToBinary 64); [vm_compute; discriminate|]. rewrite fval_ofZ. rewrite Z.mod_small; [change (2 ^ Z.of_nat 64) with (2 ^ 64); lia|].
    assert (2 ^ 64 < rBN) by reflexivity. lia. }
  assert (E2 : firstn 8 (PutUint64 (bitsF 64 (fval (ofZ rBN (l * 8)))) ++ skipn 8 (map B (128 :: repeat 0 63))) = map B (be_bytes 8 (8 * l))).
  { rewrite fval_ofZ, Z.mod_small by (assert (2 ^ 64 < rBN) by reflexivity; lia).
    rewrite PutUint64_eq by lia. rewrite (Z.mul_comm l 8).
    rewrite firstn_app, map_length. replace (length (be_bytes 8 (8 * l))) with 8%nat by reflexivity.
    cbn [Nat.sub]. rewrite firstn_O, app_nil_r. apply firstn_all2. rewrite map_length. unfold be_bytes. rewrite map_length, seq_length. lia. }
  destruct (write_ok d1 _ _ I1 (be_bytes_byte 8 (8 * l))) as (d2 & D2 & I2).
  eapply determ_bind; [exact (eq_ind_r (fun p => determ (write d1 p) d2) D2 E2)|]. clear D2 E2 I1 d1.
  assert (EP : (m ++ 128 :: repeat 0 z) ++ be_bytes 8 (8 * l) = pad m).
  { unfold pad. fold l. fold z. rewrite <- app_assoc. reflexivity. }
  rewrite EP in I2. destruct I2 as (_ & I2).
  assert (LP : exists n, length (pad m) = (64 * n)%nat).
  { unfold pad. fold l. fold z. rewrite !app_length, repeat_length. unfold be_bytes. rewrite map_length, seq_length. cbn [length].
    exists (Z.to_nat ((l + 1 + ((55 - l) mod 64) + 8) / 64)).
    assert (length m = Z.to_nat l) as -> by lia. unfold z.
    pose proof (Z.mod_pos_bound (55 - l) 64 ltac:(lia)). pose proof (Z.div_mod (55 - l) 64 ltac:(lia)) as Q.
    replace (l + 1 + (55 - l) mod 64 + 8) with ((1 - (55 - l) / 64) * 64) by lia. rewrite Z.div_mul by lia. lia. }
  destruct LP as (n & LP). unfold sha256. cbv zeta. revert LP I2. generalize (pad m). intros P LP I2.
  destruct I2 as [k q t Lq Lt Fq Ft Enx Lx EX H]. rewrite app_length in LP.
  assert (t = []) as -> by (apply length_zero_iff_nil; lia). rewrite app_nil_r, Enx. cbn [length Nat.eqb assert].
  eapply determ_bind; [apply determ_ret|]. rewrite Lq, Nat.mul_comm, Nat.div_mul by lia. unfold hashed in H.
  destruct d2 as [h2 x2 nx2 len2]. cbn [dH dX dNx] in *.
  remember (fold_left compress (blocks k q) H256) as rl eqn:E. clear E.
  destruct H as [a b c e0 e f g h Ha Hb Hc Hd He Hf Hg Hh]. cbn [wa wb wc wd we wf wg wh flat_map].
  rewrite !map_app, !PutUint32_B by assumption. apply determ_ret.
Qed.

(** *** Write on field elements, sessions *)
Definition byteF (x : Fr) : Prop := fval x < 256.
Lemma Write_ins p : Forall byteF p -> determ (mmap (asUint 8) p) (map B (map fval p)).
Proof.
  intros F. rewrite map_map. apply determ_mmap. intros x Hx. rewrite Forall_forall in F.
  apply (determ_ToBinary 8); [vm_compute; discriminate | exact (F x Hx)].
Qed.
Lemma byteF_byte p : Forall byteF p -> Forall is_byte (map fval p).
Proof.
  intros F. apply Forall_forall. intros z Hz. apply in_map_iff in Hz. destruct Hz as (x & <- & Hx).
  rewrite Forall_forall in F. specialize (F x Hx). unfold byteF in F. pose proof (fval_range x rBN_pos). unfold is_byte. lia.
Qed.
Lemma Write_ok d m p : Inv d m -> Forall byteF p -> reach (Write d p) (fun d' => Inv d' (m ++ map fval p)).
Proof.
  intros HI F. unfold Write. eapply det_bind; [apply Write_ins; exact F|]. apply write_ok; [exact HI | now apply byteF_byte].
Qed.
Lemma mmap_sat_all {A C} (f : A -> Circ C) l : forall r, sat (mmap f l) r -> Forall (fun x => satisfiable (f x)) l.
Proof.
  induction l as [|x l IH]; intros r H; [constructor|]. cbn [mmap] in H. apply sat_bind in H. destruct H as (y & Hy & H).
  apply sat_bind in H. destruct H as (ys & Hys & _). constructor; [now exists y | now apply (IH ys)].
Qed.
Lemma Write_bytes d p d' : sat (Write d p) d' -> Forall byteF p.
Proof.
  intros H. apply sat_bind in H. destruct H as (ins & H & _). apply mmap_sat_all in H.
  apply Forall_forall. intros x Hx. rewrite Forall_forall in H. destruct (H x Hx) as (b & Hb).
  unfold byteF. destruct (Z_lt_ge_dec (fval x) 256) as [L|G]; [exact L|]. exfalso.
  apply (unsat_ToBinary 8 x ltac:(vm_compute; discriminate) ltac:(change (2 ^ Z.of_nat 8) with 256; lia) b Hb).
Qed.
Lemma Inv_Reset d m : Inv d m -> Inv (Reset d) [].
Proof.
  intros (_ & HI). split; [reflexivity|]. destruct HI as [k q t Lq Lt Fq Ft Enx Lx EX H].
  refine (InvH_intro shaInit (dX d) 0 0 [] [] eq_refl _ (Forall_nil _) (Forall_nil _) eq_refl Lx eq_refl init_ok). cbn [length]. lia.
Qed.
Lemma Inv_byte d m : Inv d m -> Forall is_byte m.
Proof. intros (_ & [k q t Lq Lt Fq Ft Enx Lx EX H]). apply Forall_app. now split. Qed.
