(** expand_message_xmd and hash_to_field gadgets against RFC 9380 (C05-C07). *)
From Coq Require Import ZArith String Bool Lia.
From Coq Require Import List.
From Verif Require Import Params ZMod Circuit Api ApiFacts Emulated Tower Sha256 Sha256Spec Sha256Words Sha256Proofs Sha256Session HashField HashFieldSpec.
Import ListNotations.
Open Scope Z_scope.

Lemma sround_len ws s t : length (sround ws s t) = length s.
Proof. do 9 (destruct s as [|? s]; [reflexivity|]). reflexivity. Qed.
Lemma compress_len H b : length (compress H b) = length H.
Proof.
  unfold compress. rewrite map_length, combine_length.
  assert (E : forall l s, length (fold_left (sround (schedule b)) l s) = length s).
  { induction l as [|x l IH]; intros s; cbn [fold_left]; [reflexivity|]. now rewrite IH, sround_len. }
  rewrite E. apply Nat.min_id.
Qed.
Lemma H256_len : length H256 = 8%nat. Proof. reflexivity. Qed.
Lemma sha256_len m : length (sha256 m) = 32%nat.
Proof.
  unfold sha256. cbv zeta. generalize (blocks (length (pad m) / 64) (pad m)). intros bl.
  assert (E : forall l s, length (fold_left compress l s) = length s).
  { induction l as [|x l IH]; intros s; cbn [fold_left]; [reflexivity|]. now rewrite IH, compress_len. }
  specialize (E bl H256). rewrite H256_len in E.
  assert (F : forall l : list Z, length (flat_map (be_bytes 4) l) = (4 * length l)%nat).
  { induction l as [|x l IH]; cbn [flat_map]; [reflexivity|]. rewrite app_length, IH. unfold be_bytes. rewrite map_length, seq_length. cbn [length]. lia. }
  rewrite F, E. reflexivity.
Qed.
Lemma sha256_byte m : Forall is_byte (sha256 m).
Proof.
  unfold sha256. cbv zeta. generalize (fold_left compress (blocks (length (pad m) / 64) (pad m)) H256). intros l.
  induction l as [|x l IH]; cbn [flat_map]; [constructor|]. apply Forall_app. split; [apply be_bytes_byte | exact IH].
Qed.
Opaque sha256.

Notation F8 := (map (ofZ rBN)).
Lemma F8_byteF l : Forall is_byte l -> Forall byteF (F8 l).
Proof.
  intros F. apply Forall_forall. intros x Hx. apply in_map_iff in Hx. destruct Hx as (z & <- & Hz).
  rewrite Forall_forall in F. specialize (F z Hz). unfold is_byte in F. unfold byteF. rewrite fval_ofZ, Z.mod_small; [lia|].
  assert (256 < rBN) by reflexivity. lia.
Qed.
Lemma F8_fval l : Forall is_byte l -> map fval (F8 l) = l.
Proof.
  intros F. rewrite map_map. rewrite <- (map_id l) at 2. apply map_ext_in. intros z Hz.
  rewrite Forall_forall in F. specialize (F z Hz). unfold is_byte in F. rewrite fval_ofZ. apply Z.mod_small.
  assert (256 < rBN) by reflexivity. lia.
Qed.
Lemma F8_of l : Forall byteF l -> l = F8 (map fval l) /\ Forall is_byte (map fval l).
Proof.
  intros F. split; [|now apply byteF_byte]. rewrite map_map. rewrite <- (map_id l) at 1. apply map_ext. intros x.
  apply fval_inj. rewrite fval_ofZ. symmetry. apply fval_mod.
Qed.
Lemma shaOf_det l : Forall is_byte l -> 8 * Z.of_nat (length l) < 2 ^ 64 -> determ (shaOf (F8 l)) (F8 (sha256 l)).
Proof.
  intros F Hl. pose proof (F8_byteF l F) as FB. assert (L' : 8 * Z.of_nat (length (F8 l)) < 2 ^ 64) by now rewrite map_length.
  split.
  - rewrite <- (F8_fval l F) at 2. exact (sha_run (F8 l) FB L').
  - intros o Ho. destruct (sha_sat (F8 l) o Ho L') as (_ & ->). unfold digest_of. now rewrite F8_fval.
Qed.
Lemma map_nth_all {A} (l : list A) d n : length l = n -> map (fun i => nth i l d) (seq 0 n) = l.
Proof.
  intros <-. apply (nth_ext _ _ d d); [now rewrite map_length, seq_length|].
  intros i Hi. rewrite map_length, seq_length in Hi. now rewrite nth_map_seq.
Qed.
Lemma u8_byte z : u8 z = ofZ rBN (z mod 256). Proof. reflexivity. Qed.

Definition dstZ : list Z := bytesOf DOMAIN_SEPERATOR.
Lemma dst_len : length dstZ = 43%nat. Proof. reflexivity. Qed.
Lemma dst_byte : Forall is_byte dstZ.
Proof.
  apply Forall_forall. intros z Hz.
  assert (T : forallb (fun z => (0 <=? z) && (z <? 256)) dstZ = true) by (vm_compute; reflexivity).
  rewrite forallb_forall in T. specialize (T z Hz). apply andb_true_iff in T. rewrite Z.leb_le, Z.ltb_lt in T. exact T.
Qed.
Lemma dstBytes_eq : dstBytes = F8 dstZ.
Proof. unfold dstBytes. apply map_nth_all. unfold DST. rewrite map_length. reflexivity. Qed.
Definition dstp : list Z := dstZ ++ [43].
Lemma dstp_byte : Forall is_byte dstp.
Proof. apply Forall_app. split; [exact dst_byte | apply Forall_cons; [unfold is_byte; lia | apply Forall_nil]]. Qed.
Lemma dstp_len : length dstp = 44%nat. Proof. reflexivity. Qed.
Lemma I2OSP1 x : I2OSP x 1 = [x mod 256].
Proof. unfold I2OSP, be_bytes. cbn [seq map]. change (2 ^ (8 * Z.of_nat (1 - 1 - 0))) with 1. now rewrite Z.div_1_r. Qed.
Lemma I2OSP2 x : I2OSP x 2 = [x / 256 mod 256; x mod 256].
Proof.
  unfold I2OSP, be_bytes. cbn [seq map]. change (2 ^ (8 * Z.of_nat (2 - 1 - 0))) with 256. change (2 ^ (8 * Z.of_nat (2 - 1 - 1))) with 1.
  now rewrite Z.div_1_r.
Qed.

Lemma b1Pre_eq h i : length h = 32%nat -> b1Preimage (F8 h) i = F8 (h ++ I2OSP (Z.of_nat i) 1 ++ dstp).
Proof.
  intros Hh. unfold b1Preimage, Sha256Size. rewrite map_nth_all by now rewrite map_length.
  rewrite dstBytes_eq, I2OSP1. unfold dstp. rewrite !map_app. reflexivity.
Qed.
Lemma b1Pre_ok h i : length h = 32%nat -> Forall is_byte h ->
  determ (shaOf (b1Preimage (F8 h) i)) (F8 (sha256 (h ++ I2OSP (Z.of_nat i) 1 ++ dstp))).
Proof.
  intros Hh F. rewrite b1Pre_eq by exact Hh. apply shaOf_det.
  - apply Forall_app. split; [exact F|]. apply Forall_app. split; [apply be_bytes_byte | exact dstp_byte].
  - rewrite !app_length, Hh, dstp_len, I2OSP1. cbn [length]. reflexivity.
Qed.
Lemma b0Pre_eq m len : length m = 32%nat ->
  b0Preimage (F8 m) len = F8 (I2OSP 0 64 ++ m ++ I2OSP (Z.of_nat len) 2 ++ I2OSP 0 1 ++ dstp).
Proof.
  intros Hm. unfold b0Preimage, Sha256BlockSize, SignRootSize. rewrite map_nth_all by now rewrite map_length.
  rewrite dstBytes_eq, I2OSP1, I2OSP2. unfold dstp. rewrite !map_app. rewrite !u8_byte, Z.shiftr_div_pow2 by lia.
  change (2 ^ 8) with 256. reflexivity.
Qed.

Lemma strxor_len a b : length a = 32%nat -> length b = 32%nat -> length (strxor a b) = 32%nat.
Proof. intros Ha Hb. unfold strxor. rewrite map_length, combine_length, Ha, Hb. reflexivity. Qed.
Lemma lxor_byte a b : is_byte a -> is_byte b -> is_byte (Z.lxor a b).
Proof.
  unfold is_byte. intros Ha Hb. assert (0 <= Z.lxor a b) by (apply Z.lxor_nonneg; lia). split; [assumption|].
  apply (bits_range 8); try lia. intros i Hi. rewrite Z.lxor_spec, (high_bit 8 a), (high_bit 8 b) by lia. reflexivity.
Qed.
Lemma strxor_nth a b j : length a = 32%nat -> length b = 32%nat -> (j < 32)%nat ->
  nth j (strxor a b) 0 = Z.lxor (nth j a 0) (nth j b 0).
Proof.
  intros Ha Hb Hj. unfold strxor. change 0 with ((fun p => Z.lxor (fst p) (snd p)) (0, 0)) at 1. rewrite map_nth.
  rewrite combine_nth by lia. reflexivity.
Qed.
Lemma strxor_byte a b : Forall is_byte a -> Forall is_byte b -> Forall is_byte (strxor a b).
Proof.
  intros Fa Fb. apply Forall_forall. intros z Hz. apply in_map_iff in Hz. destruct Hz as ([x y] & <- & Hxy). cbn [fst snd].
  pose proof (in_combine_l _ _ _ _ Hxy) as I1. pose proof (in_combine_r _ _ _ _ Hxy) as I2. rewrite Forall_forall in Fa, Fb. apply lxor_byte; auto.
Qed.
Lemma nth_F8 l j : nth j (F8 l) fr0 = ofZ rBN (nth j l 0).
Proof. exact (map_nth (ofZ rBN) l 0 j). Qed.
Lemma asUint_byte z : is_byte z -> determ (asUint 8 (ofZ rBN z)) (bitsF 8 z).
Proof.
  unfold is_byte. intros Hz. assert (Q : 256 < rBN) by reflexivity. assert (E : fval (ofZ rBN z) = z) by (rewrite fval_ofZ; apply Z.mod_small; lia).
  rewrite <- E at 2. apply (determ_ToBinary 8); [vm_compute; discriminate|]. rewrite E. apply Hz.
Qed.
Lemma xorBytes_det a b : length a = 32%nat -> length b = 32%nat -> Forall is_byte a -> Forall is_byte b ->
  determ (xorBytes (F8 a) (F8 b)) (F8 (strxor a b)).
Proof.
  intros La Lb Fa Fb. unfold xorBytes.
  rewrite <- (map_nth_all (F8 (strxor a b)) fr0 32) by (rewrite map_length; now apply strxor_len).
  apply determ_mmap. intros j Hj. apply in_seq in Hj. rewrite !nth_F8, strxor_nth by (assumption || lia).
  assert (Ba : is_byte (nth j a 0)) by (apply Forall_nth'; [exact Fa | lia]).
  assert (Bb : is_byte (nth j b 0)) by (apply Forall_nth'; [exact Fb | lia]).
  eapply determ_bind; [apply asUint_byte, Ba|]. eapply determ_bind; [apply asUint_byte, Bb|].
  eapply determ_bind; [exact (u_xor_det 8 [nth j a 0; nth j b 0])|]. cbn [fold_left].
  assert (E : fromUint (bitsF 8 (Z.lxor (Z.lxor 0 (nth j a 0)) (nth j b 0))) = ofZ rBN (Z.lxor (nth j a 0) (nth j b 0))).
  { rewrite Z.lxor_0_l. apply (FromBinary_bits_small 8). now apply lxor_byte. }
  rewrite E. apply determ_ret.
Qed.

Lemma map_ext_seq_const {A} (c : A) a b n : map (fun _ : nat => c) (seq a n) = map (fun _ => c) (seq b n).
Proof. revert a b. induction n as [|n IH]; intros a b; cbn [seq map]; [reflexivity|]. f_equal. apply IH. Qed.
Lemma reach_weaken {A} (c : Circ A) (P Q : A -> Prop) : reach c P -> (forall a, P a -> Q a) -> reach c Q.
Proof. intros (a & D & H) W. exists a. auto. Qed.
(** the loop from block i on, [n] blocks to go *)
Lemma xmd_loop b0 len n : forall i prev pre, length b0 = 32%nat -> Forall is_byte b0 -> length prev = 32%nat -> Forall is_byte prev ->
  (2 <= i)%nat -> length pre = (32 * (i - 1))%nat -> len = (32 * (i - 1 + n))%nat ->
  reach (mfold (xmdStep (F8 b0) len) (seq i n) (F8 prev, F8 pre ++ map (fun _ => u8 0) (seq 0 (32 * n))))
        (fun st => snd st = F8 (pre ++ xmd_blocks n (Z.of_nat i) b0 prev dstp)).
Proof.
  induction n as [|n IH]; intros i prev pre L0 F0 Lp Fp Hi Lpre Hlen; cbn [seq mfold xmd_blocks].
  - apply reach_ret. cbn [snd]. now rewrite !app_nil_r.
  - set (bi := sha256 (strxor b0 prev ++ I2OSP (Z.of_nat i) 1 ++ dstp)).
    unfold xmdStep at 1. eapply reach_bind with (P := fun st => fst st = F8 bi /\ snd st = F8 (pre ++ bi) ++ map (fun _ => u8 0) (seq 0 (32 * n))).
    + eapply det_bind; [apply xorBytes_det; assumption|].
      eapply det_bind; [apply b1Pre_ok; [now apply strxor_len | now apply strxor_byte]|]. fold bi.
      apply reach_ret. cbn [fst snd]. split; [reflexivity|]. unfold copySlice, Sha256Size.
      rewrite Nat.min_l by lia. rewrite <- Lpre.
      assert (Lbi : length bi = 32%nat) by apply sha256_len.
      rewrite <- (map_length (ofZ rBN) pre) at 1. rewrite firstn_app, firstn_all, Nat.sub_diag, firstn_O, app_nil_r.
      replace (32 * i - length pre)%nat with 32%nat by lia. rewrite (firstn_all2 (F8 bi)) by (rewrite map_length; lia).
      rewrite map_app, <- app_assoc. do 2 f_equal.
      rewrite skipn_app, skipn_all2 by (rewrite map_length; lia). cbn [app]. rewrite map_length.
      replace (32 * i - length pre)%nat with 32%nat by lia. rewrite skipn_map.
      replace (32 * S n)%nat with (32 + 32 * n)%nat by lia. rewrite seq_app. rewrite skipn_app, skipn_all2 by (rewrite seq_length; lia).
      rewrite seq_length, Nat.sub_diag. cbn [app skipn]. apply map_ext_seq_const.
    + intros [b1 prb] (E1 & E2). cbn [fst snd] in E1, E2. subst b1 prb.
      eapply reach_weaken.
      * apply (IH (S i) bi (pre ++ bi)); try assumption; try lia; [apply sha256_len | apply sha256_byte|].
        rewrite app_length. assert (Lbi : length bi = 32%nat) by apply sha256_len. lia.
      * intros [x y] E. cbn [snd] in *. rewrite E, <- app_assoc. now rewrite Nat2Z.inj_succ.
Qed.

Lemma div32 c : ((c * 64 + 32 - 1) / 32 = 2 * c)%nat.
Proof. replace (c * 64 + 32 - 1)%nat with (31 + 2 * c * 32)%nat by lia. rewrite Nat.div_add by lia. reflexivity. Qed.
Lemma xmd_blocks_len n : forall i b0 prev d, length (xmd_blocks n i b0 prev d) = (32 * n)%nat.
Proof. induction n as [|n IH]; intros; cbn [xmd_blocks]; [reflexivity|]. rewrite app_length, IH, sha256_len. lia. Qed.
Lemma xmd_spec_some m count : (1 <= count <= 127)%nat ->
  let b0 := sha256 (I2OSP 0 64 ++ m ++ I2OSP (Z.of_nat (count * 64)) 2 ++ I2OSP 0 1 ++ dstp) in
  let b1 := sha256 (b0 ++ I2OSP 1 1 ++ dstp) in
  expand_message_xmd m dstZ (64 * Z.of_nat count) = Some (b1 ++ xmd_blocks (2 * count - 1) 2 b0 b1 dstp).
Proof.
  intros Hc b0 b1. unfold expand_message_xmd. cbv zeta.
  assert (El : (64 * Z.of_nat count + b_in_bytes - 1) / b_in_bytes = 2 * Z.of_nat count).
  { unfold b_in_bytes. replace (64 * Z.of_nat count + 32 - 1) with (31 + 2 * Z.of_nat count * 32) by lia. rewrite Z.div_add by lia. reflexivity. }
  rewrite El, dst_len.
  replace (255 <? 2 * Z.of_nat count) with false by (symmetry; apply Z.ltb_ge; lia).
  replace (65535 <? 64 * Z.of_nat count) with false by (symmetry; apply Z.ltb_ge; lia).
  replace (255 <? Z.of_nat 43) with false by reflexivity. cbn [orb].
  replace (I2OSP (Z.of_nat 43) 1) with [43] by reflexivity. fold dstp.
  replace (64 * Z.of_nat count) with (Z.of_nat (count * 64)) by lia.
  unfold s_in_bytes. fold b0. fold b1. f_equal. rewrite Nat2Z.id. replace (Z.to_nat (2 * Z.of_nat count - 1)) with (2 * count - 1)%nat by lia.
  apply firstn_all2. rewrite app_length, xmd_blocks_len. unfold b1. rewrite sha256_len. lia.
Qed.
Lemma xmd_det m count out : length m = 32%nat -> Forall is_byte m -> (1 <= count <= 127)%nat ->
  expand_message_xmd m dstZ (64 * Z.of_nat count) = Some out ->
  determ (ExpandMsgXmd (F8 m) count) (F8 out).
Proof.
  intros Hm Fm Hc Eo. rewrite xmd_spec_some in Eo by exact Hc. injection Eo as <-.
  unfold ExpandMsgXmd, L, Sha256Size. rewrite div32.
  set (msgp := I2OSP 0 64 ++ m ++ I2OSP (Z.of_nat (count * 64)) 2 ++ I2OSP 0 1 ++ dstp).
  assert (Fmp : Forall is_byte msgp).
  { unfold msgp. do 4 (apply Forall_app; split; [first [apply be_bytes_byte | exact Fm]|]). exact dstp_byte. }
  assert (Lmp : length msgp = 143%nat).
  { unfold msgp. rewrite !app_length, Hm, dstp_len. unfold I2OSP, be_bytes. rewrite !map_length, !seq_length. reflexivity. }
  eapply determ_bind.
  { rewrite b0Pre_eq by exact Hm. apply shaOf_det; [exact Fmp|]. fold msgp. rewrite Lmp. reflexivity. }
  fold msgp. set (b0 := sha256 msgp).
  assert (L0 : length b0 = 32%nat) by apply sha256_len. assert (F0 : Forall is_byte b0) by apply sha256_byte.
  eapply determ_bind; [apply b1Pre_ok; assumption|].
  change (Z.of_nat 1) with 1. set (b1 := sha256 (b0 ++ I2OSP 1 1 ++ dstp)).
  assert (L1 : length b1 = 32%nat) by apply sha256_len. assert (F1 : Forall is_byte b1) by apply sha256_byte.
  replace (Nat.leb 32 (count * 64)) with true by (symmetry; apply Nat.leb_le; lia). cbn [assert].
  eapply determ_bind; [apply determ_ret|]. cbv zeta.
  rewrite map_nth_all by now rewrite map_length.
  assert (Es : map (fun _ : nat => u8 0) (seq 32 (count * 64 - 32)) = map (fun _ => u8 0) (seq 0 (32 * (2 * count - 1)))).
  { replace (32 * (2 * count - 1))%nat with (count * 64 - 32)%nat by lia. apply map_ext_seq_const. }
  rewrite Es.
  destruct (xmd_loop b0 (count * 64) (2 * count - 1) 2 b1 b1 L0 F0 L1 F1 ltac:(lia) ltac:(lia) ltac:(lia)) as ([x y] & D & E).
  cbn [snd] in E. eapply determ_bind; [exact D|]. cbv beta iota. rewrite E. apply determ_ret.
Qed.

(** *** bytes of the message are forced *)
Lemma In_nth32 (msg : list Fr) i : (i < length msg)%nat -> length msg = 32%nat -> In (nth i msg fr0) (map (fun i => nth i msg fr0) (seq 0 SignRootSize)).
Proof. intros Hi E. unfold SignRootSize. rewrite map_nth_all by exact E. now apply nth_In. Qed.
Lemma xmd_bytes msg count o : length msg = 32%nat -> sat (ExpandMsgXmd msg count) o -> Forall byteF msg.
Proof.
  intros Hm H. unfold ExpandMsgXmd in H. cbv zeta in H. apply sat_bind in H. destruct H as (b0 & H & _).
  unfold shaOf in H. apply sat_bind in H. destruct H as (d & H & _). apply Write_bytes in H.
  unfold b0Preimage in H. apply Forall_app in H. destruct H as (_ & H). apply Forall_app in H. destruct H as (H & _).
  unfold SignRootSize in H. rewrite map_nth_all in H by exact Hm. exact H.
Qed.
Lemma xmd_honest msg count out : length msg = 32%nat -> Forall byteF msg -> (1 <= count <= 127)%nat ->
  expand_message_xmd (map fval msg) dstZ (64 * Z.of_nat count) = Some out ->
  determ (ExpandMsgXmd msg count) (F8 out).
Proof.
  intros Hm F Hc E. destruct (F8_of msg F) as (E1 & F1). rewrite E1. apply xmd_det; [now rewrite map_length | exact F1 | exact Hc | exact E].
Qed.
Lemma xmd_total m count : (1 <= count <= 127)%nat ->
  exists out, expand_message_xmd m dstZ (64 * Z.of_nat count) = Some out /\ length out = (64 * count)%nat /\ Forall is_byte out.
Proof.
  intros Hc. eexists. split; [apply xmd_spec_some; exact Hc|]. split.
  - rewrite app_length, xmd_blocks_len, sha256_len. lia.
  - apply Forall_app. split; [apply sha256_byte|]. generalize (2 * count - 1)%nat as n. intros n.
    generalize 2. revert n. assert (G : forall n i b0 prev, Forall is_byte (xmd_blocks n i b0 prev dstp)).
    { induction n as [|n IH]; intros; cbn [xmd_blocks]; [constructor|]. apply Forall_app. split; [apply sha256_byte | apply IH]. }
    intros. apply G.
Qed.
Lemma xmd_sat msg count o : length msg = 32%nat -> (1 <= count <= 127)%nat -> sat (ExpandMsgXmd msg count) o ->
  Forall byteF msg /\ exists out, expand_message_xmd (map fval msg) dstZ (64 * Z.of_nat count) = Some out /\ o = F8 out.
Proof.
  intros Hm Hc H. pose proof (xmd_bytes msg count o Hm H) as F. split; [exact F|].
  destruct (xmd_total (map fval msg) count Hc) as (out & E & _). exists out. split; [exact E|].
  exact (proj2 (xmd_honest msg count out Hm F Hc E) o H).
Qed.
Lemma xmd_run msg count : length msg = 32%nat -> Forall byteF msg -> (1 <= count <= 127)%nat ->
  exists out, expand_message_xmd (map fval msg) dstZ (64 * Z.of_nat count) = Some out /\ run (ExpandMsgXmd msg count) = Some (F8 out).
Proof.
  intros Hm F Hc. destruct (xmd_total (map fval msg) count Hc) as (out & E & _). exists out. split; [exact E|].
  exact (proj1 (xmd_honest msg count out Hm F Hc E)).
Qed.

(** *** 64-bit limbs *)
Lemma bitsF_app n m a b : 0 <= a < 2 ^ Z.of_nat n -> bitsF (n + m) (a + 2 ^ Z.of_nat n * b) = bitsF n a ++ bitsF m b.
Proof.
  revert a. induction n as [|n IH]; intros a Ha.
  - cbn [Nat.add]. change (2 ^ Z.of_nat 0) with 1 in *. replace (a + 1 * b) with b by lia. reflexivity.
  - cbn [Nat.add]. rewrite !bitsF_S. cbn [app]. rewrite Nat2Z.inj_succ, Z.pow_succ_r in * by lia.
    replace (a + 2 * 2 ^ Z.of_nat n * b) with (a + (2 ^ Z.of_nat n * b) * 2) by ring.
    rewrite Z.div_add by lia. rewrite <- IH by (split; [apply Z.div_pos; lia | apply Z.div_lt_upper_bound; lia]).
    f_equal. f_equal. rewrite Z.odd_add, (Z.mul_comm _ 2), Z.odd_mul. cbn [Z.odd andb]. now rewrite xorb_false_r.
Qed.
Lemma OS2IP_app a b : OS2IP (a ++ b) = OS2IP a * 256 ^ Z.of_nat (length b) + OS2IP b.
Proof.
  unfold OS2IP. rewrite fold_left_app. generalize (fold_left (fun a b => 256 * a + b) a 0). intros z.
  assert (G : forall b z, fold_left (fun a b => 256 * a + b) b z = z * 256 ^ Z.of_nat (length b) + fold_left (fun a b => 256 * a + b) b 0).
  { clear. induction b as [|x b IH]; intros z; cbn [fold_left length].
    - change (256 ^ Z.of_nat 0) with 1. ring.
    - rewrite IH, (IH (256 * 0 + x)), Nat2Z.inj_succ, Z.pow_succ_r by lia. ring. }
  apply G.
Qed.
Lemma OS2IP_range l : Forall is_byte l -> 0 <= OS2IP l < 256 ^ Z.of_nat (length l).
Proof.
  induction l as [|x l IH] using rev_ind; intros F; [change (256 ^ Z.of_nat (length (@nil Z))) with 1; cbn; lia|].
  apply Forall_app in F. destruct F as (F & Fx). apply Forall_inv in Fx. unfold is_byte in Fx. specialize (IH F).
  rewrite OS2IP_app, app_length. cbn [length]. change (256 ^ Z.of_nat 1) with 256. change (OS2IP [x]) with x.
  rewrite Nat.add_1_r, Nat2Z.inj_succ, Z.pow_succ_r by lia. lia.
Qed.
Lemma bits_concat l : Forall is_byte l -> List.concat (rev (map (bitsF 8) l)) = bitsF (8 * length l) (OS2IP l).
Proof.
  induction l as [|x l IH] using rev_ind; intros F; [reflexivity|].
  apply Forall_app in F. destruct F as (F & Fx). apply Forall_inv in Fx. specialize (IH F).
  rewrite map_app, rev_app_distr. cbn [map rev app List.concat]. rewrite IH.
  rewrite app_length. cbn [length]. replace (8 * (length l + 1))%nat with (8 + 8 * length l)%nat by lia.
  rewrite OS2IP_app. cbn [length]. change (OS2IP [x]) with x. change (256 ^ Z.of_nat 1) with (2 ^ Z.of_nat 8).
  rewrite Z.add_comm, (Z.mul_comm (OS2IP l)). rewrite bitsF_app by exact Fx. reflexivity.
Qed.
Lemma GetUint64_det l : Forall is_byte l -> length l = 8%nat -> determ (GetUint64From8Bytes (F8 l)) (ofZ rBN (OS2IP l)).
Proof.
  intros F Hl. unfold GetUint64From8Bytes. eapply determ_bind with (a := map (bitsF 8) l).
  - rewrite mmap_map. apply determ_mmap. intros z Hz. rewrite Forall_forall in F. exact (asUint_byte z (F z Hz)).
  - rewrite bits_concat, Hl by exact F.
    replace (fromUint (bitsF (8 * 8) (OS2IP l))) with (ofZ rBN (OS2IP l)); [apply determ_ret|].
    symmetry. apply (FromBinary_bits_small (8 * 8)). pose proof (OS2IP_range l F) as R. rewrite Hl in R. exact R.
Qed.
Lemma recompose_blocks n : forall b, Forall is_byte b -> length b = (8 * n)%nat ->
  recompose64 (map (fun j => OS2IP (firstn 8 (skipn (8 * (n - 1 - j)) b))) (seq 0 n)) = OS2IP b.
Proof.
  induction n as [|n IH]; intros b F Hb; [destruct b; [reflexivity | cbn in Hb; lia]|].
  cbn [seq map recompose64]. rewrite <- seq_shift, map_map.
  replace (S n - 1 - 0)%nat with n by lia.
  pose (b' := firstn (8 * n) b). pose (t := skipn (8 * n) b).
  assert (Eb : b = b' ++ t) by (symmetry; apply firstn_skipn).
  assert (Lb' : length b' = (8 * n)%nat) by (unfold b'; rewrite firstn_length; lia).
  assert (Lt : length t = 8%nat) by (unfold t; rewrite skipn_length; lia).
  fold t. rewrite (firstn_all2 t) by lia.
  rewrite (map_ext_in _ (fun j => OS2IP (firstn 8 (skipn (8 * (n - 1 - j)) b')))).
  - rewrite IH; [|rewrite Eb in F; apply Forall_app in F; tauto | exact Lb'].
    rewrite Eb. rewrite OS2IP_app, Lt. change (256 ^ Z.of_nat 8) with (2 ^ 64). ring.
  - intros j Hj. apply in_seq in Hj. f_equal. replace (S n - 1 - S j)%nat with (n - 1 - j)%nat by lia.
    rewrite Eb at 1. rewrite skipn_app, firstn_app. rewrite skipn_length, Lb'.
    replace (8 - (8 * n - 8 * (n - 1 - j)))%nat with 0%nat by lia. rewrite firstn_O, app_nil_r. reflexivity.
Qed.

Lemma skipn_skipn' {A} (l : list A) a : forall b, skipn a (skipn b l) = skipn (b + a) l.
Proof. intros b. revert l. induction b as [|b IH]; intros [|x l]; cbn [skipn Nat.add]; try reflexivity; [now rewrite skipn_nil | apply IH]. Qed.
Lemma skipn_slice {A} (l : list A) i a n m : (a + n <= m)%nat -> firstn n (skipn a (firstn m (skipn i l))) = firstn n (skipn (i + a) l).
Proof.
  intros H. rewrite skipn_firstn_comm, firstn_firstn, Nat.min_l by lia. now rewrite skipn_skipn'.
Qed.
Definition limbsOf (emx : list Z) (i : nat) : list Fr :=
  map (fun j => ofZ rBN (OS2IP (firstn 8 (skipn (64 * (i + 1) - 8 * (j + 1)) emx)))) (seq 0 8).
Lemma limbs_det emx i : Forall is_byte emx -> (64 * (i + 1) <= length emx)%nat ->
  determ (mmap (fun j => GetUint64From8Bytes (firstn 8 (skipn (64 * (i + 1) - 8 * (j + 1)) (F8 emx)))) (seq 0 8)) (limbsOf emx i).
Proof.
  intros F Hi. apply determ_mmap. intros j Hj. apply in_seq in Hj. rewrite skipn_map, firstn_map.
  apply GetUint64_det; [now apply Forall_firstn', Forall_skipn'|]. rewrite firstn_length, skipn_length. lia.
Qed.
Lemma limbs_val emx i : Forall is_byte emx -> (64 * (i + 1) <= length emx)%nat ->
  recompose64 (map fval (limbsOf emx i)) = OS2IP (firstn 64 (skipn (64 * i) emx)).
Proof.
  intros F Hi. unfold limbsOf. rewrite map_map.
  set (b := firstn 64 (skipn (64 * i) emx)).
  rewrite <- (recompose_blocks 8 b).
  - f_equal. apply map_ext_in. intros j Hj. apply in_seq in Hj. rewrite fval_ofZ. unfold b.
    rewrite skipn_slice by lia. replace (64 * i + 8 * (8 - 1 - j))%nat with (64 * (i + 1) - 8 * (j + 1))%nat by lia.
    apply Z.mod_small. set (l := firstn 8 (skipn (64 * (i + 1) - 8 * (j + 1)) emx)).
    assert (Hl : length l = 8%nat) by (unfold l; rewrite firstn_length, skipn_length; lia).
    pose proof (OS2IP_range l ltac:(unfold l; now apply Forall_firstn', Forall_skipn')) as R. rewrite Hl in R.
    assert (Q : 256 ^ Z.of_nat 8 < rBN) by reflexivity. lia.
  - unfold b. now apply Forall_firstn', Forall_skipn'.
  - unfold b. rewrite firstn_length, skipn_length. lia.
Qed.
Definition coordZ (emx : list Z) (k : nat) : Z := OS2IP (firstn 64 (skipn (64 * k) emx)) mod pBLS.
Lemma pBLS_lt : 0 < pBLS < 2 ^ 381. Proof. split; reflexivity. Qed.
Lemma fieldElement_run emx i : Forall is_byte emx -> (64 * (i + 1) <= length emx)%nat ->
  run (fieldElement (F8 emx) i) = Some (fpZ (coordZ emx i)).
Proof.
  intros F Hi. unfold fieldElement. rewrite run_bind, (proj1 (limbs_det emx i F Hi)).
  unfold GetRawLimbsBy8Uint64. rewrite limbs_val by assumption. fold (coordZ emx i).
  pose proof (Z.mod_pos_bound (OS2IP (firstn 64 (skipn (64 * i) emx))) pBLS (proj1 pBLS_lt)) as R. fold (coordZ emx i) in R.
  cbn [run]. pose proof pBLS_lt.
  replace ((0 <=? coordZ emx i) && (coordZ emx i <? 2 ^ 381)) with true; [reflexivity|].
  symmetry. apply andb_true_iff. rewrite Z.leb_le, Z.ltb_lt. lia.
Qed.
Lemma fieldElement_sat emx i (x : Fp) : Forall is_byte emx -> (64 * (i + 1) <= length emx)%nat -> sat (fieldElement (F8 emx) i) x.
Proof.
  intros F Hi. unfold fieldElement. apply sat_bind. exists (limbsOf emx i). split; [apply run_sat, (proj1 (limbs_det emx i F Hi))|].
  unfold GetRawLimbsBy8Uint64. exists (fval x). pose proof (fval_range x (proj1 pBLS_lt)). pose proof pBLS_lt.
  apply sat_assert_bind. split; [apply andb_true_iff; rewrite Z.leb_le, Z.ltb_lt; lia|]. apply fval_inj. unfold fpZ. rewrite fval_ofZ. apply fval_mod.
Qed.
Lemma run_mmap {A C} (f : A -> Circ C) (g : A -> C) l : (forall x, In x l -> run (f x) = Some (g x)) -> run (mmap f l) = Some (map g l).
Proof.
  induction l as [|x l IH]; intros H; cbn [mmap map]; [reflexivity|]. rewrite run_bind, (H x (or_introl eq_refl)).
  rewrite run_bind, IH by (intros y Hy; apply H; now right). reflexivity.
Qed.
Lemma sat_mmap {A C} (f : A -> Circ C) l : forall ys, length ys = length l ->
  (forall x y, In x l -> sat (f x) y) -> sat (mmap f l) ys.
Proof.
  induction l as [|x l IH]; intros ys Hl H; cbn [mmap]; (destruct ys as [|y ys]; [try discriminate|]); try discriminate; [reflexivity|].
  apply sat_bind. exists y. split; [apply H; now left|]. apply sat_bind. exists ys. split; [|reflexivity].
  apply IH; [now injection Hl|]. intros x' y' Hx. apply H. now right.
Qed.
Definition pairE2 (c : Z * Z) : E2 := mkE2 (fpZ (fst c)) (fpZ (snd c)).
Lemma htf_run msg n : length msg = 32%nat -> Forall byteF msg -> (1 <= n <= 63)%nat ->
  exists cs, hash_to_field pBLS (map fval msg) dstZ n = Some cs /\ run (HashToField msg (2 * n)) = Some (map pairE2 cs).
Proof.
  intros Hm F Hn. destruct (xmd_total (map fval msg) (2 * n) ltac:(lia)) as (out & E & Lo & Fo).
  unfold hash_to_field. replace (Z.of_nat n * 2 * 64) with (64 * Z.of_nat (2 * n)) by lia. rewrite E. eexists. split; [reflexivity|].
  unfold HashToField. rewrite run_bind, (proj1 (xmd_honest msg (2 * n) out Hm F ltac:(lia) E)).
  rewrite run_bind, (run_mmap _ (fun i => fpZ (coordZ out i))).
  - cbn [run]. f_equal. rewrite map_map. rewrite (Nat.mul_comm 2 n), Nat.div_mul by lia. apply map_ext_in. intros i Hi. apply in_seq in Hi.
    unfold pairE2. cbn [fst snd]. rewrite !nth_map_seq by lia. rewrite (Nat.mul_comm i 2). reflexivity.
  - intros i Hi. apply in_seq in Hi. apply fieldElement_run; [exact Fo | lia].
Qed.
Lemma htf_free msg n (es : list E2) : length msg = 32%nat -> Forall byteF msg -> (1 <= n <= 63)%nat -> length es = n ->
  sat (HashToField msg (2 * n)) es.
Proof.
  intros Hm F Hn He. destruct (xmd_total (map fval msg) (2 * n) ltac:(lia)) as (out & E & Lo & Fo).
  unfold HashToField. apply sat_bind. exists (F8 out). split; [apply run_sat, (proj1 (xmd_honest msg (2 * n) out Hm F ltac:(lia) E))|].
  apply sat_bind. exists (flat_map (fun e => [A0 e; A1 e]) es).
  assert (Lf : forall l : list E2, length (flat_map (fun e => [A0 e; A1 e]) l) = (2 * length l)%nat).
  { induction l as [|e l IH]; cbn [flat_map]; [reflexivity|]. rewrite app_length, IH. cbn [length]. lia. }
  split.
  - apply sat_mmap; [rewrite Lf, seq_length; lia|]. intros i y Hi. apply in_seq in Hi. apply fieldElement_sat; [exact Fo | lia].
  - assert (G : map (fun n0 => mkE2 (nth (n0 * 2) (flat_map (fun e => [A0 e; A1 e]) es) fp0) (nth (n0 * 2 + 1) (flat_map (fun e => [A0 e; A1 e]) es) fp0)) (seq 0 (2 * n / 2)) = es); [|exact G].
    rewrite (Nat.mul_comm 2 n), Nat.div_mul by lia. rewrite <- He. clear. induction es as [|e es IH]; [reflexivity|].
    cbn [length seq map]. rewrite <- seq_shift, map_map. f_equal; [destruct e; reflexivity|]. etransitivity; [|exact IH].
    apply map_ext. intros i. cbn [Nat.mul Nat.add flat_map app]. reflexivity.
Qed.
Lemma htf_bound_refuted msg n : length msg = 32%nat -> Forall byteF msg -> (1 <= n <= 63)%nat ->
  exists es, sat (HashToField msg (2 * n)) es /\
    (forall cs, hash_to_field pBLS (map fval msg) dstZ n = Some cs -> es <> map pairE2 cs).
Proof.
  intros Hm F Hn. destruct (htf_run msg n Hm F Hn) as (cs & E & _).
  assert (S0 := htf_free msg n (repeat E2_Zero n) Hm F Hn (repeat_length _ _)).
  assert (S1 := htf_free msg n (repeat E2_One n) Hm F Hn (repeat_length _ _)).
  destruct n as [|n]; [lia|]. cbn [repeat] in S0, S1. destruct cs as [|c cs].
  - eexists. split; [exact S0|]. intros cs' E'. rewrite E in E'. injection E' as <-. discriminate.
  - destruct (feq_dec (A0 (pairE2 c)) fp0) as [Z0|Z0].
    + eexists. split; [exact S1|]. intros cs' E'. rewrite E in E'. injection E' as <-. cbn [map]. intros Q.
      assert (Q1 : hd E2_Zero (E2_One :: repeat E2_One n) = hd E2_Zero (pairE2 c :: map pairE2 cs)) by now rewrite Q. cbn [hd] in Q1.
      rewrite <- Q1 in Z0. vm_compute in Z0. discriminate.
    + eexists. split; [exact S0|]. intros cs' E'. rewrite E in E'. injection E' as <-. cbn [map]. intros Q.
      assert (Q1 : hd E2_Zero (E2_Zero :: repeat E2_Zero n) = hd E2_Zero (pairE2 c :: map pairE2 cs)) by now rewrite Q. cbn [hd] in Q1.
      apply Z0. rewrite <- Q1. reflexivity.
Qed.
Lemma htf_sat_bytes msg count es : length msg = 32%nat -> sat (HashToField msg count) es -> Forall byteF msg /\ length es = (count / 2)%nat.
Proof.
  intros Hm H. unfold HashToField in H. apply sat_bind in H. destruct H as (emx & H1 & H). split; [exact (xmd_bytes _ _ _ Hm H1)|].
  apply sat_bind in H. destruct H as (u & _ & H). apply sat_ret_inv in H. subst es. now rewrite map_length, seq_length.
Qed.
Lemma xmd_zero msg o : ~ sat (ExpandMsgXmd msg 0) o.
Proof.
  unfold ExpandMsgXmd. cbv zeta. intros H. apply sat_bind in H. destruct H as (b0 & _ & H). apply sat_bind in H. destruct H as (b1 & _ & H).
  apply sat_assert_bind in H. destruct H as (H & _). discriminate.
Qed.
Transparent sha256.
Definition quux : list Z := bytesOf "QUUX-V01-CS02-with-expander-SHA256-128".
(** RFC 9380 K.1, msg = "abc", len_in_bytes = 0x20 *)
Lemma rfc_vector : expand_message_xmd [97; 98; 99] quux 32 = Some
  [0xd8;0xcc;0xab;0x23;0xb5;0x98;0x5c;0xce;0xa8;0x65;0xc6;0xc9;0x7b;0x6e;0x5b;0x83;
   0x50;0xe7;0x94;0xe6;0x03;0xb4;0xb9;0x79;0x02;0xf5;0x3a;0x8a;0x0d;0x60;0x56;0x15].
Proof. vm_compute. reflexivity. Qed.
