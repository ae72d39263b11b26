(** Accepted executions of both circuits, from the accepted pairing check of
    MillerWit.v: ten keys with sum the generator, all signing, and the
    signature equal to the hash point. *)
From Coq Require Import ZArith NArith List Bool Lia.
From Verif Require Import Params ZMod RingPow Circuit Api Emulated ApiFacts FieldFacts Tower TowerSpec TowerFacts Pairing CurveSpec HashField HashFieldSpec HashG2 G2 G2Spec G2Jac Poseidon PoseidonSpec Bls BlsSpec BlsProofs BlsExamples BlsRefute CircuitSpec CircuitProofs HashWit HashTop MillerWit.
Import ListNotations.
Open Scope Z_scope.

Local Opaque PairingCheck HashToG2 AggregatePublicKeys CalculateTrustedWeight ComputeAPKCommitment.
Definition byteW (x : Fr) : Prop := fval x < 256.
Lemma ones_bits : is_bits ones10.
Proof. apply Forall_forall. intros x Hx. right. exact (proj1 (Forall_forall _ _) ones10_1 x Hx). Qed.
Lemma wit6 : Forall key6 witKeys.
Proof. eapply Forall_impl; [|exact witKeys_wf]. intros k [[H1 _] [H2 _]]. now split. Qed.
Lemma signers_ones {A} bits : Forall (fun b => fval b = 1) bits -> forall l : list A, length l = length bits -> signers bits l = l.
Proof.
  unfold signers. induction 1 as [|b bits H _ IH]; intros [|x l] L; try discriminate; [reflexivity|]. cbn [combine filter fst]. rewrite H. cbn [map snd Z.eqb Pos.eqb]. f_equal. apply IH. now injection L.
Qed.
Lemma sw_ones ws : length ws = 10%nat -> signed_weight ones10 ws = zsum (map fval ws).
Proof. intros L. unfold signed_weight. rewrite (signers_ones ones10 ones10_1 ws); [reflexivity|]. rewrite L. reflexivity. Qed.
Lemma addends_ones : forall eng, addends eng ones10 witKeys = map key_xy witKeys.
Proof.
  intros [|]; unfold addends.
  - now rewrite (signers_ones ones10 ones10_1 witKeys) by reflexivity.
  - assert (G : forall bits, Forall (fun b => fval b = 1) bits -> forall l, length l = length bits -> map (fun bk : Fr * G1Key => if fval (fst bk) =? 1 then key_xy (snd bk) else (f0 pBLS, f0 pBLS)) (combine bits l) = map key_xy l).
    { induction 1 as [|b bits H _ IH]; intros [|x l] L; try discriminate; [reflexivity|]. cbn [combine map fst snd]. rewrite H. cbn [Z.eqb Pos.eqb]. f_equal. apply IH. now injection L. }
    apply G; [exact ones10_1 | reflexivity].
Qed.
Lemma wit_apk eng : apk_is eng ones10 witKeys wG.
Proof.
  left. rewrite addends_ones.
  pose proof (run_sat _ _ (proj1 agg_comp_example)) as H. apply (proj1 (agg_sat Compiled witKeys ones10 exW (ofZ rBN 55) (mkG1 (fpZ (fst g1genZ)) (fpZ (snd g1genZ))) eq_refl eq_refl eq_refl)) in H. destruct H as (_ & _ & _ & [H|(E & _)]); [|discriminate].
  rewrite addends_ones in H. exact H.
Qed.
Lemma hash_any m : length m = 32%nat -> Forall byteW m -> sat (HashToG2 m) wR.
Proof. intros L F. apply hashG2_sat; [exact L|]. split; [exact F|]. eexists _, _. exact (run_sat _ _ (proj1 w_hash)). Qed.

Theorem tx_accepted eng mh ws m : length ws = 10%nat -> length m = 32%nat -> Forall byteW m ->
  exists c, txWf c = true /\ sat (txDefine eng c) tt /\ tx_MessageHash c = mh /\ tx_Weights c = ws /\ tx_MsgBytes c = m /\ tx_BitList c = ones10 /\ tx_PublicKeys c = witKeys /\ tx_Signature c = wR.
Proof.
  intros Lw Lm F. destruct (commit_ex witKeys ws eq_refl Lw wit6) as (cm & HC).
  exists (mkTx mh cm (ofZ rBN (zsum (map fval ws))) witKeys wR ones10 ws m).
  assert (W : txWf (mkTx mh cm (ofZ rBN (zsum (map fval ws))) witKeys wR ones10 ws m) = true) by (apply txWf_iff; repeat split; assumption).
  split; [exact W|]. split; [|repeat split]. apply (proj2 (tx_sat eng _ W)). cbn [tx_BitList tx_PublicKeys tx_SignedWeight tx_Weights tx_ApkCommitment tx_MsgBytes tx_Signature].
  split; [exact ones_bits|]. split; [exact witKeys_wf|]. split; [rewrite fval_ofZ, sw_ones by exact Lw; reflexivity|]. split; [exact HC|].
  exists wG, wR. split; [exact (wit_apk eng)|]. split; [exact (hash_any m Lm F) | exact w_check].
Qed.
Lemma wit_trusted : exists z, weight_where counted (positions ones10 witKeys witKeys exW) z.
Proof.
  assert (H : run (CalculateTrustedWeight witKeys witKeys ones10 exW) = Some (ofZ rBN 55)) by (vm_compute; reflexivity). apply run_sat in H.
  apply (proj1 (trusted_general witKeys witKeys ones10 exW eq_refl eq_refl eq_refl eq_refl wit6 wit6 (ofZ rBN 55))) in H. destruct H as (_ & z & Hz & _). now exists z.
Qed.
Theorem ro_accepted eng mh m : length m = 32%nat -> Forall byteW m -> exists cm, set_commit witKeys exW cm /\ exists c,
  roWf c = true /\ Forall key6 (ro_OldPublicKeys c) /\ sat (rotateDefine eng c) tt /\ ro_MessageHash c = mh /\ ro_NewApkCommitmentBytes c = m /\ ro_NewCommitment c = cm /\ ro_BitList c = ones10.
Proof.
  intros Lm F. destruct (commit_ex witKeys exW eq_refl eq_refl wit6) as (cm & HC). exists cm. split; [exact HC|]. destruct wit_trusted as (z & Hz).
  set (c := mkRot mh cm cm m (ofZ rBN z) exW exW witKeys witKeys ones10 wR). exists c.
  assert (W : roWf c = true) by (apply roWf_iff; repeat split; assumption).
  split; [exact W|]. split; [exact wit6|]. split; [|repeat split]. apply (proj2 (rotate_sat eng c W wit6)).
  unfold c. cbn [ro_BitList ro_NewPublicKeys ro_OldPublicKeys ro_OldWeights ro_NewWeights ro_TrustedWeight ro_OldApkCommitment ro_NewCommitment ro_NewApkCommitmentBytes ro_Signature].
  split; [exact ones_bits|]. split; [exact witKeys_wf|]. split; [exists z; split; [exact Hz | apply fval_ofZ]|]. split; [exact HC|]. split; [exact HC|].
  exists wG, wR. split; [exact (wit_apk eng)|]. split; [exact (hash_any m Lm F) | exact w_check].
Qed.

(** ** C41 *)
Lemma zsum_bound l B : Forall (fun z => 0 <= z < B) l -> 0 <= zsum l <= Z.of_nat (length l) * B.
Proof. induction 1 as [|z l H _ IH]; cbn [zsum fold_right length]; [lia|]. fold (zsum l). rewrite Nat2Z.inj_succ, Z.mul_succ_l. lia. Qed.
Lemma signers_Forall {A} (P : A -> Prop) bits : forall l, Forall P l -> Forall P (signers bits l) /\ (length (signers bits l) <= length l)%nat.
Proof.
  unfold signers. induction bits as [|b bits IH]; intros [|x l] F; cbn [combine filter map length]; try (split; [constructor | lia]).
  inversion F; subst. destruct (IH l H2) as (H3 & H4). cbn [fst]. destruct (fval b =? 1); cbn [map snd length]; (split; [try constructor; assumption | lia]).
Qed.
Theorem tx_no_wrap eng c : txWf c = true -> sat (txDefine eng c) tt -> Forall (fun w => fval w < 2 ^ 250) (tx_Weights c) ->
  fval (tx_SignedWeight c) = signed_weight (tx_BitList c) (tx_Weights c).
Proof.
  intros W H B. pose proof (proj1 (txWf_iff c) W) as (_ & _ & Lw & _). destruct (tx_sound eng c W H) as (_ & _ & E & _). rewrite E. apply Z.mod_small.
  unfold signed_weight.
  assert (B' : Forall (fun w : Fr => 0 <= fval w < 2 ^ 250) (tx_Weights c)).
  { eapply Forall_impl; [|exact B]. intros w Hw. split; [|exact Hw]. rewrite <- (fval_mod w). apply Z.mod_pos_bound. reflexivity. }
  destruct (signers_Forall _ (tx_BitList c) _ B') as (F & L). rewrite Lw in L.
  assert (F' : Forall (fun z => 0 <= z < 2 ^ 250) (map fval (signers (tx_BitList c) (tx_Weights c)))) by (apply Forall_map; exact F).
  pose proof (zsum_bound _ _ F') as Z. rewrite map_length in Z. split; [lia|]. apply Z.le_lt_trans with (10 * 2 ^ 250); [|reflexivity].
  etransitivity; [exact (proj2 Z)|]. apply Z.mul_le_mono_nonneg_r; [lia | lia].
Qed.
Definition wrapW : list Fr := map (ofZ rBN) [rBN - 1; 2; 0; 0; 0; 0; 0; 0; 0; 0].
Definition zmsg : list Fr := repeat (ofZ rBN 0) 32.
Definition omsg : list Fr := repeat (ofZ rBN 1) 32.
Lemma zmsg_byte : Forall byteW zmsg. Proof. apply Forall_forall. intros x Hx. apply repeat_spec in Hx. subst. reflexivity. Qed.
Lemma omsg_byte : Forall byteW omsg. Proof. apply Forall_forall. intros x Hx. apply repeat_spec in Hx. subst. reflexivity. Qed.
Theorem tx_wrap eng : exists c, txWf c = true /\ sat (txDefine eng c) tt /\ fval (tx_SignedWeight c) = 1 /\ signed_weight (tx_BitList c) (tx_Weights c) = rBN + 1.
Proof.
  destruct (tx_accepted eng wR wrapW zmsg eq_refl eq_refl zmsg_byte) as (c & W & H & _ & Ew & _ & Eb & _). exists c. split; [exact W|]. split; [exact H|].
  assert (S : signed_weight (tx_BitList c) (tx_Weights c) = rBN + 1) by (rewrite Ew, Eb, sw_ones by reflexivity; vm_compute; reflexivity).
  destruct (tx_sound eng c W H) as (_ & _ & E & _). rewrite S in E. split; [rewrite E; reflexivity | exact S].
Qed.

(** ** C50-C52 *)
Lemma fp_dec (x y : Fp) : {x = y} + {x <> y}. Proof. apply feq_dec. Qed.
Lemma g2_dec (a b : G2Affine) : {a = b} + {a <> b}.
Proof. decide equality; decide equality; apply fp_dec. Qed.
Lemma other_point (o : option G2Affine) : exists mh, o <> Some mh.
Proof.
  destruct o as [R|]; [|exists wR; discriminate]. destruct (g2_dec R wR) as [->|N]; [|exists wR; congruence].
  exists (mkG2 E2_Zero E2_Zero). intros E. apply (f_equal (fun o => match o with Some R => fval (A0 (g2X R)) | None => 0 end)) in E. revert E. vm_compute. discriminate.
Qed.
Theorem tx_hash_wrong eng : exists c, txWf c = true /\ sat (txDefine eng c) tt /\ run (HashToG2 (tx_MsgBytes c)) <> Some (tx_MessageHash c).
Proof.
  destruct (other_point (run (HashToG2 zmsg))) as (mh & N). destruct (tx_accepted eng mh exW zmsg eq_refl eq_refl zmsg_byte) as (c & W & H & Em & _ & Eb & _).
  exists c. split; [exact W|]. split; [exact H|]. now rewrite Em, Eb.
Qed.
Theorem ro_hash_wrong eng : exists c, roWf c = true /\ sat (rotateDefine eng c) tt /\ run (HashToG2 (ro_NewApkCommitmentBytes c)) <> Some (ro_MessageHash c).
Proof.
  destruct (other_point (run (HashToG2 zmsg))) as (mh & N). destruct (ro_accepted eng mh zmsg eq_refl zmsg_byte) as (cm & _ & c & W & _ & H & Em & Eb & _).
  exists c. split; [exact W|]. split; [exact H|]. now rewrite Em, Eb.
Qed.
Theorem tx_two_messages eng : exists c m', txWf c = true /\ sat (txDefine eng c) tt /\ m' <> tx_MsgBytes c /\ length m' = 32%nat /\ sat (txDefine eng (tx_with_msg c m')) tt.
Proof.
  destruct (tx_accepted eng wR exW zmsg eq_refl eq_refl zmsg_byte) as (c & W & H & _ & _ & Eb & _). exists c, omsg. split; [exact W|]. split; [exact H|]. split.
  - rewrite Eb. intros E. apply (f_equal (fun l => fval (hd (f0 rBN) l))) in E. revert E. unfold omsg, zmsg. cbn [repeat hd]. rewrite !fval_ofZ. discriminate.
  - split; [reflexivity|]. exact (tx_replay eng c omsg W eq_refl omsg_byte H).
Qed.
Theorem ro_bytes_wrong eng : exists c, roWf c = true /\ Forall key6 (ro_OldPublicKeys c) /\ sat (rotateDefine eng c) tt /\ OS2IP (map fval (ro_NewApkCommitmentBytes c)) <> fval (ro_NewCommitment c).
Proof.
  destruct (ro_accepted eng wR zmsg eq_refl zmsg_byte) as (cm & HC & c & W & K & H & _ & Eb & Ec & _).
  destruct (ro_accepted eng wR omsg eq_refl omsg_byte) as (cm' & HC' & c' & W' & K' & H' & _ & Eb' & Ec' & _).
  assert (E : cm = cm'). { pose proof (commit_det witKeys exW cm eq_refl eq_refl HC) as D. pose proof (commit_det witKeys exW cm' eq_refl eq_refl HC') as D'. destruct D as [D _], D' as [D' _]. congruence. }
  rewrite <- E in Ec'. destruct (Z.eq_dec (OS2IP (map fval zmsg)) (fval cm)) as [Z|N].
  - exists c'. split; [exact W'|]. split; [exact K'|]. split; [exact H'|]. rewrite Eb', Ec', <- Z. vm_compute. discriminate.
  - exists c. split; [exact W|]. split; [exact K|]. split; [exact H|]. now rewrite Eb, Ec.
Qed.
