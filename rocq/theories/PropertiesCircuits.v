(** Property theorems C47-C55: commitments, the two circuits and the host helpers. *)
From Coq Require Import ZArith List Bool Permutation.
From Verif Require Import Params ZMod Circuit Pairing CurveSpec PoseidonSpec PoseidonEval HashFieldSpec HashG2 Bls BlsSpec BlsExamples BlsRefute
  CircuitSpec CircuitProofs Helpers HelperProofs.
Import ListNotations.
Open Scope Z_scope.

(** C47: the helper's commitment is the circuit's, whatever hash
    implementation meets the contract of go-iden3-crypto. *)
Theorem C47_helper_commitment (hash : list Z -> option Z) (pks : list HostG1) (ws : list Z) :
  iden3_hash hash -> length pks = 10%nat -> length ws = 10%nat -> Forall (fun w => 0 <= w < rBN) ws ->
  exists c, genCommitment hash pks ws = Some c /\ 0 <= c < rBN /\
    determ (ComputeAPKCommitment (NewG1AffineArray pks) (bigIntToVariableArray ws)) (ofZ rBN c).
Proof. exact (commitment_agrees hash pks ws). Qed.
Print Assumptions C47_helper_commitment.
(** a weight that is not below r makes the helper panic; the circuit reduces it *)
Theorem C47_large_weight (hash : list Z -> option Z) (pks : list HostG1) (ws : list Z) :
  iden3_hash hash -> length pks = 10%nat -> length ws = 10%nat -> Exists (fun w => rBN <= w) ws ->
  genCommitment hash pks ws = None.
Proof. exact (commitment_panics hash pks ws). Qed.
Print Assumptions C47_large_weight.
(** the circuit's commitment function: exactly the two-level textbook hash *)
Theorem C47_circuit_commitment (keys : list G1Key) (ws : list Fr) (c : Fr) :
  length keys = 10%nat -> length ws = 10%nat ->
  (sat (ComputeAPKCommitment keys ws) c <-> set_commit keys ws c) /\
  (set_commit keys ws c -> determ (ComputeAPKCommitment keys ws) c).
Proof. exact (fun Lk Lw => conj (commit_sat keys ws c Lk Lw) (commit_det keys ws c Lk Lw)). Qed.
Print Assumptions C47_circuit_commitment.
(** NewG1Affine represents the point: six limbs in range, value the coordinate *)
Theorem C47_encoding (v : HostG1) : 0 <= hX v < pBLS -> 0 <= hY v < pBLS ->
  key_wf (NewG1Affine v) /\ key_point (NewG1Affine v) = Aff (ofZ pBLS (hX v)) (ofZ pBLS (hY v)).
Proof. exact (newG1_ok v). Qed.
Print Assumptions C47_encoding.
(** the contract can be met, and a commitment in numbers *)
Example C47_ex : iden3_hash codeHash /\ genCommitment codeHash (repeat gHost 10) (repeat 5 10) = Some gc5.
Proof. exact (conj codeHash_ok (commit_gc5 codeHash codeHash_ok)). Qed.

(** C48: two different validator sets with one commitment give a collision of
    textbook Poseidon on inputs of equal length. *)
Theorem C48_commitment_binding (keys : list G1Key) (ws : list Fr) (keys' : list G1Key) (ws' : list Fr) (c : Fr) :
  length keys = 10%nat -> length ws = 10%nat -> length keys' = 10%nat -> length ws' = 10%nat ->
  Forall key6 keys -> Forall key6 keys' -> set_commit keys ws c -> set_commit keys' ws' c ->
  keys <> keys' \/ ws <> ws' -> poseidon_collision.
Proof. exact (set_binding keys ws keys' ws' c). Qed.
Print Assumptions C48_commitment_binding.
(** every set of ten keys has a commitment *)
Theorem C48_commitment_exists (keys : list G1Key) (ws : list Fr) : length keys = 10%nat -> length ws = 10%nat -> Forall key6 keys ->
  exists c, set_commit keys ws c.
Proof. exact (commit_ex keys ws). Qed.
Print Assumptions C48_commitment_exists.
Example C48_ex : exists c, set_commit exKeys exW c.
Proof. apply commit_ex; [reflexivity | reflexivity | repeat (apply Forall_cons; [split; reflexivity|]); constructor]. Qed.

(** C49: what an accepted transaction proof says, for either engine and any prover *)
Theorem C49_tx_sound (eng : engine) (c : BLS_BLS12_TX) : txWf c = true -> sat (txDefine eng c) tt ->
  is_bits (tx_BitList c) /\ Forall key_wf (tx_PublicKeys c) /\
  fval (tx_SignedWeight c) = signed_weight (tx_BitList c) (tx_Weights c) mod rBN /\
  set_commit (tx_PublicKeys c) (tx_Weights c) (tx_ApkCommitment c) /\
  Forall (fun x => fval x < 256) (tx_MsgBytes c) /\
  exists apk h, apk_is eng (tx_BitList c) (tx_PublicKeys c) apk /\ sat (HashToG2 (tx_MsgBytes c)) h /\
    pairing_product [(G1neg, tx_Signature c); (apk, h)].
Proof. exact (tx_sound eng c). Qed.
Print Assumptions C49_tx_sound.
(** and exactly when it is accepted *)
Theorem C49_tx_characterised (eng : engine) (c : BLS_BLS12_TX) : txWf c = true ->
  (sat (txDefine eng c) tt <->
   is_bits (tx_BitList c) /\ Forall key_wf (tx_PublicKeys c) /\
   fval (tx_SignedWeight c) = signed_weight (tx_BitList c) (tx_Weights c) mod rBN /\
   set_commit (tx_PublicKeys c) (tx_Weights c) (tx_ApkCommitment c) /\
   exists apk h, apk_is eng (tx_BitList c) (tx_PublicKeys c) apk /\
     sat (HashToG2 (tx_MsgBytes c)) h /\ sat (PairingCheck [G1neg; apk] [tx_Signature c; h]) tt).
Proof. exact (tx_sat eng c). Qed.
Print Assumptions C49_tx_characterised.

(** C53: what an accepted rotation proof says *)
Theorem C53_rotate_sound (eng : engine) (c : BLS_BLS12_ROTATE) :
  roWf c = true -> Forall key6 (ro_OldPublicKeys c) -> sat (rotateDefine eng c) tt ->
  is_bits (ro_BitList c) /\ Forall key_wf (ro_NewPublicKeys c) /\
  (exists z, weight_where counted (positions (ro_BitList c) (ro_NewPublicKeys c) (ro_OldPublicKeys c) (ro_OldWeights c)) z /\
     fval (ro_TrustedWeight c) = z mod rBN) /\
  set_commit (ro_OldPublicKeys c) (ro_OldWeights c) (ro_OldApkCommitment c) /\
  set_commit (ro_NewPublicKeys c) (ro_NewWeights c) (ro_NewCommitment c) /\
  Forall (fun x => fval x < 256) (ro_NewApkCommitmentBytes c) /\
  exists apk h, apk_is eng (ro_BitList c) (ro_NewPublicKeys c) apk /\ sat (HashToG2 (ro_NewApkCommitmentBytes c)) h /\
    pairing_product [(G1neg, ro_Signature c); (apk, h)].
Proof. exact (rotate_sound eng c). Qed.
Print Assumptions C53_rotate_sound.

(** C50: the public input MessageHash is not constrained by either circuit *)
Theorem C50_message_hash_free (eng : engine) (c : BLS_BLS12_TX) (r : BLS_BLS12_ROTATE) (mh : G2Affine) :
  (sat (txDefine eng c) tt -> sat (txDefine eng (tx_with_hash c mh)) tt) /\
  (sat (rotateDefine eng r) tt -> sat (rotateDefine eng (ro_with_hash r mh)) tt).
Proof. exact (conj (tx_any_hash eng c mh) (ro_any_hash eng r mh)). Qed.
Print Assumptions C50_message_hash_free.

(** C51: an accepted transaction proof can be replayed with any other message bytes *)
Theorem C51_tx_replay (eng : engine) (c : BLS_BLS12_TX) (m' : list Fr) :
  txWf c = true -> length m' = 32%nat -> Forall (fun x => fval x < 256) m' ->
  sat (txDefine eng c) tt -> sat (txDefine eng (tx_with_msg c m')) tt.
Proof. exact (tx_replay eng c m'). Qed.
Print Assumptions C51_tx_replay.

(** C52: likewise for the bytes of a rotation, which need not encode the new commitment *)
Theorem C52_rotate_replay (eng : engine) (c : BLS_BLS12_ROTATE) (m' : list Fr) :
  roWf c = true -> Forall key6 (ro_OldPublicKeys c) -> length m' = 32%nat -> Forall (fun x => fval x < 256) m' ->
  sat (rotateDefine eng c) tt -> sat (rotateDefine eng (ro_with_bytes c m')) tt.
Proof. exact (ro_replay eng c m'). Qed.
Print Assumptions C52_rotate_replay.

(** C54: big.Int.Bytes of a commitment has 32 bytes exactly from 2^248 on *)
Theorem C54_message_length_partial (c : Z) : 0 < c < rBN ->
  OS2IP (helperMessage c) = c /\ (length (helperMessage c) <= 32)%nat /\
  (length (helperMessage c) = 32%nat <-> 2 ^ 248 <= c).
Proof. exact (message_length c). Qed.
Print Assumptions C54_message_length_partial.
(** a validator set on the curve, weights below 2^10, whose message has 31 bytes *)
Theorem C54_message_length_refuted : exists pks ws c, length pks = 10%nat /\ length ws = 10%nat /\
  Forall host_ok pks /\ Forall (fun k => oncurve1 (key_point (NewG1Affine k))) pks /\ Forall (fun w => 0 <= w < 2 ^ 10) ws /\
  (forall hash, iden3_hash hash -> genCommitment hash pks ws = Some c) /\
  length (helperMessage c) = 31%nat.
Proof. exact message_short_refuted. Qed.
Print Assumptions C54_message_length_refuted.

(** C55: the helper's trusted weight is the circuit's, when every position is
    kept (key and weight) or gets a key whose abscissa is not among the old ones *)
Theorem C55_helper_trusted_partial (old new : list HostG1) (wo wn bits : list Z) :
  length old = 10%nat -> length new = 10%nat -> length wo = 10%nat -> length wn = 10%nat -> length bits = 10%nat ->
  Forall host_ok old -> Forall host_ok new -> Forall (fun k => k <> mkHost 0 0) old ->
  Forall (fun b => b = 0 \/ b = 1) bits -> Forall (fun w => 0 <= w < 2 ^ 58) wo ->
  (forall i, (i < 10)%nat -> kept_or_fresh old new wo wn i) ->
  determ (CalculateTrustedWeight (NewG1AffineArray old) (NewG1AffineArray new) (bigIntToVariableArray bits) (bigIntToVariableArray wo))
    (ofZ rBN (helperTrusted old new wn bits)).
Proof. exact (trusted_agrees old new wo wn bits). Qed.
Print Assumptions C55_helper_trusted_partial.
Example C55_ex : determ (CalculateTrustedWeight (NewG1AffineArray (repeat hA 10)) (NewG1AffineArray (hB :: repeat hA 9))
    (bigIntToVariableArray (repeat 1 10)) (bigIntToVariableArray (repeat 2 10))) (ofZ rBN 18).
Proof.
  change 18 with (helperTrusted (repeat hA 10) (hB :: repeat hA 9) (7 :: repeat 2 9) (repeat 1 10)).
  apply (trusted_agrees (repeat hA 10) (hB :: repeat hA 9) (repeat 2 10) (7 :: repeat 2 9) (repeat 1 10)); try reflexivity;
    try (apply Forall_forall; intros k Hk; apply repeat_spec in Hk; subst; (exact hA_ok || easy || now right)).
  - apply Forall_cons; [exact hB_ok|]. apply Forall_forall. intros k Hk. apply repeat_spec in Hk. subst. exact hA_ok.
  - intros [|i] Hi; [right|left].
    + change (hX (nth 0 (hB :: repeat hA 9) (mkHost 0 0))) with (hX hB). intros H. apply in_map_iff in H. destruct H as (x & E & Hx).
      apply repeat_spec in Hx. subst x. exact (hAB E).
    + cbn [nth]. split.
      * change (repeat hA 10) with (hA :: repeat hA 9). cbn [nth]. reflexivity.
      * change (repeat 2 10) with (2 :: repeat 2 9). cbn [nth]. reflexivity.
Qed.
(** the same validators in another order: the two values differ *)
Theorem C55_helper_trusted_refuted : exists old new wo wn bits,
  length old = 10%nat /\ length wo = 10%nat /\ length bits = 10%nat /\
  Forall host_ok old /\ Forall (fun b => b = 0 \/ b = 1) bits /\
  Permutation (combine old wo) (combine new wn) /\
  exists t, determ (CalculateTrustedWeight (NewG1AffineArray old) (NewG1AffineArray new) (bigIntToVariableArray bits) (bigIntToVariableArray wo)) t /\
    t <> ofZ rBN (helperTrusted old new wn bits).
Proof. exact trusted_reordered_refuted. Qed.
Print Assumptions C55_helper_trusted_refuted.
