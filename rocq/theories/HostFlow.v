(** Model of the host side of the two tests: key generation, signing, the host's
    own check and the assignments handed to test.IsSolved.
    /repo/spark/test_helpers.go:40-99 (generate, verifyPairingCheck),
    101-192 (generateNew), 242-246 (genPublickey);
    /repo/spark/bls-tx_test.go:17-68; /repo/spark/bls-rotate_test.go:15-57.
    The random values (secrets, bits, weights, message bytes, replaced
    positions) are arguments.  Calls into gnark-crypto are the relations of
    HostSpec.v; poseidon.Hash is the function [hash].  A Go variable that
    changes in a loop is the state of an inductive relation.  Not modelled:
    newAggregatedApk and totalWeight of generateNew (never read), printing. *)
From Coq Require Import String ZArith List Bool.
From Verif Require Import Params ZMod Circuit Emulated Tower Pairing CurveSpec BlsSpec SigSpec PairSpec Bls HashField Helpers HostSpec.
Import ListNotations.
Open Scope Z_scope.

Definition dstHost : list Z := bytesOf DOMAIN_SEPERATOR.

(** test_helpers.go:40-65; bits and weights are lines 51-52, the secrets line 55 *)
Definition generate (hash : list Z -> option Z) (secrets weights : list Z) (publicKeys : list HostG1) (commitment : Z) : Prop :=
  Forall2 base_mul secrets publicKeys /\ genCommitment hash publicKeys weights = Some commitment.

(** test_helpers.go:72-77: the loop over (bit, key) *)
Inductive apk_loop : list (Z * HostG1) -> HostG1 -> HostG1 -> Prop :=
| al_nil a : apk_loop [] a a
| al_skip b k l a r : (int64 b =? 1) = false -> apk_loop l a r -> apk_loop ((b, k) :: l) a r
| al_take b k l a a' r : (int64 b =? 1) = true -> host_add1 a k a' -> apk_loop l a' r -> apk_loop ((b, k) :: l) a r.
(** test_helpers.go:67-99: true when it does not panic *)
Definition verifyPairingCheck (publicKeys : list HostG1) (bitlist : list Z) (signature msg : G2Affine) : Prop :=
  length publicKeys = length bitlist /\
  exists onlySignedApk t, apk_loop (combine bitlist publicKeys) (mkHost 0 0) onlySignedApk /\
    host_add1 onlySignedApk (mkHost 0 0) t /\
    host_check [host1 (neg1 (g1aff G1gen)); t] [signature; msg].

(** the signing loops over (bit, weight, secret): bls-tx_test.go:41-48 with
    [signs b := 0 <? b], test_helpers.go:172-184 with [signs b := int64 b =? 1] *)
Inductive sign_loop (signs : Z -> bool) (msg : G2Affine) : list (Z * Z * Z) -> Z * G2Affine -> Z * G2Affine -> Prop :=
| sl_nil a : sign_loop signs msg [] a a
| sl_skip b w s l a r : signs b = false -> sign_loop signs msg l a r -> sign_loop signs msg ((b, w, s) :: l) a r
| sl_take b w s l sw sig S sig' r : signs b = true -> host_mul2 msg s S -> host_add2 sig S sig' ->
    sign_loop signs msg l (sw + w, sig') r -> sign_loop signs msg ((b, w, s) :: l) (sw, sig) r.

(** bls-tx_test.go:17-61: from the random values to the assignment *)
Definition test_tx (hash : list Z -> option Z) (secrets bitlist weights x : list Z) (asg : BLS_BLS12_TX) : Prop :=
  exists publicKeys apkCommitment messageHash signedWeight signature,
    generate hash secrets weights publicKeys apkCommitment /\
    host_hash x dstHost messageHash /\
    sign_loop (fun b => 0 <? b) messageHash (combine (combine bitlist weights) secrets) (0, mkG2 E2_Zero E2_Zero) (signedWeight, signature) /\
    verifyPairingCheck publicKeys bitlist signature messageHash /\
    asg = mkTx messageHash (ofZ rBN apkCommitment) (ofZ rBN signedWeight) (NewG1AffineArray publicKeys) signature
      (bigIntToVariableArray bitlist) (bigIntToVariableArray weights) (map (ofZ rBN) x).

(** slice assignment l[i] = v *)
Fixpoint upd {A} (l : list A) (i : nat) (v : A) : list A :=
  match l, i with [], _ => [] | _ :: l, O => v :: l | x :: l, S i => x :: upd l i v end.
(** one pass of test_helpers.go:138-153 that does not `continue` *)
Record change : Set := mkChange { chIndex : nat; chSecret : Z; chWeight : Z; chBit : Z }.
Record hostState : Set := mkState { stSecrets : list Z; stKeys : list HostG1; stWeights : list Z; stBits : list Z }.
(** genRandom(230), genRandom(10), genRandom(1); [change_fresh]: the new secret is
    none of the old ones *)
Definition change_range (c : change) : Prop := 0 < chSecret c < 2 ^ 230 /\ 0 <= chWeight c < 2 ^ 10 /\ (chBit c = 0 \/ chBit c = 1).
Definition change_fresh (secrets : list Z) (c : change) : Prop := ~ In (chSecret c) secrets.
Inductive change_loop : list nat -> list change -> hostState -> hostState -> Prop :=
| cl_nil m s : change_loop m [] s s
| cl_cons m c l s pk r : ~ In (chIndex c) m -> (chIndex c < 10)%nat -> base_mul (chSecret c) pk ->
    change_loop (chIndex c :: m) l
      (mkState (upd (stSecrets s) (chIndex c) (chSecret c)) (upd (stKeys s) (chIndex c) pk)
               (upd (stWeights s) (chIndex c) (chWeight c)) (upd (stBits s) (chIndex c) (chBit c))) r ->
    change_loop m (c :: l) s r.

(** test_helpers.go:101-192 and bls-rotate_test.go:15-57.  Line 24 leaves entries
    of the 32-element array nil when Bytes() is shorter; the witness cannot be
    built then, so the flow has no assignment.  MessageHash is not assigned: its
    limbs are set to zero.  [new] and [newMsg] are the local slices and the hash. *)
Definition test_rotate (hash : list Z -> option Z) (secrets bitlist weights : list Z) (changes : list change)
    (new : hostState) (newMsg : G2Affine) (asg : BLS_BLS12_ROTATE) : Prop :=
  exists publicKeys apkCommitment newCommitment totalWeight signature,
    generate hash secrets weights publicKeys apkCommitment /\
    change_loop [] changes (mkState secrets publicKeys weights bitlist) new /\
    genCommitment hash (stKeys new) (stWeights new) = Some newCommitment /\
    host_hash (helperMessage newCommitment) dstHost newMsg /\
    sign_loop (fun b => int64 b =? 1) newMsg (combine (combine (stBits new) (stWeights new)) (stSecrets new)) (0, mkG2 E2_Zero E2_Zero) (totalWeight, signature) /\
    verifyPairingCheck (stKeys new) (stBits new) signature newMsg /\
    length (helperMessage newCommitment) = 32%nat /\
    asg = mkRot (mkG2 E2_Zero E2_Zero) (ofZ rBN apkCommitment) (ofZ rBN newCommitment) (map (ofZ rBN) (helperMessage newCommitment))
      (ofZ rBN (helperTrusted publicKeys (stKeys new) (stWeights new) (stBits new)))
      (bigIntToVariableArray weights) (bigIntToVariableArray (stWeights new))
      (NewG1AffineArray publicKeys) (NewG1AffineArray (stKeys new)) (bigIntToVariableArray (stBits new)) signature.
