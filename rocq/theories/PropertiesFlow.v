(** Properties C66 and C67: the two test flows, from the random values to the
    circuit. *)
From Coq Require Import ZArith List Bool.
From Verif Require Import Params ZMod Circuit Emulated Tower Pairing CurveSpec BlsSpec G2Spec SigSpec HashField HashFieldSpec HashSpec Bls CircuitSpec Helpers HelperProofs HostSpec HostFlow HostProofs FlowWitPts FlowWit.
Import ListNotations.
Open Scope Z_scope.

(** C66: bls-tx_test.go *)
Theorem C66_flow_total (hash : list Z -> option Z) (sks bits ws x : list Z) : iden3_hash hash -> test_values sks bits ws -> bytes32 x ->
  exists asg, test_tx hash sks bits ws x asg.
Proof. exact (tx_flow_total hash sks bits ws x). Qed.
Print Assumptions C66_flow_total.
Theorem C66_accepted (hash : list Z -> option Z) (sks bits ws x : list Z) (asg : BLS_BLS12_TX) : iden3_hash hash -> test_values sks bits ws -> bytes32 x ->
  plain_hash x dstHost -> test_tx hash sks bits ws x asg -> tx_MessageHash asg <> mkG2 E2_Zero E2_Zero ->
  (run (txDefine TestEngine asg) = Some tt <-> good_signers (signers (tx_BitList asg) sks) (tx_Signature asg) (tx_MessageHash asg)).
Proof. exact (tx_flow hash sks bits ws x asg). Qed.
Print Assumptions C66_accepted.
Theorem C66_needs (hash : list Z -> option Z) (sks bits ws x : list Z) (asg : BLS_BLS12_TX) : test_values sks bits ws -> test_tx hash sks bits ws x asg ->
  run (txDefine TestEngine asg) = Some tt -> signers (tx_BitList asg) sks <> [] /\ no_doubling (signers (tx_BitList asg) sks).
Proof. exact (tx_flow_needs hash sks bits ws x asg). Qed.
Print Assumptions C66_needs.
Theorem C66_nobody (c : BLS_BLS12_TX) : txWf c = true -> Forall (fun b => fval b = 0) (tx_BitList c) -> unsat (txDefine TestEngine c).
Proof. exact (tx_nobody c). Qed.
Print Assumptions C66_nobody.
(** the host's own pairing check passes, no prover satisfies the circuit *)
Theorem C66_no_signers_refuted : exists hash sks bits ws x asg, iden3_hash hash /\ test_values sks bits ws /\ bytes32 x /\
  test_tx hash sks bits ws x asg /\ unsat (txDefine TestEngine asg).
Proof. exact tx_no_signers. Qed.
Print Assumptions C66_no_signers_refuted.
(** ten different secrets, everybody signs, the honest prover fails *)
Theorem C66_doubling_refuted : exists hash sks bits ws x asg, iden3_hash hash /\ test_values sks bits ws /\ bytes32 x /\ Forall (fun b => b = 1) bits /\ NoDup sks /\
  test_tx hash sks bits ws x asg /\ run (txDefine TestEngine asg) <> Some tt.
Proof. exact tx_doubling. Qed.
Print Assumptions C66_doubling_refuted.
Example C66_ex : iden3_hash codeHash /\ test_values [1; 2; 3; 4; 5; 6; 7; 8; 9; 10] (repeat 1 10) (repeat 5 10) /\ bytes32 (repeat 7 32).
Proof. exact (conj codeHash_ok (conj (values_ok 1 (or_intror eq_refl)) sevens)). Qed.
Example C66_hash : plain_hash fMsg dstHost /\ host_hash fMsg dstHost fR /\ fR <> mkG2 E2_Zero E2_Zero /\ good_signers [1] fR fR.
Proof. exact (conj f_plain (conj (proj2 (f_hash fR) eq_refl) (conj fR_nz f_good))). Qed.
(** one run, with every value computed in the kernel, ends in acceptance *)
Example C66_run : exists asg, test_tx codeHash (repeat 1 10) (1 :: repeat 0 9) (repeat 5 10) fMsg asg /\ run (txDefine TestEngine asg) = Some tt.
Proof. exact (f_tx codeHash codeHash_ok). Qed.

(** C67: bls-rotate_test.go *)
Theorem C67_flow_total (hash : list Z -> option Z) (sks bits ws : list Z) (changes : list change) : iden3_hash hash -> test_values sks bits ws ->
  Forall change_range changes -> NoDup (map chIndex changes) -> Forall (fun c => (chIndex c < 10)%nat) changes ->
  exists pks new c2, Forall2 base_mul sks pks /\ change_loop [] changes (mkState sks pks ws bits) new /\
    genCommitment hash (stKeys new) (stWeights new) = Some c2 /\ 0 <= c2 < rBN /\
    (2 ^ 248 <= c2 -> exists newMsg asg, test_rotate hash sks bits ws changes new newMsg asg).
Proof. exact (rotate_flow_total hash sks bits ws changes). Qed.
Print Assumptions C67_flow_total.
Theorem C67_accepted (hash : list Z -> option Z) (sks bits ws : list Z) (changes : list change) (new : hostState) (newMsg : G2Affine) (asg : BLS_BLS12_ROTATE) :
  iden3_hash hash -> test_values sks bits ws -> Forall change_range changes -> Forall (change_fresh sks) changes ->
  test_rotate hash sks bits ws changes new newMsg asg -> plain_hash (map fval (ro_NewApkCommitmentBytes asg)) dstHost -> newMsg <> mkG2 E2_Zero E2_Zero ->
  (run (rotateDefine TestEngine asg) = Some tt <-> good_signers (signers (ro_BitList asg) (stSecrets new)) (ro_Signature asg) newMsg).
Proof. exact (rotate_flow hash sks bits ws changes new newMsg asg). Qed.
Print Assumptions C67_accepted.
Theorem C67_needs (hash : list Z -> option Z) (sks bits ws : list Z) (changes : list change) (new : hostState) (newMsg : G2Affine) (asg : BLS_BLS12_ROTATE) :
  test_values sks bits ws -> Forall change_range changes -> test_rotate hash sks bits ws changes new newMsg asg ->
  run (rotateDefine TestEngine asg) = Some tt -> signers (ro_BitList asg) (stSecrets new) <> [] /\ no_doubling (signers (ro_BitList asg) (stSecrets new)).
Proof. exact (rotate_flow_needs hash sks bits ws changes new newMsg asg). Qed.
Print Assumptions C67_needs.
Theorem C67_nobody (c : BLS_BLS12_ROTATE) : roWf c = true -> Forall key6 (ro_OldPublicKeys c) -> Forall (fun b => fval b = 0) (ro_BitList c) -> unsat (rotateDefine TestEngine c).
Proof. exact (ro_nobody c). Qed.
Print Assumptions C67_nobody.
(** values in range for which the test has no assignment: the commitment has 31 bytes *)
Theorem C67_short_refuted : exists sks bits ws changes, test_values sks bits ws /\ changes <> [] /\ Forall change_range changes /\
  (exists pks new, Forall2 base_mul sks pks /\ change_loop [] changes (mkState sks pks ws bits) new) /\
  forall hash new newMsg asg, iden3_hash hash -> ~ test_rotate hash sks bits ws changes new newMsg asg.
Proof. exact rotate_short. Qed.
Print Assumptions C67_short_refuted.
Example C67_run : exists new newMsg asg, test_rotate codeHash (repeat 1 10) (1 :: repeat 0 9) (repeat 5 10) [mkChange 3 2 5 0] new newMsg asg /\
  run (rotateDefine TestEngine asg) = Some tt.
Proof. exact (f_rotate codeHash codeHash_ok). Qed.
Example C67_ex : Forall change_range [mkChange 3 2 5 0] /\ Forall (change_fresh (repeat 1 10)) [mkChange 3 2 5 0].
Proof. exact fchange_ok. Qed.
