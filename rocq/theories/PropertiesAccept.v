(** Property theorems C41, C49-C53 (accepted executions), C59 and C60. *)
From Coq Require Import ZArith List Bool.
From Verif Require Import Params ZMod Circuit Emulated Tower Pairing CurveSpec HashField HashFieldSpec HashG2 G2 G2Spec G2Jac Bls BlsSpec BlsExamples BlsRefute CircuitSpec CircuitProofs HashWit HashTop
  MillerTotal MillerNeg MillerWit Accept.
Import ListNotations.
Open Scope Z_scope.

(** C41: the public weight is the integer sum of the signers' weights when the
    committed weights are below 2^250, *)
Theorem C41_no_overflow_partial (eng : engine) (c : BLS_BLS12_TX) : txWf c = true -> sat (txDefine eng c) tt ->
  Forall (fun w => fval w < 2 ^ 250) (tx_Weights c) ->
  fval (tx_SignedWeight c) = signed_weight (tx_BitList c) (tx_Weights c).
Proof. exact (tx_no_wrap eng c). Qed.
Print Assumptions C41_no_overflow_partial.
(** and in general it is not: weights r-1 and 2 of two signers give 1 *)
Theorem C41_overflow_refuted (eng : engine) : exists c, txWf c = true /\ sat (txDefine eng c) tt /\
  fval (tx_SignedWeight c) = 1 /\ signed_weight (tx_BitList c) (tx_Weights c) = rBN + 1.
Proof. exact (tx_wrap eng). Qed.
Print Assumptions C41_overflow_refuted.

(** C49: accepted transactions exist, for both engines, any message and any
    weights: the hypotheses of C49_tx_sound, C50 and C51 are met *)
Theorem C49_accepted (eng : engine) (mh : G2Affine) (ws m : list Fr) :
  length ws = 10%nat -> length m = 32%nat -> Forall (fun x => fval x < 256) m ->
  exists c, txWf c = true /\ sat (txDefine eng c) tt /\ tx_MessageHash c = mh /\ tx_Weights c = ws /\ tx_MsgBytes c = m /\
    tx_BitList c = ones10 /\ tx_PublicKeys c = witKeys /\ tx_Signature c = wR.
Proof. exact (tx_accepted eng mh ws m). Qed.
Print Assumptions C49_accepted.
Example C41_ex : exists c, txWf c = true /\ sat (txDefine Compiled c) tt /\ Forall (fun w => fval w < 2 ^ 250) (tx_Weights c).
Proof.
  destruct (tx_accepted Compiled wR exW zmsg eq_refl eq_refl zmsg_byte) as (c & W & H & _ & E & _). exists c.
  split; [exact W|]. split; [exact H|]. rewrite E. repeat (apply Forall_cons; [reflexivity|]). apply Forall_nil.
Qed.

(** C53: accepted rotations exist: the hypotheses of C53_rotate_sound and C52 are met *)
Theorem C53_accepted (eng : engine) (mh : G2Affine) (m : list Fr) : length m = 32%nat -> Forall (fun x => fval x < 256) m ->
  exists cm, set_commit witKeys exW cm /\ exists c, roWf c = true /\ Forall key6 (ro_OldPublicKeys c) /\ sat (rotateDefine eng c) tt /\
    ro_MessageHash c = mh /\ ro_NewApkCommitmentBytes c = m /\ ro_NewCommitment c = cm /\ ro_BitList c = ones10.
Proof. exact (ro_accepted eng mh m). Qed.
Print Assumptions C53_accepted.

(** C50: accepted proofs whose public MessageHash is not the hash of the message *)
Theorem C50_tx_refuted (eng : engine) : exists c, txWf c = true /\ sat (txDefine eng c) tt /\ run (HashToG2 (tx_MsgBytes c)) <> Some (tx_MessageHash c).
Proof. exact (tx_hash_wrong eng). Qed.
Print Assumptions C50_tx_refuted.
Theorem C50_rotate_refuted (eng : engine) : exists c, roWf c = true /\ sat (rotateDefine eng c) tt /\ run (HashToG2 (ro_NewApkCommitmentBytes c)) <> Some (ro_MessageHash c).
Proof. exact (ro_hash_wrong eng). Qed.
Print Assumptions C50_rotate_refuted.

(** C51: one accepted signature for two messages *)
Theorem C51_refuted (eng : engine) : exists c m', txWf c = true /\ sat (txDefine eng c) tt /\ m' <> tx_MsgBytes c /\ length m' = 32%nat /\
  sat (txDefine eng (tx_with_msg c m')) tt.
Proof. exact (tx_two_messages eng). Qed.
Print Assumptions C51_refuted.

(** C52: an accepted rotation whose signed bytes are not the new commitment *)
Theorem C52_refuted (eng : engine) : exists c, roWf c = true /\ Forall key6 (ro_OldPublicKeys c) /\ sat (rotateDefine eng c) tt /\
  OS2IP (map fval (ro_NewApkCommitmentBytes c)) <> fval (ro_NewCommitment c).
Proof. exact (ro_bytes_wrong eng). Qed.
Print Assumptions C52_refuted.

(** C59: the Miller loop never fails and has one accepted value, for every
    affine P with nonzero ordinate and every point Q of the order-r subgroup,
    more generally of the curve and of order above the loop counter *)
Theorem C59_miller_total (P : G1Affine) (Q : G2Affine) : g1Y P <> f0 pBLS -> in_G2 (aff2 Q) -> exists f, determ (MillerLoop [P] [Q]) f.
Proof. exact (miller_total_G2 P Q). Qed.
Print Assumptions C59_miller_total.
Theorem C59_miller_total_curve (P : G1Affine) (Q : G2Affine) : g1Y P <> f0 pBLS -> g2on (aff2 Q) -> order_above 15132376222941642752 (aff2 Q) ->
  exists f, determ (MillerLoop [P] [Q]) f.
Proof. exact (miller_total P Q). Qed.
Print Assumptions C59_miller_total_curve.
Example C59_ex : exists f, determ (MillerLoop [wG] [wR]) f.
Proof. exact (miller_total_G2 wG wR wG_y (proj2 (proj2 w_hash))). Qed.

(** C60: e(-P,Q) e(P,Q) = 1 is accepted, exactly when the easy part of the final
    exponentiation stays off the case that PairingCheck cannot represent: f times its conjugate (norm6) is a multiple of v^2 *)
Theorem C60_negation (P : G1Affine) (Q : G2Affine) (f : E12) : g1Y P <> f0 pBLS -> g2on (aff2 Q) -> order_above 15132376222941642752 (aff2 Q) ->
  sat (MillerLoop [P] [Q]) f ->
  (sat (PairingCheck [negG1 P; P] [Q; Q]) tt <-> ~ (B0 (norm6 f) = E2_Zero /\ B1 (norm6 f) = E2_Zero)).
Proof. exact (check_neg P Q f). Qed.
Print Assumptions C60_negation.
Example C60_ex : sat (PairingCheck [G1neg; wG] [wR; wR]) tt.
Proof. exact w_check. Qed.
