(** Properties C61-C64: bilinearity, signatures and the order-r subgroups. *)
From Coq Require Import ZArith NArith List Bool String.
From Coq Require Import List.
From Verif Require Import Params ZMod Circuit Api Emulated Tower TowerSpec TowerFacts Pairing CurveSpec G2 G2Spec G2Mul PairSpec HashField HashFieldSpec HashG2 Bls BlsSpec CircuitSpec SigSpec
  G2Jac FixedQ G2Gen G2Refute G1Group HashWit MillerWit PairSig G1Order G2Cyclic PairNondeg BlsExamples BlsRefute Accept SigWit HashFieldProofs HashSpec HashFull.
Import ListNotations.
Open Scope Z_scope.

(** C61: the value that the pairing circuit computes is bilinear *)
Theorem C61_value_exists (P : G1Affine) (Q : G2Affine) : oncurve1 (g1aff P) -> in_G2 (aff2 Q) -> exists e, pairing_value P Q e.
Proof. exact (value_ex P Q). Qed.
Print Assumptions C61_value_exists.
Theorem C61_value_unique (P : G1Affine) (Q : G2Affine) (e e' : list (list (list Fp))) : oncurve1 (g1aff P) -> in_G2 (aff2 Q) ->
  pairing_value P Q e -> pairing_value P Q e' -> e = e'.
Proof. exact (value_fun P Q e e'). Qed.
Print Assumptions C61_value_unique.
Theorem C61_order_r (P : G1Affine) (Q : G2Affine) (e : list (list (list Fp))) : pairing_value P Q e -> S12pow e (Z.to_N rBLS) = S12one.
Proof. exact (value_order P Q e). Qed.
Print Assumptions C61_order_r.
Theorem C61_additive_first (P1 P2 P3 : G1Affine) (Q : G2Affine) (e1 e2 e3 : list (list (list Fp))) :
  oncurve1 (g1aff P1) -> oncurve1 (g1aff P2) -> in_G2 (aff2 Q) -> add1 (g1aff P1) (g1aff P2) (g1aff P3) ->
  pairing_value P1 Q e1 -> pairing_value P2 Q e2 -> pairing_value P3 Q e3 -> e3 = S12mul e1 e2.
Proof. exact (value_add1 P1 P2 P3 Q e1 e2 e3). Qed.
Print Assumptions C61_additive_first.
Theorem C61_additive_second (P : G1Affine) (Q1 Q2 Q3 : G2Affine) (e1 e2 e3 : list (list (list Fp))) :
  oncurve1 (g1aff P) -> in_G2 (aff2 Q1) -> in_G2 (aff2 Q2) -> g2add (aff2 Q1) (aff2 Q2) (aff2 Q3) ->
  pairing_value P Q1 e1 -> pairing_value P Q2 e2 -> pairing_value P Q3 e3 -> e3 = S12mul e1 e2.
Proof. exact (value_add2 P Q1 Q2 Q3 e1 e2 e3). Qed.
Print Assumptions C61_additive_second.
Theorem C61_scalar_first (P P' : G1Affine) (Q : G2Affine) (k : N) (e e' : list (list (list Fp))) :
  oncurve1 (g1aff P) -> in_G2 (aff2 Q) -> mul1 (g1aff P) (Z.of_N k) (g1aff P') -> pairing_value P Q e -> pairing_value P' Q e' -> e' = S12pow e k.
Proof. exact (value_mul1 P P' Q k e e'). Qed.
Print Assumptions C61_scalar_first.
Theorem C61_scalar_second (P : G1Affine) (Q Q' : G2Affine) (k : N) (e e' : list (list (list Fp))) :
  oncurve1 (g1aff P) -> in_G2 (aff2 Q) -> g2mul (aff2 Q) (Z.of_N k) (aff2 Q') -> pairing_value P Q e -> pairing_value P Q' e' -> e' = S12pow e k.
Proof. exact (value_mul2 P Q Q' k e e'). Qed.
Print Assumptions C61_scalar_second.
Theorem C61_inverse_first (P P' : G1Affine) (Q : G2Affine) (e e' : list (list (list Fp))) :
  oncurve1 (g1aff P) -> in_G2 (aff2 Q) -> g1aff P' = neg1 (g1aff P) -> pairing_value P Q e -> pairing_value P' Q e' -> S12mul e e' = S12one.
Proof. exact (value_neg1 P P' Q e e'). Qed.
Print Assumptions C61_inverse_first.
Theorem C61_inverse_second (P : G1Affine) (Q Q' : G2Affine) (e e' : list (list (list Fp))) :
  oncurve1 (g1aff P) -> in_G2 (aff2 Q) -> aff2 Q' = g2neg (aff2 Q) -> pairing_value P Q e -> pairing_value P Q' e' -> S12mul e e' = S12one.
Proof. exact (value_neg2 P Q Q' e e'). Qed.
Print Assumptions C61_inverse_second.
(** no two nonzero points of the order-r subgroups pair to 1 *)
Theorem C61_nondegenerate (P : G1Affine) (Q : G2Affine) : oncurve1 (g1aff P) -> mul1 (g1aff P) rBLS Inf -> in_G2 (aff2 Q) -> ~ pairing_value P Q S12one.
Proof. exact (nondeg P Q). Qed.
Print Assumptions C61_nondegenerate.
(** the circuit Pair of one pair accepts exactly the value, unless it is 1 *)
Theorem C61_pair_circuit (P : G1Affine) (Q : G2Affine) (r : E12) : sat (Pair [P] [Q]) r <-> pairing_value P Q (rep12 r) /\ rep12 r <> S12one.
Proof. exact (value_Pair P Q r). Qed.
Print Assumptions C61_pair_circuit.
Example C61_ex : oncurve1 (g1aff G1gen) /\ mul1 (g1aff G1gen) rBLS Inf /\ in_G2 (aff2 G2gen) /\ in_G2 (aff2 wR) /\ exists e, pairing_value G1gen wR e /\ e <> S12one.
Proof.
  split; [exact G1gen_on|]. split; [exact G1gen_order|]. split; [exact gen_in_G2|]. split; [exact (proj2 (proj2 w_hash))|].
  destruct (value_ex G1gen wR G1gen_on (proj2 (proj2 w_hash))) as (e & V). exists e. split; [exact V|]. intros E. rewrite E in V. exact (nondeg G1gen wR G1gen_on G1gen_order (proj2 (proj2 w_hash)) V).
Qed.
(** 3 G is 2 G + G, so C61_additive_first applies to three different points *)
Example C61_add_ex : exists P2 P3, oncurve1 (g1aff P2) /\ add1 (g1aff P2) (g1aff G1gen) (g1aff P3) /\ P3 <> P2 /\ mul1 (g1aff G1gen) 3 (g1aff P3).
Proof. exact add_witness. Qed.

(** C62: what the check e(-G,S) e(K,H) = 1 accepts; honest signatures *)
Theorem C62_check (G G' K : G1Affine) (S H : G2Affine) : oncurve1 (g1aff G) -> g1aff G' = neg1 (g1aff G) -> in_G2 (aff2 S) -> oncurve1 (g1aff K) -> in_G2 (aff2 H) ->
  (sat (PairingCheck [G'; K] [S; H]) tt <->
   (exists e, pairing_value G S e /\ pairing_value K H e) /\ exists f, sat (MillerLoop [G'; K] [S; H]) f /\ ~ easy_trivial f).
Proof. exact (check_iff G G' K S H). Qed.
Print Assumptions C62_check.
Theorem C62_tx_honest (eng : engine) (c : BLS_BLS12_TX) (apk : G1Affine) (h : G2Affine) (sks : list Z) : txWf c = true -> is_bits (tx_BitList c) -> Forall key_wf (tx_PublicKeys c) ->
  fval (tx_SignedWeight c) = signed_weight (tx_BitList c) (tx_Weights c) mod rBN -> set_commit (tx_PublicKeys c) (tx_Weights c) (tx_ApkCommitment c) ->
  aggregates eng (tx_BitList c) (tx_PublicKeys c) apk -> secret_keys (tx_PublicKeys c) sks ->
  sat (HashToG2 (tx_MsgBytes c)) h -> in_G2 (aff2 h) -> g2mul (aff2 h) (zsum (signers (tx_BitList c) sks)) (aff2 (tx_Signature c)) ->
  (exists f, sat (MillerLoop [G1neg; apk] [tx_Signature c; h]) f /\ ~ easy_trivial f) -> sat (txDefine eng c) tt.
Proof. exact (tx_honest eng c apk h sks). Qed.
Print Assumptions C62_tx_honest.
Theorem C62_rotate_honest (eng : engine) (c : BLS_BLS12_ROTATE) (apk : G1Affine) (h : G2Affine) (sks : list Z) (z : Z) : roWf c = true -> Forall key6 (ro_OldPublicKeys c) -> is_bits (ro_BitList c) -> Forall key_wf (ro_NewPublicKeys c) ->
  weight_where counted (positions (ro_BitList c) (ro_NewPublicKeys c) (ro_OldPublicKeys c) (ro_OldWeights c)) z -> fval (ro_TrustedWeight c) = z mod rBN ->
  set_commit (ro_OldPublicKeys c) (ro_OldWeights c) (ro_OldApkCommitment c) -> set_commit (ro_NewPublicKeys c) (ro_NewWeights c) (ro_NewCommitment c) ->
  aggregates eng (ro_BitList c) (ro_NewPublicKeys c) apk -> secret_keys (ro_NewPublicKeys c) sks ->
  sat (HashToG2 (ro_NewApkCommitmentBytes c)) h -> in_G2 (aff2 h) -> g2mul (aff2 h) (zsum (signers (ro_BitList c) sks)) (aff2 (ro_Signature c)) ->
  (exists f, sat (MillerLoop [G1neg; apk] [ro_Signature c; h]) f /\ ~ easy_trivial f) -> sat (rotateDefine eng c) tt.
Proof. exact (ro_honest eng c apk h sks z). Qed.
Print Assumptions C62_rotate_honest.
(** end to end: the signature is on the RFC 9380 hash of the message *)
Theorem C62_tx_rfc (eng : engine) (c : BLS_BLS12_TX) (apk : G1Affine) (sks : list Z) (c0 c1 : Z * Z) (x0 y0 x1 y1 : E2) (Q0 Q1 S : point E2) (h : G2Affine) : txWf c = true -> is_bits (tx_BitList c) -> Forall key_wf (tx_PublicKeys c) ->
  fval (tx_SignedWeight c) = signed_weight (tx_BitList c) (tx_Weights c) mod rBN -> set_commit (tx_PublicKeys c) (tx_Weights c) (tx_ApkCommitment c) ->
  aggregates eng (tx_BitList c) (tx_PublicKeys c) apk -> secret_keys (tx_PublicKeys c) sks ->
  Forall (fun x => fval x < 256) (tx_MsgBytes c) -> hash_to_field pBLS (map fval (tx_MsgBytes c)) (bytesOf "BLS_SIG_BLS12381G2_XMD:SHA-256_SSWU_RO_POP_") 2 = Some [c0; c1] ->
  A0 (pairE2 c0) <> fp0 -> A0 (pairE2 c1) <> fp0 -> A0 y0 <> fp0 -> A0 y1 <> fp0 ->
  sswu (pairE2 c0) x0 y0 -> iso_map x0 y0 Q0 -> sswu (pairE2 c1) x1 y1 -> iso_map x1 y1 Q1 -> Q0 <> Q1 -> g2add Q0 Q1 S -> cleared S (aff2 h) ->
  g2mul (aff2 h) (zsum (signers (tx_BitList c) sks)) (aff2 (tx_Signature c)) ->
  (exists f, sat (MillerLoop [G1neg; apk] [tx_Signature c; h]) f /\ ~ easy_trivial f) -> sat (txDefine eng c) tt.
Proof. exact (tx_rfc eng c apk sks c0 c1 x0 y0 x1 y1 Q0 Q1 S h). Qed.
Print Assumptions C62_tx_rfc.
Theorem C62_rotate_rfc (eng : engine) (c : BLS_BLS12_ROTATE) (apk : G1Affine) (sks : list Z) (z : Z) (c0 c1 : Z * Z) (x0 y0 x1 y1 : E2) (Q0 Q1 S : point E2) (h : G2Affine) : roWf c = true -> Forall key6 (ro_OldPublicKeys c) -> is_bits (ro_BitList c) -> Forall key_wf (ro_NewPublicKeys c) ->
  weight_where counted (positions (ro_BitList c) (ro_NewPublicKeys c) (ro_OldPublicKeys c) (ro_OldWeights c)) z -> fval (ro_TrustedWeight c) = z mod rBN ->
  set_commit (ro_OldPublicKeys c) (ro_OldWeights c) (ro_OldApkCommitment c) -> set_commit (ro_NewPublicKeys c) (ro_NewWeights c) (ro_NewCommitment c) ->
  aggregates eng (ro_BitList c) (ro_NewPublicKeys c) apk -> secret_keys (ro_NewPublicKeys c) sks ->
  Forall (fun x => fval x < 256) (ro_NewApkCommitmentBytes c) -> hash_to_field pBLS (map fval (ro_NewApkCommitmentBytes c)) (bytesOf "BLS_SIG_BLS12381G2_XMD:SHA-256_SSWU_RO_POP_") 2 = Some [c0; c1] ->
  A0 (pairE2 c0) <> fp0 -> A0 (pairE2 c1) <> fp0 -> A0 y0 <> fp0 -> A0 y1 <> fp0 ->
  sswu (pairE2 c0) x0 y0 -> iso_map x0 y0 Q0 -> sswu (pairE2 c1) x1 y1 -> iso_map x1 y1 Q1 -> Q0 <> Q1 -> g2add Q0 Q1 S -> cleared S (aff2 h) ->
  g2mul (aff2 h) (zsum (signers (ro_BitList c) sks)) (aff2 (ro_Signature c)) ->
  (exists f, sat (MillerLoop [G1neg; apk] [ro_Signature c; h]) f /\ ~ easy_trivial f) -> sat (rotateDefine eng c) tt.
Proof. exact (ro_rfc eng c apk sks z c0 c1 x0 y0 x1 y1 Q0 Q1 S h). Qed.
Print Assumptions C62_rotate_rfc.
(** the hypotheses on the signature are met with h = S = wR and the key sum G *)
Example C62_ex : in_G2 (aff2 wR) /\ mul1 (g1aff G1gen) 1 (g1aff wG) /\ g2mul (aff2 wR) 1 (aff2 wR) /\ exists f, sat (MillerLoop [G1neg; wG] [wR; wR]) f /\ ~ easy_trivial f.
Proof. exact check_witness. Qed.
Example C62_keys_ex (eng : engine) : aggregates eng ones10 witKeys wG /\ secret_keys witKeys witSks /\ zsum (signers ones10 witSks) = 1.
Proof. exact (conj (wit_aggregates eng) (conj wit_secret wit_signers)). Qed.

(** C63: a signature in the group is accepted exactly when it is the secret
    multiple of the message point (and the easy part is not trivial) *)
Theorem C63_signature_exact (K : G1Affine) (S H : G2Affine) (k : Z) : in_G2 (aff2 H) -> in_G2 (aff2 S) -> mul1 (g1aff G1gen) k (g1aff K) ->
  (sat (PairingCheck [G1neg; K] [S; H]) tt <-> g2mul (aff2 H) k (aff2 S) /\ exists f, sat (MillerLoop [G1neg; K] [S; H]) f /\ ~ easy_trivial f).
Proof. exact (sig_iff K S H k). Qed.
Print Assumptions C63_signature_exact.
Theorem C63_one_signature (K : G1Affine) (S S' H : G2Affine) : oncurve1 (g1aff K) -> mul1 (g1aff K) rBLS Inf -> in_G2 (aff2 H) -> in_G2 (aff2 S) -> in_G2 (aff2 S') ->
  sat (PairingCheck [G1neg; K] [S; H]) tt -> sat (PairingCheck [G1neg; K] [S'; H]) tt -> S = S'.
Proof. exact (sig_one K S S' H). Qed.
Print Assumptions C63_one_signature.
Theorem C63_tx_signature (eng : engine) (c : BLS_BLS12_TX) (apk : G1Affine) (sks : list Z) : txWf c = true -> aggregates eng (tx_BitList c) (tx_PublicKeys c) apk ->
  secret_keys (tx_PublicKeys c) sks -> in_G2 (aff2 (tx_Signature c)) -> sat (txDefine eng c) tt ->
  exists h, sat (HashToG2 (tx_MsgBytes c)) h /\ (in_G2 (aff2 h) -> g2mul (aff2 h) (zsum (signers (tx_BitList c) sks)) (aff2 (tx_Signature c))).
Proof. exact (tx_signature_exact eng c apk sks). Qed.
Print Assumptions C63_tx_signature.
Theorem C63_rotate_signature (eng : engine) (c : BLS_BLS12_ROTATE) (apk : G1Affine) (sks : list Z) : roWf c = true -> Forall key6 (ro_OldPublicKeys c) ->
  aggregates eng (ro_BitList c) (ro_NewPublicKeys c) apk -> secret_keys (ro_NewPublicKeys c) sks -> in_G2 (aff2 (ro_Signature c)) -> sat (rotateDefine eng c) tt ->
  exists h, sat (HashToG2 (ro_NewApkCommitmentBytes c)) h /\ (in_G2 (aff2 h) -> g2mul (aff2 h) (zsum (signers (ro_BitList c) sks)) (aff2 (ro_Signature c))).
Proof. exact (ro_signature_exact eng c apk sks). Qed.
Print Assumptions C63_rotate_signature.
Example C63_ex (eng : engine) : exists c, txWf c = true /\ aggregates eng (tx_BitList c) (tx_PublicKeys c) wG /\ secret_keys (tx_PublicKeys c) witSks /\
  in_G2 (aff2 (tx_Signature c)) /\ sat (txDefine eng c) tt.
Proof. exact (tx_witness eng). Qed.

(** C64: the two order-r subgroups *)
Theorem C64_subgroup_criterion (P : point E2) : in_G2 P <-> g2on P /\ P <> Inf /\ g2mul P rBLS Inf.
Proof. exact (in_G2_iff P). Qed.
Print Assumptions C64_subgroup_criterion.
Theorem C64_G2_cyclic (Q : point E2) : g2on Q -> g2mul Q rBLS Inf -> exists k, g2mul (aff2 G2gen) k Q.
Proof. exact (G2_cyclic Q). Qed.
Print Assumptions C64_G2_cyclic.
Theorem C64_G1_cyclic (P : point Fp) : oncurve1 P -> mul1 P rBLS Inf -> exists k, mul1 (g1aff G1gen) k P.
Proof. exact (G1_cyclic P). Qed.
Print Assumptions C64_G1_cyclic.
Theorem C64_secret_keys (keys : list G1Key) : Forall (fun k => oncurve1 (key_point k) /\ mul1 (key_point k) rBLS Inf) keys -> exists sks, secret_keys keys sks.
Proof. exact (secret_keys_ex keys). Qed.
Print Assumptions C64_secret_keys.
Example C64_ex : g2on (aff2 wR) /\ g2mul (aff2 wR) rBLS Inf /\ aff2 wR <> aff2 G2gen /\ oncurve1 (g1aff G1gen) /\ mul1 (g1aff G1gen) rBLS Inf.
Proof. exact cyclic_witness. Qed.
