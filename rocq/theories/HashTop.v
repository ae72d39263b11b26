(** The four hash functions of hashG2.go from the message on. *)
From Coq Require Import ZArith NArith List Bool Lia Field String.
From Coq Require Import List.
From Verif Require Import Params ZMod Circuit Api Emulated ApiFacts Tower TowerFacts Pairing CurveSpec HashField HashFieldSpec Sha256Proofs HashFieldProofs G2 HashG2 G2Spec HashSpec G2Pred EcGroup G2Jac G2Mul G2Clear G2Chain G2ClearFacts G2Refute CircuitProofs HashSgn HashSqrt HashIso HashMap HashFinal HashWitPts HashWit HashFast HashCheat.
Import ListNotations.
Open Scope Z_scope.
Add Field E2FTop : E2_ft.

Local Opaque MapElementToCurve2 G2Isogeny G2AddAssign G2ClearCofactor ClearCofactor G2JacobianAddAssign GetG2JacFromG2Affine GetG2AffineFromG2Jac hashTail encTail encJacTail hashJacTail HashToField hash_to_field.

Lemma htf_len p m d n cs : hash_to_field p m d n = Some cs -> length cs = n.
Proof.
  Local Transparent hash_to_field. unfold hash_to_field. Local Opaque hash_to_field. destruct (expand_message_xmd _ _ _); [|discriminate].
  intros H. injection H as <-. now rewrite map_length, seq_length.
Qed.
Lemma top_run2 msg : length msg = 32%nat -> Forall byteF msg -> exists c0 c1, hash_to_field pBLS (map fval msg) dstZ 2 = Some [c0; c1] /\
  run (HashToG2 msg) = run (hashTail (pairE2 c0) (pairE2 c1)) /\ run (HashToG2OnJac msg) = run (hashJacTail (pairE2 c0) (pairE2 c1)).
Proof.
  intros L F. destruct (htf_run msg 2 L F ltac:(lia)) as (cs & E & R). pose proof (htf_len _ _ _ _ _ E) as Lc.
  destruct cs as [|c0 [|c1 [|]]]; try discriminate Lc. exists c0, c1. split; [exact E|]. destruct (tails msg) as (_ & _ & T1 & T2).
  change (2 * 2)%nat with 4%nat in R. rewrite T1, T2, !run_bind, R. split; reflexivity.
Qed.
Lemma top_run1 msg : length msg = 32%nat -> Forall byteF msg -> exists c, hash_to_field pBLS (map fval msg) dstZ 1 = Some [c] /\
  run (EncodeToG2 msg) = run (encTail (pairE2 c)) /\ run (EncodeToG2OnJac msg) = run (encJacTail (pairE2 c)).
Proof.
  intros L F. destruct (htf_run msg 1 L F ltac:(lia)) as (cs & E & R). pose proof (htf_len _ _ _ _ _ E) as Lc.
  destruct cs as [|c [|]]; try discriminate Lc. exists c. split; [exact E|]. destruct (tails msg) as (T1 & T2 & _).
  change (2 * 1)%nat with 2%nat in R. rewrite T1, T2, !run_bind, R. split; reflexivity.
Qed.

(** honest prover, all 32-byte messages *)
Theorem top_honest msg : length msg = 32%nat -> Forall byteF msg ->
  exists c0 c1, hash_to_field pBLS (map fval msg) dstZ 2 = Some [c0; c1] /\
  (pairE2 c0 <> E2_Zero -> pairE2 c1 <> E2_Zero -> exists x0 y0 Q0 x1 y1 Q1,
    sswu_xy (pairE2 c0) x0 y0 /\ iso_map x0 y0 Q0 /\ sswu_xy (pairE2 c1) x1 y1 /\ iso_map x1 y1 Q1 /\
    forall S, nonexc Q0 Q1 -> g2add Q0 Q1 S -> clear_generic S ->
      exists R, run (HashToG2 msg) = Some R /\ cleared S (aff2 R) /\ g2on (aff2 R)).
Proof.
  intros L F. destruct (top_run2 msg L F) as (c0 & c1 & E & R & _). exists c0, c1. split; [exact E|]. intros N0 N1.
  destruct (hash_honest _ _ N0 N1) as (x0 & y0 & Q0 & x1 & y1 & Q1 & S0 & M0 & S1 & M1 & _ & _ & H). exists x0, y0, Q0, x1, y1, Q1.
  split; [exact S0|]. split; [exact M0|]. split; [exact S1|]. split; [exact M1|]. rewrite R. exact H.
Qed.
(** agreement with RFC 9380 hash_to_curve *)
Theorem top_rfc msg c0 c1 x0 y0 Q0 x1 y1 Q1 S T : length msg = 32%nat -> Forall byteF msg ->
  hash_to_field pBLS (map fval msg) dstZ 2 = Some [c0; c1] ->
  A0 (pairE2 c0) <> fp0 -> A0 (pairE2 c1) <> fp0 -> A0 y0 <> fp0 -> A0 y1 <> fp0 ->
  sswu (pairE2 c0) x0 y0 -> iso_map x0 y0 Q0 -> sswu (pairE2 c1) x1 y1 -> iso_map x1 y1 Q1 -> nonexc Q0 Q1 -> g2add Q0 Q1 S -> clear_generic S -> cleared S T ->
  exists R, run (HashToG2 msg) = Some R /\ aff2 R = T.
Proof.
  intros L F E A B C D S0 M0 S1 M1 NE AD G CL. destruct (top_run2 msg L F) as (c0' & c1' & E' & R & _).
  rewrite E in E'. injection E' as <- <-. rewrite R. exact (hash_rfc _ _ _ _ _ _ _ _ _ _ A B C D S0 M0 S1 M1 NE AD G CL).
Qed.
(** any prover *)
Theorem top_any msg R : length msg = 32%nat -> sat (HashToG2 msg) R -> Forall byteF msg /\ exists u0 u1 x0 y0 x1 y1,
  sat (MapElementToCurve2 u0) (mkG2 x0 y0) /\ sat (MapElementToCurve2 u1) (mkG2 x1 y1) /\
  (isoon (Aff x0 y0) -> isoon (Aff x1 y1) -> exists Q0 Q1, iso_map x0 y0 Q0 /\ iso_map x1 y1 Q1 /\
   forall S, nonexc Q0 Q1 -> g2add Q0 Q1 S -> clear_generic S -> cleared S (aff2 R) /\ g2on (aff2 R)).
Proof.
  intros L H. apply hashG2_sat in H; [|exact L]. destruct H as (F & u0 & u1 & H). split; [exact F|]. exists u0, u1. exact (hash_any u0 u1 R H).
Qed.
(** every message has an accepted output that is not on the curve, an accepted
    output in the subgroup that is the same for all messages, and its negative *)
Theorem top_cheat msg : length msg = 32%nat -> Forall byteF msg -> (exists R, sat (HashToG2 msg) R /\ ~ g2on (aff2 R)) /\
  sat (HashToG2 msg) wR /\ sat (HashToG2 msg) (affneg wR) /\ in_G2 (aff2 wR).
Proof.
  intros L F. destruct w_hash as (H1 & H2 & H3). split; [|split; [|split; [|exact H3]]].
  - destruct hash_off_curve as (u0 & u1 & R & _ & _ & S & O). exists R. split; [|exact O]. apply hashG2_sat; [exact L|]. split; [exact F|]. now exists u0, u1.
  - apply hashG2_sat; [exact L|]. split; [exact F|]. eexists _, _. exact (run_sat _ _ H1).
  - apply hashG2_sat; [exact L|]. split; [exact F|]. eexists _, _. exact H2.
Qed.
Theorem top_enc msg : length msg = 32%nat -> Forall byteF msg ->
  exists c, hash_to_field pBLS (map fval msg) dstZ 1 = Some [c] /\
  (pairE2 c <> E2_Zero -> exists x y Q, sswu_xy (pairE2 c) x y /\ iso_map x y Q /\ (A0 (pairE2 c) <> fp0 -> A0 y <> fp0 -> sgn0 (pairE2 c) = sgn0 y) /\
  (clear_generic Q -> exists R, run (EncodeToG2 msg) = Some R /\ cleared Q (aff2 R) /\ g2on (aff2 R)) /\
  (forall R, cleared Q R -> R <> Inf -> exists r, run (EncodeToG2OnJac msg) = Some r /\ aff2 r = R)).
Proof.
  intros L F. destruct (top_run1 msg L F) as (c & E & R1 & R2). exists c. split; [exact E|]. rewrite R1, R2. exact (enc_honest (pairE2 c)).
Qed.
Theorem top_jac msg : length msg = 32%nat -> Forall byteF msg ->
  exists c0 c1, hash_to_field pBLS (map fval msg) dstZ 2 = Some [c0; c1] /\
  (pairE2 c0 <> E2_Zero -> pairE2 c1 <> E2_Zero -> exists x0 y0 Q0 x1 y1 Q1,
  sswu_xy (pairE2 c0) x0 y0 /\ iso_map x0 y0 Q0 /\ sswu_xy (pairE2 c1) x1 y1 /\ iso_map x1 y1 Q1 /\
  (A0 (pairE2 c0) <> fp0 -> A0 y0 <> fp0 -> sgn0 (pairE2 c0) = sgn0 y0) /\ (A0 (pairE2 c1) <> fp0 -> A0 y1 <> fp0 -> sgn0 (pairE2 c1) = sgn0 y1) /\
  forall S R, g2add Q0 Q1 S -> cleared S R -> R <> Inf -> exists r, run (HashToG2OnJac msg) = Some r /\ aff2 r = R).
Proof.
  intros L F. destruct (top_run2 msg L F) as (c0 & c1 & E & _ & R). exists c0, c1. split; [exact E|]. rewrite R. exact (hash_jac_honest (pairE2 c0) (pairE2 c1)).
Qed.

(** ** examples *)
Lemma w0_sswu : sswu (e2Z wu0) (e2Z wx0) (e2Z wy0). Proof. split; [exact w0_xy | vm_compute; reflexivity]. Qed.
Lemma w1_sswu : sswu (e2Z wu1) (e2Z wx1) (e2Z wy1). Proof. split; [exact w1_xy | vm_compute; reflexivity]. Qed.
Lemma w_A0 : A0 (e2Z wu0) <> fp0 /\ A0 (e2Z wu1) <> fp0 /\ A0 (e2Z wy0) <> fp0 /\ A0 (e2Z wy1) <> fp0.
Proof. assert (H : forall a b : Fp, feqb a b = false -> a <> b) by (intros a b H ->; rewrite (proj2 (feqb_eq _ _) eq_refl) in H; discriminate H). repeat split; apply H; vm_compute; reflexivity. Qed.
Lemma w_rfc : rfc_hash (e2Z wu0) (e2Z wu1) (aff2 wR).
Proof.
  exists (wP wq0x wq0y), (wP wq1x wq1y), (wP wSx wSy). split; [exists (e2Z wx0), (e2Z wy0); split; [exact w0_sswu | exact w0_iso]|].
  split; [exists (e2Z wx1), (e2Z wy1); split; [exact w1_sswu | exact w1_iso]|]. split; [exact wS_add | exact (proj2 w_generic)].
Qed.
Lemma sqrt_zero_wrong v : ratio_square E2_Zero v /\ run (g2SqrtRatio E2_Zero v) = Some (E2_Zero, bF true).
Proof. split; [|apply sqrt_zero]. exists E2_Zero. ring. Qed.
Lemma map_on u : u <> E2_Zero -> exists x y, run (MapElementToCurve2 u) = Some (mkG2 x y) /\ sswu_xy u x y /\ isoon (Aff x y).
Proof. intros N. destruct (map_honest u N) as (x & y & R & S & _). exists x, y. split; [exact R|]. split; [exact S | exact (sswu_on u x y S)]. Qed.
