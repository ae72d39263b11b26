(** Hashing and cofactor clearing with the structure of the twist known: every
    finite result is in the subgroup of order r, and the only exceptional
    inputs left are two equal points and results at infinity. *)
From Coq Require Import ZArith NArith List Bool Lia String.
From Coq Require Import List.
From Verif Require Import Params ZMod Circuit Api Emulated ApiFacts Tower TowerFacts Pairing CurveSpec HashField HashFieldSpec Sha256Proofs HashFieldProofs G2 HashG2 G2Spec HashSpec G2Pred EcGroup G2Jac G2Mul G2Cof G2Psi G2Clear G2Chain G2ClearFacts G2Refute CircuitProofs HashSgn HashSqrt HashIso HashMap HashFinal HashWitPts HashWit HashFast HashCheat HashTop
  Primes Bls BlsSpec CircuitSpec PairSpec SigSpec PairSig FixedQ G2Gen G2Cyclic TwGroup TwistPt TwistSmall G2Full.
Import ListNotations.
Open Scope Z_scope.
Local Opaque MapElementToCurve2 G2Isogeny G2AddAssign G2ClearCofactor ClearCofactor G2JacobianAddAssign GetG2JacFromG2Affine GetG2AffineFromG2Jac hashTail encTail encJacTail hashJacTail HashToField hash_to_field.

(** *** cofactor clearing *)
Theorem clear_sound_full J P R r : g2on P -> jrep J P -> cleared P R -> R <> Inf -> sat (ClearCofactor J) r -> jrep r R /\ in_G2 R.
Proof.
  intros HP HJ HC N H. destruct (clear_sound J P r HP HJ (proj2 (generic_iff P R HP HC) N) H) as (R' & HC' & HR'). rewrite (cleared_fun _ _ _ HP HC' HC) in HR'.
  split; [exact HR'|]. destruct (clear_in_G2 P R HP HC) as [E|G]; [contradiction | exact G].
Qed.
Theorem clear_affine_full p R : g2on (aff2 p) -> cleared (aff2 p) R -> R <> Inf -> exists r, determ (G2ClearCofactor p) r /\ aff2 r = R /\ in_G2 R.
Proof.
  intros HP HC N. destruct (clear_affine p HP (proj2 (generic_iff _ R HP HC) N)) as (r & D & C). exists r. split; [exact D|]. split; [exact (cleared_fun _ _ _ HP C HC)|].
  destruct (clear_in_G2 _ R HP HC) as [E|G]; [contradiction | exact G].
Qed.
(** the points that go to infinity are those of order dividing h2 *)
Lemma tcl_m k x : tcl (tm k x) = tm k (tcl x).
Proof. unfold tcl. rewrite !tm_sum, <- !tpsi_m, <- !tm_mul, !(Z.mul_comm k). reflexivity. Qed.
Lemma clear_kernel_tw k x : tm (k * rBLS) x = tO -> ~ (rBLS | k) -> (tcl x = tO <-> tm k x = tO).
Proof.
  intros EX CP. split; intros E.
  - remember (tm k x) as y eqn:EY. destruct (tdec y tO) as [D|D]; [exact D|exfalso].
    assert (GY : in_G2 (tv y)).
    { apply (proj2 (in_G2_iff (tv y))). split; [apply ton|]. split; [intros F; exact (D (tO_eq _ F))|]. apply (proj2 (tm_inf rBLS y)). rewrite EY, <- tm_mul, Z.mul_comm. exact EX. }
    pose proof (proj1 (generic_iff _ _ (ton y) (tcl_ok y)) (G2Order.G2_generic _ GY)) as NI. apply NI. rewrite EY, tcl_m, E, tm_O. reflexivity.
  - destruct (tdec (tcl x) tO) as [D|D]; [exact D|exfalso]. apply CP. apply (t_ord rBLS k (tcl x) rBLS_prime (all_K x) D). rewrite <- tcl_m, E. apply tcl_O.
Qed.
Theorem clear_kernel P R : g2on P -> cleared P R -> (R = Inf <-> g2mul P h2BLS Inf).
Proof.
  intros HP HC. pose proof (proj1 (tcl_iff (tof P HP) R) HC) as ER.
  pose proof (clear_kernel_tw h2BLS (tof P HP) (proj1 (tm_inf (h2BLS * rBLS) (tof P HP)) (twist_exponent P HP)) h2_coprime) as K. split; intros E.
  - apply (proj2 (tm_inf h2BLS (tof P HP))). apply (proj1 K). apply tO_eq. rewrite <- ER. exact E.
  - rewrite ER. rewrite (proj2 K (proj1 (tm_inf h2BLS (tof P HP)) E)). reflexivity.
Qed.

(** *** hashing *)
Lemma iso_finite x y Q : isoon (Aff x y) -> iso_map x y Q -> Q <> Inf.
Proof. intros I M E. pose proof (iso_map_fun _ _ _ _ M (iso_map_ok x y (iso_off_kernel _ _ I))) as F. rewrite E in F. discriminate F. Qed.
Lemma sum_generic Q0 Q1 S T : g2on Q0 -> g2on Q1 -> Q0 <> Inf -> Q1 <> Inf -> Q0 <> Q1 -> g2add Q0 Q1 S -> cleared S T -> T <> Inf -> nonexc Q0 Q1 /\ clear_generic S /\ in_G2 T.
Proof.
  intros O0 O1 F0 F1 N A C NT. pose proof (g2_closed _ _ _ O0 O1 A) as OS. split; [|split].
  - split; [exact F0|]. split; [exact F1|]. split; [exact N|]. intros E. apply NT.
    assert (ES : S = Inf). { rewrite E in A. apply (g2_func _ _ _ _ (g2_neg_on _ O1) O1 A). apply g2_comm. apply g2_add_neg. }
    subst S. apply (tcl_iff tO) in C. rewrite C, tcl_O. reflexivity.
  - exact (proj2 (generic_iff S T OS C) NT).
  - destruct (clear_in_G2 S T OS C) as [E|G]; [contradiction | exact G].
Qed.
Theorem full_honest msg : length msg = 32%nat -> Forall byteF msg ->
  exists c0 c1, hash_to_field pBLS (map fval msg) dstZ 2 = Some [c0; c1] /\
  (pairE2 c0 <> E2_Zero -> pairE2 c1 <> E2_Zero -> exists x0 y0 Q0 x1 y1 Q1,
    sswu_xy (pairE2 c0) x0 y0 /\ iso_map x0 y0 Q0 /\ sswu_xy (pairE2 c1) x1 y1 /\ iso_map x1 y1 Q1 /\
    forall S T, Q0 <> Q1 -> g2add Q0 Q1 S -> cleared S T -> T <> Inf ->
      exists R, run (HashToG2 msg) = Some R /\ aff2 R = T /\ in_G2 T).
Proof.
  intros L F. destruct (top_honest msg L F) as (c0 & c1 & E & H). exists c0, c1. split; [exact E|]. intros N0 N1.
  destruct (H N0 N1) as (x0 & y0 & Q0 & x1 & y1 & Q1 & S0 & M0 & S1 & M1 & K). exists x0, y0, Q0, x1, y1, Q1.
  split; [exact S0|]. split; [exact M0|]. split; [exact S1|]. split; [exact M1|]. intros S T NE A C NT.
  pose proof (sswu_on _ _ _ S0) as I0. pose proof (sswu_on _ _ _ S1) as I1. pose proof (iso_on _ _ _ I0 M0) as O0. pose proof (iso_on _ _ _ I1 M1) as O1.
  destruct (sum_generic Q0 Q1 S T O0 O1 (iso_finite _ _ _ I0 M0) (iso_finite _ _ _ I1 M1) NE A C NT) as (X & G & GT).
  destruct (K S X A G) as (R & RR & CR & _). exists R. split; [exact RR|]. split; [|exact GT]. exact (cleared_fun _ _ _ (g2_closed _ _ _ O0 O1 A) CR C).
Qed.
Theorem full_any msg R : length msg = 32%nat -> sat (HashToG2 msg) R -> Forall byteF msg /\ exists u0 u1 x0 y0 x1 y1,
  sat (MapElementToCurve2 u0) (mkG2 x0 y0) /\ sat (MapElementToCurve2 u1) (mkG2 x1 y1) /\
  (isoon (Aff x0 y0) -> isoon (Aff x1 y1) -> exists Q0 Q1, iso_map x0 y0 Q0 /\ iso_map x1 y1 Q1 /\
   forall S T, Q0 <> Q1 -> g2add Q0 Q1 S -> cleared S T -> T <> Inf -> aff2 R = T /\ in_G2 T).
Proof.
  intros L H. destruct (top_any msg R L H) as (F & u0 & u1 & x0 & y0 & x1 & y1 & A0 & A1 & K). split; [exact F|]. exists u0, u1, x0, y0, x1, y1.
  split; [exact A0|]. split; [exact A1|]. intros I0 I1. destruct (K I0 I1) as (Q0 & Q1 & M0 & M1 & K'). exists Q0, Q1. split; [exact M0|]. split; [exact M1|]. intros S T NE A C NT.
  pose proof (iso_on _ _ _ I0 M0) as O0. pose proof (iso_on _ _ _ I1 M1) as O1.
  destruct (sum_generic Q0 Q1 S T O0 O1 (iso_finite _ _ _ I0 M0) (iso_finite _ _ _ I1 M1) NE A C NT) as (X & G & GT).
  destruct (K' S X A G) as (CR & _). split; [|exact GT]. exact (cleared_fun _ _ _ (g2_closed _ _ _ O0 O1 A) CR C).
Qed.
Theorem full_field u0 u1 x0 y0 x1 y1 Q0 Q1 S T : A0 u0 <> fp0 -> A0 u1 <> fp0 -> A0 y0 <> fp0 -> A0 y1 <> fp0 ->
  sswu u0 x0 y0 -> iso_map x0 y0 Q0 -> sswu u1 x1 y1 -> iso_map x1 y1 Q1 -> Q0 <> Q1 -> g2add Q0 Q1 S -> cleared S T -> T <> Inf ->
  exists R, run (hashTail u0 u1) = Some R /\ aff2 R = T /\ in_G2 T.
Proof.
  intros A B C D S0 M0 S1 M1 NE AD CL NT. pose proof (sswu_on _ _ _ (proj1 S0)) as I0. pose proof (sswu_on _ _ _ (proj1 S1)) as I1.
  destruct (sum_generic Q0 Q1 S T (iso_on _ _ _ I0 M0) (iso_on _ _ _ I1 M1) (iso_finite _ _ _ I0 M0) (iso_finite _ _ _ I1 M1) NE AD CL NT) as (X & G & GT).
  destruct (hash_rfc _ _ _ _ _ _ _ _ _ _ A B C D S0 M0 S1 M1 X AD G CL) as (R & HR & ER). exists R. auto.
Qed.
Theorem full_rfc msg c0 c1 x0 y0 x1 y1 Q0 Q1 S T : length msg = 32%nat -> Forall byteF msg ->
  hash_to_field pBLS (map fval msg) dstZ 2 = Some [c0; c1] ->
  A0 (pairE2 c0) <> fp0 -> A0 (pairE2 c1) <> fp0 -> A0 y0 <> fp0 -> A0 y1 <> fp0 ->
  sswu (pairE2 c0) x0 y0 -> iso_map x0 y0 Q0 -> sswu (pairE2 c1) x1 y1 -> iso_map x1 y1 Q1 -> Q0 <> Q1 -> g2add Q0 Q1 S -> cleared S T -> T <> Inf ->
  exists R, run (HashToG2 msg) = Some R /\ aff2 R = T /\ in_G2 T.
Proof.
  intros L F E A B C D S0 M0 S1 M1 NE AD CL NT. destruct (top_run2 msg L F) as (c0' & c1' & E' & R & _).
  rewrite E in E'. injection E' as <- <-. rewrite R. exact (full_field _ _ _ _ _ _ _ _ _ _ A B C D S0 M0 S1 M1 NE AD CL NT).
Qed.
Theorem full_enc msg : length msg = 32%nat -> Forall byteF msg ->
  exists c, hash_to_field pBLS (map fval msg) dstZ 1 = Some [c] /\
  (pairE2 c <> E2_Zero -> exists x y Q, sswu_xy (pairE2 c) x y /\ iso_map x y Q /\ (A0 (pairE2 c) <> fp0 -> A0 y <> fp0 -> sgn0 (pairE2 c) = sgn0 y) /\
  forall R, cleared Q R -> R <> Inf -> in_G2 R /\ exists r, run (EncodeToG2 msg) = Some r /\ run (EncodeToG2OnJac msg) = Some r /\ aff2 r = R).
Proof.
  intros L F. destruct (top_enc msg L F) as (c & E & H). exists c. split; [exact E|]. intros N. destruct (H N) as (x & y & Q & S & M & G & K1 & K2).
  exists x, y, Q. split; [exact S|]. split; [exact M|]. split; [exact G|]. intros R C NR. pose proof (iso_on _ _ _ (sswu_on _ _ _ S) M) as OQ.
  split; [destruct (clear_in_G2 Q R OQ C) as [X|X]; [contradiction | exact X]|].
  destruct (K1 (proj2 (generic_iff Q R OQ C) NR)) as (r & R1 & C1 & _). destruct (K2 R C NR) as (r' & R2 & E2).
  pose proof (cleared_fun _ _ _ OQ C1 C) as E1. assert (r = r') by (apply aff2_inj; congruence). subst r'. exists r. auto.
Qed.

(** *** an honest signature on the RFC's hash of the message is accepted *)
Theorem tx_rfc eng c apk sks c0 c1 x0 y0 x1 y1 Q0 Q1 S h : txWf c = true -> is_bits (tx_BitList c) -> Forall key_wf (tx_PublicKeys c) ->
  fval (tx_SignedWeight c) = signed_weight (tx_BitList c) (tx_Weights c) mod rBN -> set_commit (tx_PublicKeys c) (tx_Weights c) (tx_ApkCommitment c) ->
  aggregates eng (tx_BitList c) (tx_PublicKeys c) apk -> secret_keys (tx_PublicKeys c) sks ->
  Forall byteF (tx_MsgBytes c) -> hash_to_field pBLS (map fval (tx_MsgBytes c)) dstZ 2 = Some [c0; c1] ->
  A0 (pairE2 c0) <> fp0 -> A0 (pairE2 c1) <> fp0 -> A0 y0 <> fp0 -> A0 y1 <> fp0 ->
  sswu (pairE2 c0) x0 y0 -> iso_map x0 y0 Q0 -> sswu (pairE2 c1) x1 y1 -> iso_map x1 y1 Q1 -> Q0 <> Q1 -> g2add Q0 Q1 S -> cleared S (aff2 h) ->
  g2mul (aff2 h) (zsum (signers (tx_BitList c) sks)) (aff2 (tx_Signature c)) ->
  (exists f, sat (MillerLoop [G1neg; apk] [tx_Signature c; h]) f /\ ~ easy_trivial f) -> sat (txDefine eng c) tt.
Proof.
  intros W B K SW SC AG SK BY E A0' A1' B0 B1 S0 M0 S1 M1 NE AD CL HS F.
  pose proof (proj1 (txWf_iff c) W) as (_ & _ & _ & L).
  destruct (full_rfc _ _ _ _ _ _ _ _ _ _ _ L BY E A0' A1' B0 B1 S0 M0 S1 M1 NE AD CL ltac:(discriminate)) as (R & RR & ER & GR). apply aff2_inj in ER. subst R.
  exact (tx_honest eng c apk h sks W B K SW SC AG SK (run_sat _ _ RR) GR HS F).
Qed.
Theorem ro_rfc eng c apk sks z c0 c1 x0 y0 x1 y1 Q0 Q1 S h : roWf c = true -> Forall key6 (ro_OldPublicKeys c) -> is_bits (ro_BitList c) -> Forall key_wf (ro_NewPublicKeys c) ->
  weight_where counted (positions (ro_BitList c) (ro_NewPublicKeys c) (ro_OldPublicKeys c) (ro_OldWeights c)) z -> fval (ro_TrustedWeight c) = z mod rBN ->
  set_commit (ro_OldPublicKeys c) (ro_OldWeights c) (ro_OldApkCommitment c) -> set_commit (ro_NewPublicKeys c) (ro_NewWeights c) (ro_NewCommitment c) ->
  aggregates eng (ro_BitList c) (ro_NewPublicKeys c) apk -> secret_keys (ro_NewPublicKeys c) sks ->
  Forall byteF (ro_NewApkCommitmentBytes c) -> hash_to_field pBLS (map fval (ro_NewApkCommitmentBytes c)) dstZ 2 = Some [c0; c1] ->
  A0 (pairE2 c0) <> fp0 -> A0 (pairE2 c1) <> fp0 -> A0 y0 <> fp0 -> A0 y1 <> fp0 ->
  sswu (pairE2 c0) x0 y0 -> iso_map x0 y0 Q0 -> sswu (pairE2 c1) x1 y1 -> iso_map x1 y1 Q1 -> Q0 <> Q1 -> g2add Q0 Q1 S -> cleared S (aff2 h) ->
  g2mul (aff2 h) (zsum (signers (ro_BitList c) sks)) (aff2 (ro_Signature c)) ->
  (exists f, sat (MillerLoop [G1neg; apk] [ro_Signature c; h]) f /\ ~ easy_trivial f) -> sat (rotateDefine eng c) tt.
Proof.
  intros W K6 B K SW SW' SC SC' AG SK BY E A0' A1' B0 B1 S0 M0 S1 M1 NE AD CL HS F.
  pose proof (proj1 (roWf_iff c) W) as (_ & _ & _ & _ & _ & L).
  destruct (full_rfc _ _ _ _ _ _ _ _ _ _ _ L BY E A0' A1' B0 B1 S0 M0 S1 M1 NE AD CL ltac:(discriminate)) as (R & RR & ER & GR). apply aff2_inj in ER. subst R.
  exact (ro_honest eng c apk h sks z W K6 B K SW SW' SC SC' AG SK (run_sat _ _ RR) GR HS F).
Qed.
Theorem full_jac msg : length msg = 32%nat -> Forall byteF msg ->
  exists c0 c1, hash_to_field pBLS (map fval msg) dstZ 2 = Some [c0; c1] /\
  (pairE2 c0 <> E2_Zero -> pairE2 c1 <> E2_Zero -> exists x0 y0 Q0 x1 y1 Q1,
  sswu_xy (pairE2 c0) x0 y0 /\ iso_map x0 y0 Q0 /\ sswu_xy (pairE2 c1) x1 y1 /\ iso_map x1 y1 Q1 /\
  (A0 (pairE2 c0) <> fp0 -> A0 y0 <> fp0 -> sgn0 (pairE2 c0) = sgn0 y0) /\ (A0 (pairE2 c1) <> fp0 -> A0 y1 <> fp0 -> sgn0 (pairE2 c1) = sgn0 y1) /\
  forall S R, g2add Q0 Q1 S -> cleared S R -> R <> Inf -> in_G2 R /\ exists r, run (HashToG2OnJac msg) = Some r /\ aff2 r = R).
Proof.
  intros L F. destruct (top_jac msg L F) as (c0 & c1 & E & H). exists c0, c1. split; [exact E|]. intros N0 N1.
  destruct (H N0 N1) as (x0 & y0 & Q0 & x1 & y1 & Q1 & S0 & M0 & S1 & M1 & G0 & G1 & K). exists x0, y0, Q0, x1, y1, Q1.
  split; [exact S0|]. split; [exact M0|]. split; [exact S1|]. split; [exact M1|]. split; [exact G0|]. split; [exact G1|].
  intros S R A C NR. split; [|exact (K S R A C NR)].
  destruct (clear_in_G2 S R (g2_closed _ _ _ (iso_on _ _ _ (sswu_on _ _ _ S0) M0) (iso_on _ _ _ (sswu_on _ _ _ S1) M1) A) C) as [X|X]; [contradiction | exact X].
Qed.

(** *** instances *)
Lemma gen_cleared : exists R, cleared (aff2 G2gen) R /\ R <> Inf.
Proof.
  pose proof gen_on as HP. exists (tv (tcl (tof _ HP))). pose proof (tcl_ok (tof _ HP)) as C. split; [exact C|].
  exact (proj1 (generic_iff _ _ HP C) (G2Order.G2_generic _ gen_in_G2)).
Qed.
Lemma kernel_ex : exists P, g2on P /\ P <> Inf /\ cleared P Inf.
Proof. exists (tv tS). split; [apply ton|]. split; [intros E; discriminate E|]. pose proof (tcl_ok tS) as C. rewrite tS_clear in C. exact C. Qed.
Lemma wR_finite : aff2 wR <> Inf.
Proof. discriminate. Qed.
