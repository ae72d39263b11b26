(** The pairing is nondegenerate on the two order-r subgroups; signatures. *)
From Coq Require Import ZArith NArith List Bool Lia Field Znumtheory.
From Verif Require Import Primes Params ZMod RingPow ZPow Circuit Api Emulated ApiFacts FieldFacts Tower TowerSpec TowerFacts TowerProofs Frobenius TorusFacts CycloFacts Pairing CurveSpec G2 PairSpec HashG2 G2Spec EcIdeal LfVieta EcPoly EcEval EcGroup LineFour G2Jac G2Psi G2Mul G2Cof G2Order MillerProofs FixedQ FixedLoop FinalExp FinalExpProofs FinalExpSpec PairProofs Bls BlsSpec SigSpec CircuitSpec CircuitProofs MillerTotal MillerNeg MillerLf Kappa PairAdd PairAdd2 G1Group PairMul PairSig G2Gen G2Refute HashWitPts HashWit MillerWit G1Order G2Cyclic.
Import ListNotations.
Open Scope Z_scope.
Add Ring E12RND : E12_rt.

(** *** one value different from 1 *)
Lemma w_nondeg : exists m, sat (MillerLoop [wG] [wR]) m /\ kap m <> E12_One.
Proof.
  destruct w_miller_fin as (f & D & _ & N). pose proof (run_sat _ _ (proj1 D)) as S. exists f. split; [exact S|]. intros E. apply N.
  pose proof (kap_conj f (miller_neq0 _ _ _ S)) as K. rewrite E in K.
  rewrite <- (e12_fin (E12_Conjugate f)), <- (kap_def (E12_Conjugate f)). transitivity (E12_Mul E12_One (kap (E12_Conjugate f))); [ring | exact K].
Qed.
Lemma order_coprime e k : e <> E12_Zero -> z12 e rBLS = E12_One -> z12 e k = E12_One -> ~ (rBLS | k) -> e = E12_One.
Proof.
  intros N O K W. destruct (rel_prime_bezout _ _ (prime_rel_prime _ rBLS_prime _ W)) as [u w E].
  transitivity (z12 e (rBLS * u + k * w)); [replace (rBLS * u + k * w) with 1 by (rewrite <- E; ring); reflexivity|].
  rewrite (zpow_addE12 e (rBLS * u) (k * w) N), (zpow_mulE12 e rBLS u N), (zpow_mulE12 e k w N), O, K, !zpow_one. ring.
Qed.
Lemma in_G2_aff Q : in_G2 Q -> exists q, Q = aff2 q.
Proof. destruct Q as [|x y]; [intros (_ & N & _); now destruct N | exists (mkG2 x y); reflexivity]. Qed.
Lemma g2_multiple k Q : g2mul (aff2 G2gen) k Q -> Q <> Inf -> ~ (rBLS | k).
Proof.
  intros H N (c & ->). apply N. rewrite Z.mul_comm in H. destruct (g2_mul_ex Inf c (Logic.I : g2on Inf)) as (S & HS). rewrite (g2_mul_Inf _ _ HS) in HS.
  exact (g2_mul_fun _ _ _ _ gen_on H (g2_mul_mul _ _ _ _ _ gen_on (in_G2_order _ gen_in_G2) HS)).
Qed.
Lemma g1_multiple k Q : mul1 (g1aff G1gen) k Q -> Q <> Inf -> ~ (rBLS | k).
Proof.
  intros H N (c & ->). apply N. rewrite Z.mul_comm in H. destruct (g1_mul_ex Inf c (Logic.I : oncurve1 Inf)) as (S & HS). rewrite (g1_mul_Inf _ _ HS) in HS.
  exact (g1_mul_fun _ _ _ _ G1gen_on H (g1_mul_mul _ _ _ _ _ G1gen_on G1gen_order HS)).
Qed.
Lemma gen_value : exists g, pval G2gen (g1aff G1gen) g /\ qval G1gen (aff2 G2gen) g /\ g <> E12_One.
Proof.
  destruct (pval_ex G2gen _ gen_in_G2 G1gen_on) as (g & V). assert (Vq : qval G1gen (aff2 G2gen) g) by exact V.
  exists g. split; [exact V|]. split; [exact Vq|]. intros E. destruct w_nondeg as (m & S & N). destruct w_hash as (_ & _ & HG).
  destruct (G2_cyclic _ (proj1 HG) (in_G2_order _ HG)) as (k & Hk).
  assert (V2 : qval G1gen (aff2 wR) (kap m)) by (exists m; split; [exact S | exact eq_refl]).
  pose proof (qval_mul _ _ _ _ _ _ G1gen_on gen_in_G2 Hk Vq V2) as X. apply N. rewrite X, E. apply zpow_one.
Qed.
(** no pair of nonzero points of the two subgroups has value 1 *)
Theorem nondeg P Q : oncurve1 (g1aff P) -> mul1 (g1aff P) rBLS Inf -> in_G2 (aff2 Q) -> ~ pairing_value P Q S12one.
Proof.
  intros HP OP HQ V. destruct gen_value as (g & Vp & Vq & Ng).
  destruct (G1_cyclic _ HP OP) as (a & Ha). destruct (G2_cyclic _ (proj1 HQ) (in_G2_order _ HQ)) as (b & Hb).
  assert (Na : ~ (rBLS | a)) by (apply (g1_multiple _ _ Ha); discriminate). assert (Nb : ~ (rBLS | b)) by (apply (g2_multiple _ _ Hb); discriminate).
  destruct (pval_ex G2gen _ gen_in_G2 HP) as (e & Ve). pose proof (pval_mul _ _ _ _ _ _ gen_in_G2 G1gen_on Ha Vp Ve) as E1.
  assert (Ve' : qval P (aff2 G2gen) e) by (destruct P; exact Ve).
  apply value_qval in V. destruct V as (v & V & Ev). apply (rep12_inj E12_One v) in Ev. subst v.
  pose proof (qval_mul _ _ _ _ _ _ HP gen_in_G2 Hb Ve' V) as E2'.
  apply Ng. apply (order_coprime g a (pval_neq0 _ _ _ Vp) (pval_order _ _ _ Vp)); [|exact Na]. rewrite <- E1.
  exact (order_coprime e b (pval_neq0 _ _ _ Ve) (pval_order _ _ _ Ve) (eq_sym E2') Nb).
Qed.
(** every element of G2 is a multiple of every other *)
Lemma G2_generated H S : in_G2 H -> in_G2 S -> exists k, g2mul H k S.
Proof.
  intros HH HS. destruct (G2_cyclic _ (proj1 HH) (in_G2_order _ HH)) as (a & Ha). destruct (G2_cyclic _ (proj1 HS) (in_G2_order _ HS)) as (b & Hb).
  assert (Na : ~ (rBLS | a)) by (apply (g2_multiple _ _ Ha), (proj1 (proj2 HH))).
  destruct (rel_prime_bezout _ _ (prime_rel_prime _ rBLS_prime _ Na)) as [u w E].
  exists (w * b). destruct (g2_mul_ex H (w * b) (proj1 HH)) as (R & HR). pose proof (g2_mul_mul _ _ _ _ _ gen_on Ha HR) as X.
  destruct (g2_mul_ex Inf (u * b) (Logic.I : g2on Inf)) as (Y & HY). rewrite (g2_mul_Inf _ _ HY) in HY.
  pose proof (g2_mul_mul _ _ _ _ _ gen_on (in_G2_order _ gen_in_G2) HY) as Z0.
  pose proof (g2_mul_add _ _ _ _ _ _ gen_on X Z0 (g2_add_Inf R)) as T.
  replace (a * (w * b) + rBLS * (u * b)) with b in T; [|transitivity ((u * rBLS + w * a) * b); [rewrite E; ring | ring]].
  rewrite (g2_mul_fun _ _ _ _ gen_on Hb T). exact HR.
Qed.
(** an accepted signature in G2 is the secret multiple of the message point *)
Theorem sig_exact K S H k : in_G2 (aff2 H) -> in_G2 (aff2 S) -> mul1 (g1aff G1gen) k (g1aff K) ->
  sat (PairingCheck [G1neg; K] [S; H]) tt -> g2mul (aff2 H) k (aff2 S).
Proof.
  intros HH HS HK C. destruct (G2_generated _ _ HH HS) as (s & Hs).
  pose proof (sig_unique K S H k s HH (nondeg G1gen H G1gen_on G1gen_order HH) HK Hs C) as E.
  apply g2_mul_mod in Hs; [|exact HH]. rewrite E in Hs. destruct (g2_mul_ex (aff2 H) k (proj1 HH)) as (R & HR). pose proof HR as HR'.
  apply g2_mul_mod in HR'; [|exact HH]. rewrite (g2_mul_fun _ _ _ _ (proj1 HH) Hs HR'). exact HR.
Qed.
Theorem sig_iff K S H k : in_G2 (aff2 H) -> in_G2 (aff2 S) -> mul1 (g1aff G1gen) k (g1aff K) ->
  (sat (PairingCheck [G1neg; K] [S; H]) tt <-> g2mul (aff2 H) k (aff2 S) /\ exists f, sat (MillerLoop [G1neg; K] [S; H]) f /\ ~ easy_trivial f).
Proof.
  intros HH HS HK. split.
  - intros C. pose proof (sig_exact K S H k HH HS HK C) as M. split; [exact M|]. exact (proj1 (sig_honest K S H k HH HK M) C).
  - intros (M & F). exact (proj2 (sig_honest K S H k HH HK M) F).
Qed.
(** at most one signature of the group is accepted for a key and a message point *)
Theorem sig_one K S S' H : oncurve1 (g1aff K) -> mul1 (g1aff K) rBLS Inf -> in_G2 (aff2 H) -> in_G2 (aff2 S) -> in_G2 (aff2 S') ->
  sat (PairingCheck [G1neg; K] [S; H]) tt -> sat (PairingCheck [G1neg; K] [S'; H]) tt -> S = S'.
Proof.
  intros CK OK HH HS HS' A B. destruct (G1_cyclic _ CK OK) as (k & Hk).
  pose proof (g2_mul_fun _ _ _ _ (proj1 HH) (sig_exact K S H k HH HS Hk A) (sig_exact K S' H k HH HS' Hk B)) as E. destruct S, S'. now injection E as -> ->.
Qed.
Theorem tx_signature_exact eng c apk sks : txWf c = true -> aggregates eng (tx_BitList c) (tx_PublicKeys c) apk -> secret_keys (tx_PublicKeys c) sks ->
  in_G2 (aff2 (tx_Signature c)) -> sat (txDefine eng c) tt -> exists h, sat (HashToG2 (tx_MsgBytes c)) h /\
  (in_G2 (aff2 h) -> g2mul (aff2 h) (zsum (signers (tx_BitList c) sks)) (aff2 (tx_Signature c))).
Proof.
  intros W AG SK GS H. apply (tx_sat eng c W) in H. destruct H as (_ & _ & _ & _ & apk' & h & A & HH & C).
  pose proof (proj1 (txWf_iff c) W) as (L1 & L2 & L3 & L4). assert (L : length (tx_PublicKeys c) = length (tx_BitList c)) by congruence.
  apply (aggregates_apk eng _ _ apk L AG) in A. subst apk'. exists h. split; [exact HH|]. intros GH.
  exact (sig_exact apk _ h _ GH GS (aggregates_scalar _ _ _ _ _ AG SK) C).
Qed.
Theorem ro_signature_exact eng c apk sks : roWf c = true -> Forall key6 (ro_OldPublicKeys c) -> aggregates eng (ro_BitList c) (ro_NewPublicKeys c) apk -> secret_keys (ro_NewPublicKeys c) sks ->
  in_G2 (aff2 (ro_Signature c)) -> sat (rotateDefine eng c) tt -> exists h, sat (HashToG2 (ro_NewApkCommitmentBytes c)) h /\
  (in_G2 (aff2 h) -> g2mul (aff2 h) (zsum (signers (ro_BitList c) sks)) (aff2 (ro_Signature c))).
Proof.
  intros W K6 AG SK GS H. apply (rotate_sat eng c W K6) in H. destruct H as (_ & _ & _ & _ & _ & apk' & h & A & HH & C).
  pose proof (proj1 (roWf_iff c) W) as (L1 & L2 & L3 & L4 & L5 & L6). assert (L : length (ro_NewPublicKeys c) = length (ro_BitList c)) by congruence.
  apply (aggregates_apk eng _ _ apk L AG) in A. subst apk'. exists h. split; [exact HH|]. intros GH.
  exact (sig_exact apk _ h _ GH GS (aggregates_scalar _ _ _ _ _ AG SK) C).
Qed.
(** every key of the subgroup has a secret key *)
Theorem secret_keys_ex keys : Forall (fun k => oncurve1 (key_point k) /\ mul1 (key_point k) rBLS Inf) keys -> exists sks, secret_keys keys sks.
Proof.
  induction 1 as [|k keys (A & B) _ (sks & IH)]; [exists []; constructor|]. destruct (G1_cyclic _ A B) as (s & Hs). exists (s :: sks). constructor; assumption.
Qed.
