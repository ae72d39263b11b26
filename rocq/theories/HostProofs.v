(** C66, C67: from the random values of the tests to the accepted assignment. *)
From Coq Require Import ZArith NArith List Bool Lia Znumtheory.
From Verif Require Import Primes Params ZMod Circuit Api Emulated ApiFacts FieldFacts Tower TowerSpec TowerFacts TowerProofs Pairing CurveSpec HashField HashFieldSpec Sha256Proofs HashFieldProofs G2 PairSpec HashG2 G2Spec HashSpec G2Pred EcGroup G2Jac G2Psi G2Mul G2Cof G2Order G2Clear MillerProofs FixedQ FinalExp FinalExpProofs FinalExpSpec PairProofs Bls BlsSpec BlsProofs SigSpec CircuitSpec CircuitProofs MillerTotal G1Group G1Order G2Cyclic PairAdd PairMul PairSig PairNondeg HashSgn HashIso HashMap HashFinal HashWit HashTop G2Full HashFull Helpers HelperProofs Accept HostSpec HostFlow HostMath.
Import ListNotations.
Open Scope Z_scope.
Local Opaque MillerLoop PairingCheck HashToG2 hash_to_field AggregatePublicKeys AggregatePublicKeys_Rotate ComputeAPKCommitment CalculateTrustedWeight.

(** *** encodings *)
Lemma host1_ok P : host_ok (host1 P).
Proof. destruct P as [|x y]; cbn [host1]; split; cbn [hX hY]; try (split; [lia | reflexivity]); apply fval_pos. Qed.
Lemma host1_inj P Q : oncurve1 P -> oncurve1 Q -> host1 P = host1 Q -> P = Q.
Proof.
  destruct P as [|x y], Q as [|x' y']; cbn [host1]; intros HP HQ E; try reflexivity.
  - exfalso. injection E as E1 E2. apply (g1_y_nz _ _ HQ). apply fval_inj. symmetry. exact E2.
  - exfalso. injection E as E1 E2. apply (g1_y_nz _ _ HP). apply fval_inj. exact E2.
  - injection E as E1 E2. apply fval_inj in E1, E2. now subst.
Qed.
Lemma g2_y_nz x y : g2on (Aff x y) -> y <> E2_Zero.
Proof. intros H. exact (kmul_y (Aff x y) 1 (mkG2 x y) H (g2_mul_1 _)). Qed.
Lemma host2_inj P Q : g2on P -> g2on Q -> host2 P = host2 Q -> P = Q.
Proof.
  destruct P as [|x y], Q as [|x' y']; cbn [host2]; intros HP HQ E; try reflexivity.
  - exfalso. apply (g2_y_nz _ _ HQ). exact (eq_sym (f_equal g2Y E)).
  - exfalso. apply (g2_y_nz _ _ HP). exact (f_equal g2Y E).
  - pose proof (f_equal g2X E) as E1. pose proof (f_equal g2Y E) as E2. cbn [g2X g2Y] in E1, E2. now subst.
Qed.
Lemma host2_fin P : P <> Inf -> aff2 (host2 P) = P.
Proof. destruct P; [now intros []|reflexivity]. Qed.
Lemma host1_key P : P <> Inf -> key_wf (NewG1Affine (host1 P)) /\ key_point (NewG1Affine (host1 P)) = P.
Proof.
  intros N. destruct (host1_ok P) as [O1 O2]. destruct (newG1_ok _ O1 O2) as [W E]. split; [exact W|]. rewrite E.
  destruct P as [|x y]; [now destruct N|]. cbn [host1 hX hY]. f_equal; apply fval_inj; rewrite fval_ofZ_small; try reflexivity; apply fval_pos.
Qed.
Lemma host1_wf P : key_wf (NewG1Affine (host1 P)).
Proof. destruct (host1_ok P) as [O1 O2]. exact (proj1 (newG1_ok _ O1 O2)). Qed.

(** *** multiples of a point of G2 *)
Lemma h_mult H k R : in_G2 H -> g2mul H k R -> (R = Inf <-> (rBLS | k)).
Proof.
  intros HH HR. pose proof (proj1 HH) as HO. pose proof (in_G2_order _ HH) as OR.
  assert (Z : forall c m, g2mul H m Inf -> g2mul H (c * m) Inf).
  { intros c m Hm. destruct (g2_mul_ex Inf c (Logic.I : g2on Inf)) as (S & HS). rewrite (g2_mul_Inf _ _ HS) in HS.
    rewrite Z.mul_comm. exact (g2_mul_mul _ _ _ _ _ HO Hm HS). }
  split.
  - intros ->. destruct (Zdivide_dec rBLS k) as [D|D]; [exact D|exfalso].
    destruct (rel_prime_bezout _ _ (prime_rel_prime _ rBLS_prime _ D)) as [u w E].
    pose proof (g2_mul_add _ _ _ _ _ _ HO (Z u _ OR) (Z w _ HR) (g2_add_O Inf (Logic.I : g2on Inf))) as X. rewrite E in X.
    pose proof (g2_mul_fun _ _ _ _ HO X (g2_mul_1 _)) as F. symmetry in F. exact (proj1 (proj2 HH) F).
  - intros (c & ->). exact (g2_mul_fun _ _ _ _ HO HR (Z c _ OR)).
Qed.
Lemma g_mult k R : mulG k R -> (R = Inf <-> (rBLS | k)).
Proof.
  intros HR. split.
  - intros ->. destruct (Zdivide_dec rBLS k) as [D|D]; [exact D|exfalso]. exact (gen_nonzero k D HR).
  - intros D. destruct R as [|x y]; [reflexivity|exfalso]. exact (g1_multiple k _ HR ltac:(discriminate) D).
Qed.
Transparent MillerLoop.
Lemma miller_y0 P Q f : g1Y P = f0 pBLS -> ~ sat (MillerLoop [P] [Q]) f.
Proof.
  intros E H. unfold MillerLoop in H. cbn [length Nat.eqb orb negb combine mmap] in H.
  apply sat_bind in H. destruct H as (ps & H & _). apply sat_bind in H. destruct H as (s & H & _). unfold initPair in H.
  apply sat_bind in H. destruct H as (yi & H & _). rewrite E in H. clear -H.
  destruct H as (i & H). apply sat_assert_bind in H. destruct H as (H & _). apply feqb_eq in H.
  apply (f_equal fval) in H. rewrite fval_mul in H. change (fval (f0 pBLS)) with 0 in H. rewrite Z.mul_0_r in H. discriminate H.
Qed.
Opaque MillerLoop.

(** *** the signing loop *)
Definition taken (st : Z -> bool) (l : list (Z * Z * Z)) : list (Z * Z * Z) := filter (fun t => st (fst (fst t))) l.
Lemma zsum_cons x l : zsum (x :: l) = x + zsum l. Proof. reflexivity. Qed.
Lemma sign_value st H l : g2on H -> forall sw a A out, g2mul H a A -> sign_loop st (host2 H) l (sw, host2 A) out ->
  exists A', snd out = host2 A' /\ g2mul H (a + zsum (map snd (taken st l))) A' /\ fst out = sw + zsum (map (fun t => snd (fst t)) (taken st l)).
Proof.
  intros HO. induction l as [|[[b w] s] l IH]; intros sw a A out HA L; inversion L as [a0|b0 w0 s0 l0 a0 r0 TB L'|b0 w0 s0 l0 sw0 sig0 S0 sig' r0 TB M AD0 L']; subst; clear L.
  - exists A. cbn [fst snd taken filter map]. change (zsum []) with 0. rewrite !Z.add_0_r. auto.
  - unfold taken. cbn [filter fst snd]. rewrite TB. exact (IH _ _ _ _ HA L').
  - unfold taken. cbn [filter fst snd]. rewrite TB. cbn [map snd fst]. rewrite !zsum_cons.
    destruct M as (P & R & OP & EP & MP & ->). apply (host2_inj _ _ HO OP) in EP. subst P. clear OP.
    destruct AD0 as (P & Q & T & OP & OQ & EP & EQ & AD & ->). pose proof (g2_mul_on _ _ _ HO HA) as OA. pose proof (g2_mul_on _ _ _ HO MP) as OR.
    apply (host2_inj _ _ OA OP) in EP. apply (host2_inj _ _ OR OQ) in EQ. subst P Q.
    destruct (IH _ _ _ _ (g2_mul_add _ _ _ _ _ _ HO HA MP AD) L') as (A' & E1 & E2 & E3). exists A'. rewrite !Z.add_assoc. auto.
Qed.
Lemma sign_ex st H l : g2on H -> forall sw a A, g2mul H a A -> exists out, sign_loop st (host2 H) l (sw, host2 A) out.
Proof.
  intros HO. induction l as [|[[b w] s] l IH]; intros sw a A HA; [eexists; constructor|].
  destruct (st b) eqn:E.
  - destruct (g2_mul_ex H s HO) as (R & MR). pose proof (g2_mul_on _ _ _ HO HA) as OA. pose proof (g2_mul_on _ _ _ HO MR) as OR.
    destruct (g2_total A R OA OR) as (T & HT). destruct (IH (sw + w) (a + s) T (g2_mul_add _ _ _ _ _ _ HO HA MR HT)) as (out & L).
    exists out. apply (sl_take _ _ _ _ _ _ _ _ (host2 R) (host2 T)); [exact E | exists H, R; auto | exists A, R, T; auto 10 | exact L].
  - destruct (IH sw a A HA) as (out & L). exists out. now apply sl_skip.
Qed.
Lemma taken_signers st bits : (forall b, b = 0 \/ b = 1 -> st b = (b =? 1)) -> Forall (fun b => b = 0 \/ b = 1) bits ->
  forall ws sks, length ws = length bits -> length sks = length bits ->
  map snd (taken st (combine (combine bits ws) sks)) = signers (bigIntToVariableArray bits) sks /\
  map (fun t => snd (fst t)) (taken st (combine (combine bits ws) sks)) = signers (bigIntToVariableArray bits) ws.
Proof.
  intros Hst. induction 1 as [|b bits B F IH]; intros ws sks Lw Ls; [split; reflexivity|].
  destruct ws as [|w ws]; [discriminate|]. destruct sks as [|s sks]; [discriminate|].
  destruct (IH ws sks ltac:(cbn [length] in Lw; lia) ltac:(cbn [length] in Ls; lia)) as [I1 I2].
  unfold taken, signers, bigIntToVariableArray in *. cbn [combine map filter fst snd]. rewrite (Hst b B).
  replace (fval (ofZ rBN b)) with b; [|symmetry; apply fval_ofZ_small; destruct B as [-> | ->]; split; [lia | reflexivity | lia | reflexivity]].
  destruct (b =? 1); cbn [map snd fst]; rewrite I1, I2; split; reflexivity.
Qed.

(** *** the host's own check *)
Lemma apk_ex bits : Forall (fun b => b = 0 \/ b = 1) bits -> forall sks pks, length sks = length bits -> Forall2 base_mul sks pks -> forall a A, mulG a A ->
  exists R, apk_loop (combine bits pks) (host1 A) (host1 R) /\ mulG (a + zsum (signers (bigIntToVariableArray bits) sks)) R.
Proof.
  induction 1 as [|b bits B F IH]; intros sks pks L K a A HA.
  - exists A. split; [constructor|]. cbn. now rewrite Z.add_0_r.
  - destruct K as [|s k sks pks (P & MP & ->) K]; [discriminate|]. cbn [length] in L. cbn [combine].
    unfold signers, bigIntToVariableArray. cbn [combine map filter fst snd].
    replace (fval (ofZ rBN b)) with b; [|symmetry; apply fval_ofZ_small; destruct B as [-> | ->]; split; [lia | reflexivity | lia | reflexivity]].
    assert (Eb : int64 b = b) by (destruct B as [-> | ->]; reflexivity).
    destruct (b =? 1) eqn:E.
    + pose proof (g1_mul_on _ _ _ G1gen_on HA) as OA. pose proof (g1_mul_on _ _ _ G1gen_on MP) as OP.
      destruct (g1_total A P OA OP) as (T & HT).
      destruct (IH sks pks ltac:(lia) K (a + s) T (g1_mul_add _ _ _ _ _ _ G1gen_on HA MP HT)) as (R & LR & MR).
      exists R. split; [apply (al_take _ _ _ _ (host1 T)); [now rewrite Eb | exists A, P, T; auto 10 | exact LR]|].
      cbn [map snd]. rewrite zsum_cons, Z.add_assoc. exact MR.
    + destruct (IH sks pks ltac:(lia) K a A HA) as (R & LR & MR). exists R. split; [apply al_skip; [now rewrite Eb | exact LR] | exact MR].
Qed.
Lemma pair_inf v : host_pair (host1 Inf) v S12one.
Proof. left. split; [now left | reflexivity]. Qed.
Lemma host_check_ok H k K A : H = Inf \/ in_G2 H -> mulG k K -> g2mul H k A -> host_check [host1 (neg1 (g1aff G1gen)); host1 K] [host2 A; host2 H].
Proof.
  intros HH HK HA. assert (ONE : S12mul S12one (S12mul S12one S12one) = S12one) by reflexivity.
  destruct HH as [->|HH].
  - rewrite (g2_mul_Inf _ _ HA). exists [S12one; S12one]. cbn [combine]. split; [|exact ONE].
    apply F2_two; left; (split; [now right | reflexivity]).
  - destruct K as [|x y].
    + rewrite (proj2 (h_mult H k A HH HA) (proj1 (g_mult k Inf HK) eq_refl)). exists [S12one; S12one]. cbn [combine]. split; [|exact ONE].
      apply F2_two; left; (split; [|reflexivity]); [now right | now left].
    + assert (NA : A <> Inf). { intros E. pose proof (proj2 (g_mult k _ HK) (proj1 (h_mult H k A HH HA) E)) as X. discriminate X. }
      destruct H as [|hx hy]; [destruct (proj1 (proj2 HH) eq_refl)|]. destruct A as [|ax ay]; [now destruct NA|].
      pose proof (sig_values G1gen (mkG1 x y) (mkG2 ax ay) (mkG2 hx hy) k G1gen_on HH HK HA) as (e & V1 & V2).
      assert (GS : in_G2 (aff2 (mkG2 ax ay))) by (apply (in_G2_mul _ _ _ HH HA); discriminate).
      destruct (value_ex G1neg (mkG2 ax ay)) as (e' & V'); [rewrite G1neg_neg; exact (g1_neg_on _ G1gen_on) | exact GS|].
      pose proof (value_neg1 _ _ _ _ _ G1gen_on GS G1neg_neg V1 V') as X.
      exists [e'; e]. cbn [combine host2]. split.
      * apply F2_two; right; cbn [fst snd].
        -- split; [intros E; exact (g2_y_nz _ _ (proj1 GS) (f_equal g2Y E))|]. exists G1neg. split; [reflexivity | exact V'].
        -- split; [intros E; exact (g2_y_nz _ _ (proj1 HH) (f_equal g2Y E))|]. exists (mkG1 x y). split; [reflexivity | exact V2].
      * cbn [fold_right]. apply value_kap in V1, V'. destruct V1 as (m & _ & ->), V' as (m' & _ & ->). rewrite <- rep12_one, <- !rep12_mul in *.
        apply rep12_inj in X. f_equal. rewrite E12_1_r, E12_comm. exact X.
Qed.

Lemma host_inf1 : mkHost 0 0 = host1 Inf. Proof. reflexivity. Qed.
Lemma host_inf2 : mkG2 E2_Zero E2_Zero = host2 Inf. Proof. reflexivity. Qed.
Lemma verify_ok bits sks pks H A : H = Inf \/ in_G2 H -> Forall (fun b => b = 0 \/ b = 1) bits -> length sks = length bits -> Forall2 base_mul sks pks ->
  g2mul H (zsum (signers (bigIntToVariableArray bits) sks)) A -> verifyPairingCheck pks bits (host2 A) (host2 H).
Proof.
  intros HH F L K HA. split; [rewrite <- L; symmetry; exact (F2len _ _ _ K)|].
  destruct (apk_ex bits F sks pks L K 0 Inf (g1_mul_0 _)) as (R & LR & MR). rewrite Z.add_0_l in MR.
  exists (host1 R), (host1 R). rewrite host_inf1. split; [exact LR|]. split.
  - exists R, Inf, R. pose proof (g1_mul_on _ _ _ G1gen_on MR) as OR. split; [exact OR|]. split; [exact (Logic.I : oncurve1 Inf)|].
    split; [reflexivity|]. split; [reflexivity|]. split; [apply g1_comm, g1_add_O; exact OR | reflexivity].
  - exact (host_check_ok H _ R A HH MR HA).
Qed.
Lemma keys_ex sks : exists pks, Forall2 base_mul sks pks.
Proof.
  induction sks as [|s sks (pks & K)]; [exists []; constructor|]. destruct (g1_mul_ex (g1aff G1gen) s G1gen_on) as (P & HP).
  exists (host1 P :: pks). constructor; [exists P; now split | exact K].
Qed.
Lemma bytes_F x : bytes32 x -> length (map (ofZ rBN) x) = 32%nat /\ Forall byteF (map (ofZ rBN) x) /\ map fval (map (ofZ rBN) x) = x.
Proof.
  intros [L F]. split; [now rewrite map_length|]. clear L. induction F as [|b x B F [I1 I2]]; [split; [constructor | reflexivity]|].
  assert (E : fval (ofZ rBN b) = b) by (apply fval_ofZ_small; assert (256 < rBN) by reflexivity; lia).
  cbn [map]. split; [constructor; [unfold byteF; rewrite E; lia | exact I1] | rewrite E, I2; reflexivity].
Qed.
Lemma hash_ex x : bytes32 x -> exists H, host_hash x dstHost (host2 H) /\ (H = Inf \/ in_G2 H).
Proof.
  intros B. destruct (bytes_F x B) as (L & F & E). destruct (top_run2 _ L F) as (c0 & c1 & EH & _). rewrite E in EH.
  destruct (rfc_total (pairE2 c0) (pairE2 c1)) as (T & HT & GT). exists T. split; [|exact GT]. exists c0, c1, T.
  split; [exact EH | split; [exact HT | reflexivity]].
Qed.
Lemma rfc_in u0 u1 T : rfc_hash u0 u1 T -> T = Inf \/ in_G2 T.
Proof.
  intros (P0 & P1 & S & (x0 & y0 & S0 & M0) & (x1 & y1 & S1 & M1) & AD & CL).
  pose proof (iso_on _ _ _ (sswu_on _ _ _ (proj1 S0)) M0) as O0. pose proof (iso_on _ _ _ (sswu_on _ _ _ (proj1 S1)) M1) as O1.
  exact (clear_in_G2 S T (g2_closed _ _ _ O0 O1 AD) CL).
Qed.
Lemma in_on H : H = Inf \/ in_G2 H -> g2on H.
Proof. intros [->|H']; [exact (Logic.I : g2on Inf) | exact (proj1 H')]. Qed.

(** *** the transaction flow *)
Theorem tx_flow_total hash sks bits ws x : iden3_hash hash -> test_values sks bits ws -> bytes32 x -> exists asg, test_tx hash sks bits ws x asg.
Proof.
  intros HI (L1 & L2 & L3 & F1 & F2 & F3) B. destruct (keys_ex sks) as (pks & K). pose proof (F2len _ _ _ K) as LK.
  assert (FW : Forall (fun w => 0 <= w < rBN) ws).
  { eapply Forall_impl; [|exact F3]. cbv beta. intros w. assert (2 ^ 10 < rBN) by reflexivity. lia. }
  destruct (commitment_agrees hash pks ws HI ltac:(congruence) L3 FW) as (c & EC & _).
  destruct (hash_ex x B) as (H & HH & GH). pose proof (in_on _ GH) as OH.
  destruct (sign_ex (fun b => 0 <? b) H (combine (combine bits ws) sks) OH 0 0 Inf (g2_mul_0 _)) as ([sw sig] & LO).
  destruct (sign_value _ H _ OH 0 0 Inf _ (g2_mul_0 _) LO) as (A & EA & MA & ES). cbn [fst snd] in EA, ES. rewrite Z.add_0_l in MA.
  destruct (taken_signers (fun b => 0 <? b) bits) with (ws := ws) (sks := sks) as [T1 T2]; [intros b [-> | ->]; reflexivity | exact F2 | congruence | congruence|].
  rewrite T1 in MA. eexists. exists pks, c, (host2 H), sw, sig. split; [now split|]. split; [exact HH|]. split; [exact LO|]. split; [|reflexivity].
  rewrite EA. apply (verify_ok bits sks pks H A GH F2 ltac:(congruence) K MA).
Qed.
Definition agg_value (bits : list Fr) (keys : list G1Key) (P : G1Affine) : Prop :=
  (signers bits keys = [] /\ P = mkG1 (f0 pBLS) (f0 pBLS)) \/ generic_sum (map key_xy (signers bits keys)) (g1X P, g1Y P).
Lemma small_sum (l : list Z) : (length l <= 10)%nat -> Forall (fun s => 0 < s < 2 ^ 230) l -> zsum l < rBLS.
Proof.
  intros L F. assert (X : zsum l <= Z.of_nat (length l) * 2 ^ 230).
  { clear L. induction F as [|s l B F IH]; [cbn; lia|]. rewrite zsum_cons. cbn [length]. lia. }
  assert (10 * 2 ^ 230 < rBLS) by reflexivity. lia.
Qed.
Lemma signers_secret bits sks pks : Forall2 base_mul sks pks -> Forall (fun s => 0 < s < 2 ^ 230) sks ->
  Forall2 keyAt (map key_xy (signers bits (NewG1AffineArray pks))) (signers bits sks).
Proof.
  intros K F.
  assert (X : Forall2 (fun k s => keyAt (key_xy k) s) (NewG1AffineArray pks) sks).
  { clear bits. induction K as [|s v sks pks (P & M & ->) K IH]; [constructor|]. apply Forall_cons_iff in F. destruct F as [B F].
    cbn [NewG1AffineArray map]. constructor; [|exact (IH F)].
    assert (N : P <> Inf). { intros ->. assert (2 ^ 230 < rBLS) by reflexivity. apply (gen_small s ltac:(lia) M). }
    unfold keyAt, key_xy. cbn [fst snd]. change (mulG s (key_point (NewG1Affine (host1 P)))). rewrite (proj2 (host1_key P N)). exact M. }
  apply (Forall2_signers _ bits) in X. clear -X. induction X; [constructor|]. cbn [map]. constructor; assumption.
Qed.
Lemma keys_wf sks pks : Forall2 base_mul sks pks -> Forall key_wf (NewG1AffineArray pks).
Proof. induction 1 as [|s v sks pks (P & M & ->) K IH]; [constructor|]. cbn [NewG1AffineArray map]. constructor; [apply host1_wf | exact IH]. Qed.
Theorem agg_check bits sks pks sig h : length sks = 10%nat -> Forall2 base_mul sks pks -> Forall (fun s => 0 < s < 2 ^ 230) sks ->
  in_G2 (aff2 h) -> (signers bits sks <> [] -> g2mul (aff2 h) (zsum (signers bits sks)) (aff2 sig)) ->
  ((exists apk, agg_value bits (NewG1AffineArray pks) apk /\ run (PairingCheck [G1neg; apk] [sig; h]) = Some tt) <-> good_signers (signers bits sks) sig h).
Proof.
  intros L K F HH HS. pose proof (signers_secret bits sks pks K F) as KS.
  destruct (signers_Forall (fun s => 0 < s < 2 ^ 230) bits sks F) as [FS LS].
  set (ss := signers bits sks) in *. set (ks := map key_xy (signers bits (NewG1AffineArray pks))) in *.
  assert (B : zsum ss < rBLS) by (apply small_sum; [lia | exact FS]).
  assert (P : Forall (fun k => 0 < k) ss) by (eapply Forall_impl; [|exact FS]; cbv beta; lia).
  assert (EK : signers bits (NewG1AffineArray pks) = [] <-> ss = []).
  { split; intros E; unfold ks in KS; rewrite E in KS; [inversion KS; reflexivity|].
    destruct (signers bits (NewG1AffineArray pks)); [reflexivity | inversion KS]. }
  assert (NK : ss <> [] -> ks <> []) by (intros N E; rewrite E in KS; inversion KS; subst; apply N; symmetry; assumption).
  split.
  - intros (apk & [[E ->]|G] & R).
    + exfalso. apply run_sat in R. apply pair_many_sat in R; [|discriminate]. destruct R as (f & HM & _). apply two_miller in HM.
      destruct HM as (m1 & m2 & _ & M2 & _). exact (miller_y0 (mkG1 (f0 pBLS) (f0 pBLS)) h m2 (eq_refl (f0 pBLS)) M2).
    + assert (NS : ss <> []). { intros E. rewrite E in KS. fold ks in G. inversion KS as [X|]. rewrite <- X in G. remember [] as LL eqn:EL in G. destruct G as [q|l0 ? ? ? ? ? ?]; [discriminate EL | destruct l0; discriminate EL]. }
      pose proof (generic_scalar _ G1gen_on ks _ G ss KS) as M. cbn [fst snd] in M. split; [exact NS|]. split.
      * apply (generic_keys ks ss (NK NS) KS P B). exists (g1X apk, g1Y apk). exact G.
      * destruct (proj1 (check_run apk sig h _ HH M (HS NS)) R) as (f & Hf & NE). exists apk, f. auto.
  - intros (NS & ND & apk & f & M & Hf & NE). destruct (proj2 (generic_keys ks ss (NK NS) KS P B) ND) as (r & G).
    pose proof (generic_scalar _ G1gen_on ks r G ss KS) as M'. pose proof (g1_mul_fun _ _ _ _ G1gen_on M M') as E.
    unfold g1aff in E. injection E as E1 E2. exists apk. split.
    + right. fold ks. rewrite E1, E2. destruct r. exact G.
    + apply (check_run apk sig h _ HH M (HS NS)). exists f. auto.
Qed.
Lemma weight_value bits ws : Forall (fun w => 0 <= w < 2 ^ 10) ws ->
  fval (ofZ rBN (zsum (signers bits ws))) = signed_weight bits (bigIntToVariableArray ws) mod rBN.
Proof.
  intros F. rewrite fval_ofZ. unfold signed_weight, bigIntToVariableArray. f_equal.
  revert bits. induction F as [|w ws B F IH]; intros bits; [destruct bits; reflexivity|]. destruct bits as [|b bits]; [reflexivity|].
  unfold signers in *. cbn [map combine filter fst snd]. destruct (fval b =? 1); cbn [map snd]; [|apply IH]. rewrite !zsum_cons, IH. f_equal.
  symmetry. apply fval_ofZ_small. assert (2 ^ 10 < rBN) by reflexivity. lia.
Qed.
Lemma bits_var bits : Forall (fun b => b = 0 \/ b = 1) bits -> is_bits (bigIntToVariableArray bits).
Proof.
  intros F. apply Forall_forall. intros k Hk. apply in_map_iff in Hk. destruct Hk as (b & <- & Hb).
  destruct (proj1 (Forall_forall _ _) F b Hb) as [-> | ->]; [left | right]; reflexivity.
Qed.
Lemma hash_run x h : bytes32 x -> plain_hash x dstHost -> host_hash x dstHost h -> h <> mkG2 E2_Zero E2_Zero ->
  run (HashToG2 (map (ofZ rBN) x)) = Some h /\ in_G2 (aff2 h).
Proof.
  intros B PH (c0 & c1 & T & EH & (P0 & P1 & S & (x0 & y0 & S0 & M0) & (x1 & y1 & S1 & M1) & AD & CL) & ->) NH.
  destruct (bytes_F x B) as (L & F & E). destruct (PH c0 c1 EH) as (A & A' & Y0 & Y1 & NE).
  assert (NT : T <> Inf) by (intros ->; now apply NH).
  assert (NP : P0 <> P1) by (apply NE; [exists x0, y0; now split | exists x1, y1; now split]).
  rewrite <- E in EH.
  destruct (full_rfc _ c0 c1 x0 y0 x1 y1 P0 P1 S T L F EH A A' (Y0 _ _ S0) (Y1 _ _ S1) S0 M0 S1 M1 NP AD CL NT) as (R & HR & ER & GR).
  rewrite (host2_fin T NT). split; [|exact GR]. rewrite HR. f_equal. apply aff2_inj. rewrite ER. symmetry. exact (host2_fin T NT).
Qed.
Lemma check_runs {A} (a b : Fr) (k : Circ A) r : run (CommitmentCheck a b ;;; k) = Some r <-> a = b /\ run k = Some r.
Proof. unfold CommitmentCheck, api_AssertIsEqual. rewrite run_assert_iff, feqb_eq. tauto. Qed.
Lemma run_bind_iff {A B} (c : Circ A) (f : A -> Circ B) b : run (bind c f) = Some b <-> exists a, run c = Some a /\ run (f a) = Some b.
Proof. exact (runs_bind A B c f b). Qed.
Theorem tx_flow hash sks bits ws x asg : iden3_hash hash -> test_values sks bits ws -> bytes32 x -> plain_hash x dstHost ->
  test_tx hash sks bits ws x asg -> tx_MessageHash asg <> mkG2 E2_Zero E2_Zero ->
  (run (txDefine TestEngine asg) = Some tt <-> good_signers (signers (tx_BitList asg) sks) (tx_Signature asg) (tx_MessageHash asg)).
Proof.
  intros HI (L1 & L2 & L3 & F1 & F2 & F3) B PH (pks & c & h & sw & sig & (K & EC) & HH & LO & _ & ->) NH.
  cbn [tx_MessageHash tx_BitList tx_Signature] in *. pose proof (F2len _ _ _ K) as LK.
  assert (FW : Forall (fun w => 0 <= w < rBN) ws).
  { eapply Forall_impl; [|exact F3]. cbv beta. intros w. assert (2 ^ 10 < rBN) by reflexivity. lia. }
  destruct (commitment_agrees hash pks ws HI ltac:(congruence) L3 FW) as (c' & EC' & _ & DC & _). rewrite EC in EC'. injection EC' as <-.
  destruct (hash_run x h B PH HH NH) as [RH GH].
  destruct (taken_signers (fun b => 0 <? b) bits) with (ws := ws) (sks := sks) as [T1 T2]; [intros b [-> | ->]; reflexivity | exact F2 | congruence | congruence|].
  destruct HH as (c0 & c1 & T & EH & RT & ->). assert (NT : T <> Inf) by (intros ->; now apply NH). rewrite (host2_fin T NT) in GH.
  destruct (sign_value _ T _ (proj1 GH) 0 0 Inf _ (g2_mul_0 _) LO) as (A & EA & MA & ES). cbn [fst snd] in EA, ES. rewrite Z.add_0_l in MA, ES.
  rewrite T1 in MA. rewrite T2 in ES. set (vb := bigIntToVariableArray bits) in *.
  assert (HS : signers vb sks <> [] -> g2mul (aff2 (host2 T)) (zsum (signers vb sks)) (aff2 sig)).
  { intros NS. rewrite (host2_fin T NT), EA, host2_fin; [exact MA|]. intros EI. apply (h_mult T _ A GH MA) in EI.
    destruct (signers_Forall (fun s => 0 < s < 2 ^ 230) vb sks F1) as [FS LS].
    pose proof (small_sum (signers vb sks) ltac:(lia) FS). apply Z.divide_pos_le in EI; [lia|].
    apply zsum_pos; [eapply Forall_impl; [|exact FS]; cbv beta; lia | exact NS]. }
  rewrite <- (agg_check vb sks pks sig (host2 T) L1 K F1 ltac:(rewrite (host2_fin T NT); exact GH) HS).
  unfold txDefine, VerifyBLS_bls12_Tx. cbn [tx_PublicKeys tx_BitList tx_Weights tx_Signature tx_ApkCommitment tx_SignedWeight tx_MsgBytes].
  rewrite run_bind_iff.
  assert (AG : forall P, run (AggregatePublicKeys TestEngine (NewG1AffineArray pks) vb (bigIntToVariableArray ws) (ofZ rBN sw)) = Some P <-> agg_value vb (NewG1AffineArray pks) P).
  { intros P. rewrite agg_test; [|unfold NewG1AffineArray; rewrite map_length; congruence | unfold vb, bigIntToVariableArray; rewrite map_length; congruence | unfold bigIntToVariableArray; rewrite map_length; congruence].
    split; [intros (_ & _ & _ & X); exact X|]. intros X. split; [exact (bits_var bits F2)|]. split; [exact (keys_wf _ _ K)|]. split; [|exact X].
    rewrite ES. exact (weight_value vb ws F3). }
  split.
  - intros (apk & R1 & R). apply run_bind_iff in R. destruct R as (c' & _ & R). apply check_runs in R. destruct R as [_ R].
    apply run_bind_iff in R. destruct R as (h' & R3 & R). rewrite RH in R3. injection R3 as <-. exists apk. split; [now apply AG | exact R].
  - intros (apk & X & R). exists apk. split; [now apply AG|]. apply run_bind_iff. exists (ofZ rBN c). split; [exact DC|].
    apply check_runs. split; [reflexivity|]. apply run_bind_iff. exists (host2 T). split; [exact RH | exact R].
Qed.

(** *** what the circuit needs, whatever the message *)
Theorem tx_flow_needs hash sks bits ws x asg : test_values sks bits ws -> test_tx hash sks bits ws x asg ->
  run (txDefine TestEngine asg) = Some tt -> signers (tx_BitList asg) sks <> [] /\ no_doubling (signers (tx_BitList asg) sks).
Proof.
  intros (L1 & L2 & L3 & F1 & F2 & F3) (pks & c & h & sw & sig & (K & EC) & HH & LO & _ & ->) R.
  cbn [tx_BitList] in *. pose proof (F2len _ _ _ K) as LK. set (vb := bigIntToVariableArray bits) in *.
  pose proof (signers_secret vb sks pks K F1) as KS. destruct (signers_Forall (fun s => 0 < s < 2 ^ 230) vb sks F1) as [FS LS].
  unfold txDefine, VerifyBLS_bls12_Tx in R. cbn [tx_PublicKeys tx_BitList tx_Weights tx_Signature tx_ApkCommitment tx_SignedWeight tx_MsgBytes] in R.
  apply run_bind_iff in R. destruct R as (apk & RA & R). apply run_bind_iff in R. destruct R as (c' & _ & R). apply check_runs in R. destruct R as [_ R].
  apply run_bind_iff in R. destruct R as (h' & _ & R).
  apply agg_test in RA; [|unfold NewG1AffineArray; rewrite map_length; congruence | unfold vb, bigIntToVariableArray; rewrite map_length; congruence | unfold bigIntToVariableArray; rewrite map_length; congruence].
  destruct RA as (_ & _ & _ & [[E ->]|G]).
  - exfalso. apply run_sat in R. apply pair_many_sat in R; [|discriminate]. destruct R as (f & HM & _). apply two_miller in HM.
    destruct HM as (m1 & m2 & _ & M2 & _). exact (miller_y0 (mkG1 (f0 pBLS) (f0 pBLS)) h' m2 (eq_refl (f0 pBLS)) M2).
  - assert (NK : map key_xy (signers vb (NewG1AffineArray pks)) <> []).
    { intros E. rewrite E in G. remember [] as LL eqn:EL in G. destruct G as [q|l0 ? ? ? ? ? ?]; [discriminate EL | destruct l0; discriminate EL]. }
    split.
    + intros E. rewrite E in KS. inversion KS as [X|]. now apply NK.
    + apply (generic_keys _ _ NK KS); [eapply Forall_impl; [|exact FS]; cbv beta; lia | apply small_sum; [lia | exact FS] | now exists (g1X apk, g1Y apk)].
Qed.
(** nobody signs: no prover at all *)
Theorem tx_nobody c : txWf c = true -> Forall (fun b => fval b = 0) (tx_BitList c) -> unsat (txDefine TestEngine c).
Proof.
  intros W Z u H. destruct u. apply (tx_sat TestEngine c W) in H. destruct H as (_ & _ & _ & _ & apk & h & AP & _ & PC).
  apply pair_many_sat in PC; [|discriminate]. destruct PC as (f & HM & _). apply two_miller in HM. destruct HM as (m1 & m2 & _ & M2 & _).
  destruct AP as [CS|(_ & _ & ->)]; [|exact (miller_y0 (mkG1 (f0 pBLS) (f0 pBLS)) h m2 (eq_refl (f0 pBLS)) M2)].
  cbn [addends] in CS. rewrite (signers_zero _ _ Z) in CS. cbn [map] in CS. remember [] as LL eqn:EL in CS. destruct CS as [q|l0 ? ? ? ? ? ?]; [discriminate EL | destruct l0; discriminate EL].
Qed.

(** *** the rotation flow *)
Lemma upd_len {A} (l : list A) i v : length (upd l i v) = length l.
Proof. revert i. induction l as [|x l IH]; intros [|i]; cbn [upd length]; [reflexivity..|]. now rewrite IH. Qed.
Lemma upd_nth {A} (l : list A) i j v d : nth j (upd l i v) d = if (Nat.eqb i j && Nat.ltb i (length l))%bool then v else nth j l d.
Proof.
  revert i j. induction l as [|x l IH]; intros [|i] [|j]; cbn [upd nth length]; try reflexivity.
  - now rewrite andb_false_r.
  - rewrite IH. reflexivity.
Qed.
Lemma upd_Forall {A} (P : A -> Prop) l i v : Forall P l -> P v -> Forall P (upd l i v).
Proof. intros F V. revert i. induction F as [|x l X F IH]; intros [|i]; cbn [upd]; constructor; auto. Qed.
Lemma upd_Forall2 {A B} (R : A -> B -> Prop) l m i a b : Forall2 R l m -> R a b -> Forall2 R (upd l i a) (upd m i b).
Proof. intros F V. revert i. induction F as [|x y l m X F IH]; intros [|i]; cbn [upd]; constructor; auto. Qed.
Definition state_ok (s : hostState) : Prop := test_values (stSecrets s) (stBits s) (stWeights s) /\ Forall2 base_mul (stSecrets s) (stKeys s).
Lemma fresh_x sks pks s v : Forall2 base_mul sks pks -> Forall (fun s => 0 < s < 2 ^ 230) sks -> 0 < s < 2 ^ 230 -> base_mul s v -> ~ In s sks -> ~ In (hX v) (map hX pks).
Proof.
  intros K F R (P & M & ->) N I. assert (BR : 2 ^ 230 + 2 ^ 230 < rBLS) by reflexivity. apply N. clear N.
  assert (NP : P <> Inf) by (intros ->; apply (gen_small s ltac:(lia) M)).
  induction K as [|t w sks pks (Q & MQ & ->) K IH]; [destruct I|]. apply Forall_cons_iff in F. destruct F as [RT F].
  cbn [map In] in I. destruct I as [E|I]; [left|right; exact (IH F I)].
  assert (NQ : Q <> Inf) by (intros ->; apply (gen_small t ltac:(lia) MQ)).
  destruct P as [|x y]; [now destruct NP|]. destruct Q as [|x' y']; [now destruct NQ|]. cbn [host1 hX] in E. apply fval_inj in E. subst x'.
  refine (gen_x t s x y' y _ _ _ MQ M); lia.
Qed.
Lemma change_inv m cs s s' : Forall change_range cs -> change_loop m cs s s' -> state_ok s -> state_ok s'.
Proof.
  intros FC L. revert FC. induction L as [m s|m c l s pk r NI LT BM L IH]; intros FC H; [exact H|].
  apply Forall_cons_iff in FC. destruct FC as [(C1 & C2 & C3) FC]. apply (IH FC). clear IH L.
  destruct H as ((L1 & L2 & L3 & F1 & F2 & F3) & KS). split.
  - cbn [stSecrets stBits stWeights]. unfold test_values. rewrite !upd_len. repeat (split; [assumption|]).
    split; [apply upd_Forall; assumption|]. split; apply upd_Forall; assumption.
  - cbn [stSecrets stKeys]. apply upd_Forall2; assumption.
Qed.
Lemma change_kept sks pks ws m cs s s' : Forall2 base_mul sks pks -> Forall (fun s => 0 < s < 2 ^ 230) sks -> Forall change_range cs -> Forall (change_fresh sks) cs ->
  change_loop m cs s s' -> length (stKeys s) = 10%nat -> length (stWeights s) = 10%nat ->
  (forall i, (i < 10)%nat -> kept_or_fresh pks (stKeys s) ws (stWeights s) i) -> forall i, (i < 10)%nat -> kept_or_fresh pks (stKeys s') ws (stWeights s') i.
Proof.
  intros K F FC FF L. revert FC FF. induction L as [m s|m c l s pk r NI LT BM L IH]; intros FC FF LK LW H; [exact H|].
  apply Forall_cons_iff in FC. destruct FC as [(C1 & C2 & C3) FC]. apply Forall_cons_iff in FF. destruct FF as [C4 FF].
  apply (IH FC FF); cbn [stKeys stWeights]; [rewrite upd_len; exact LK | rewrite upd_len; exact LW|]. clear IH L.
  intros i Hi. specialize (H i Hi). unfold kept_or_fresh in *. rewrite !upd_nth.
  rewrite LK, LW. rewrite (proj2 (Nat.ltb_lt _ _) LT), andb_true_r. destruct (Nat.eqb (chIndex c) i); [right|exact H].
  exact (fresh_x sks pks _ _ K F C1 BM C4).
Qed.
Lemma bytesLE_range n : forall z, Forall (fun b => 0 <= b < 256) (bytesLE n z).
Proof. induction n as [|n IH]; intros z; cbn [bytesLE]; [constructor|]. destruct (z =? 0); constructor; [apply Z.mod_pos_bound; lia | apply IH]. Qed.
Lemma message_bytes c : length (helperMessage c) = 32%nat -> bytes32 (helperMessage c).
Proof. intros L. split; [exact L|]. unfold helperMessage, bigBytes. apply Forall_rev. apply bytesLE_range. Qed.
Lemma weights_small ws : Forall (fun w => 0 <= w < 2 ^ 10) ws -> Forall (fun w => 0 <= w < rBN) ws /\ Forall (fun w => 0 <= w < 2 ^ 58) ws.
Proof. intros F. assert (2 ^ 10 < rBN) by reflexivity. split; (eapply Forall_impl; [|exact F]; cbv beta; intros w; lia). Qed.
Lemma bytes_back x : bytes32 x -> map fval (map (ofZ rBN) x) = x.
Proof.
  intros [_ F]. assert (256 < rBN) by reflexivity. induction F as [|b x B F IH]; [reflexivity|]. cbn [map]. rewrite IH, fval_ofZ.
  now rewrite Z.mod_small by lia.
Qed.
Lemma start_ok sks bits ws pks : test_values sks bits ws -> Forall2 base_mul sks pks -> state_ok (mkState sks pks ws bits).
Proof. intros T K. split; [exact T | exact K]. Qed.
Lemma keys_host sks pks : Forall2 base_mul sks pks -> Forall (fun s => 0 < s < 2 ^ 230) sks -> Forall host_ok pks /\ Forall (fun k => k <> mkHost 0 0) pks.
Proof.
  intros K F. assert (BR : 2 ^ 230 < rBLS) by reflexivity. induction K as [|s v sks pks (P & M & ->) K IH]; [split; constructor|].
  apply Forall_cons_iff in F. destruct F as [R F]. destruct (IH F) as [I1 I2]. split; constructor; [apply host1_ok | exact I1 | | exact I2].
  intros E. change (mkHost 0 0) with (host1 Inf) in E. apply host1_inj in E; [|exact (g1_mul_on _ _ _ G1gen_on M)|exact (Logic.I : oncurve1 Inf)]. subst P. exact (gen_small s ltac:(lia) M).
Qed.
Theorem rotate_flow hash sks bits ws changes new newMsg asg : iden3_hash hash -> test_values sks bits ws -> Forall change_range changes -> Forall (change_fresh sks) changes ->
  test_rotate hash sks bits ws changes new newMsg asg -> plain_hash (map fval (ro_NewApkCommitmentBytes asg)) dstHost -> newMsg <> mkG2 E2_Zero E2_Zero ->
  (run (rotateDefine TestEngine asg) = Some tt <-> good_signers (signers (ro_BitList asg) (stSecrets new)) (ro_Signature asg) newMsg).
Proof.
  intros HI TV FC FF (pks & c & c2 & sw & sig & (K & EC) & CL & EC2 & HH & LO & _ & L32 & ->) PH NH.
  pose proof (message_bytes c2 L32) as B. cbn [ro_NewApkCommitmentBytes] in PH. rewrite (bytes_back _ B) in PH.
  cbn [ro_BitList ro_Signature]. pose proof TV as (L1 & L2 & L3 & F1 & F2 & F3).
  destruct (change_inv _ _ _ _ FC CL (start_ok sks bits ws pks TV K)) as ((M1 & M2 & M3 & G1 & G2 & G3) & KN).
  pose proof (change_kept sks pks ws _ _ _ _ K F1 FC FF CL ltac:(cbn [stKeys]; rewrite <- (F2len _ _ _ K); exact L1) L3 (fun i _ => or_introl (conj eq_refl eq_refl))) as KF. clear CL.
  destruct new as [sks' pks' ws' bits']. cbn [stSecrets stKeys stWeights stBits] in *.
  pose proof (F2len _ _ _ K) as LK. pose proof (F2len _ _ _ KN) as LN.
  destruct (weights_small ws F3) as [FW FW']. destruct (weights_small ws' G3) as [GW _].
  destruct (commitment_agrees hash pks ws HI ltac:(congruence) L3 FW) as (c' & EC' & _ & DC & _). rewrite EC in EC'. injection EC' as <-.
  destruct (commitment_agrees hash pks' ws' HI ltac:(congruence) M3 GW) as (c' & EC' & _ & DC2 & _). rewrite EC2 in EC'. injection EC' as <-.
  destruct (keys_host sks pks K F1) as [HK1 HK2]. destruct (keys_host sks' pks' KN G1) as [HK3 _].
  destruct (trusted_agrees pks pks' ws ws' bits' ltac:(congruence) ltac:(congruence) L3 M3 M2 HK1 HK3 HK2 G2 FW' KF) as [DT _].
  destruct (hash_run _ newMsg B PH HH NH) as [RH GH].
  destruct (taken_signers (fun b => int64 b =? 1) bits') with (ws := ws') (sks := sks') as [T1 _]; [intros b [-> | ->]; reflexivity | exact G2 | congruence | congruence|].
  destruct HH as (c0 & c1 & T & EH & RT & ->). assert (NT : T <> Inf) by (intros ->; now apply NH). rewrite (host2_fin T NT) in GH.
  destruct (sign_value _ T _ (proj1 GH) 0 0 Inf _ (g2_mul_0 _) LO) as (A & EA & MA & _). cbn [fst snd] in EA. rewrite Z.add_0_l in MA.
  rewrite T1 in MA. set (vb := bigIntToVariableArray bits') in *.
  assert (HS : signers vb sks' <> [] -> g2mul (aff2 (host2 T)) (zsum (signers vb sks')) (aff2 sig)).
  { intros NS. rewrite (host2_fin T NT), EA, host2_fin; [exact MA|]. intros EI. apply (h_mult T _ A GH MA) in EI.
    destruct (signers_Forall (fun s => 0 < s < 2 ^ 230) vb sks' G1) as [FS LS].
    pose proof (small_sum (signers vb sks') ltac:(lia) FS). apply Z.divide_pos_le in EI; [lia|].
    apply zsum_pos; [eapply Forall_impl; [|exact FS]; cbv beta; lia | exact NS]. }
  rewrite <- (agg_check vb sks' pks' sig (host2 T) M1 KN G1 ltac:(rewrite (host2_fin T NT); exact GH) HS).
  unfold rotateDefine, Verify_bls12_Rotate. cbn [ro_OldPublicKeys ro_NewPublicKeys ro_BitList ro_OldWeights ro_NewWeights ro_Signature ro_TrustedWeight ro_NewCommitment ro_OldApkCommitment ro_NewApkCommitmentBytes].
  rewrite run_bind_iff.
  assert (AG : forall P, run (AggregatePublicKeys_Rotate TestEngine (NewG1AffineArray pks') vb) = Some P <-> agg_value vb (NewG1AffineArray pks') P).
  { intros P. rewrite aggRot_test; [|unfold NewG1AffineArray; rewrite map_length; congruence | unfold vb, bigIntToVariableArray; rewrite map_length; congruence].
    split; [intros (_ & _ & X); exact X|]. intros X. split; [exact (bits_var bits' G2)|]. split; [exact (keys_wf _ _ KN)|exact X]. }
  split.
  - intros (t & _ & R). apply check_runs in R. destruct R as [_ R]. apply run_bind_iff in R. destruct R as (t1 & _ & R). apply check_runs in R. destruct R as [_ R].
    apply run_bind_iff in R. destruct R as (t2 & _ & R). apply check_runs in R. destruct R as [_ R].
    apply run_bind_iff in R. destruct R as (apk & R1 & R). apply run_bind_iff in R. destruct R as (h' & R3 & R). rewrite RH in R3. injection R3 as <-.
    exists apk. split; [now apply AG | exact R].
  - intros (apk & X & R). eexists. split; [exact DT|]. apply check_runs. split; [reflexivity|].
    apply run_bind_iff. exists (ofZ rBN c). split; [exact DC|]. apply check_runs. split; [reflexivity|].
    apply run_bind_iff. exists (ofZ rBN c2). split; [exact DC2|]. apply check_runs. split; [reflexivity|].
    apply run_bind_iff. exists apk. split; [now apply AG|]. apply run_bind_iff. exists (host2 T). split; [exact RH | exact R].
Qed.
Lemma change_ex cs : forall m s, NoDup (map chIndex cs) -> (forall i, In i m -> ~ In i (map chIndex cs)) -> Forall (fun c => (chIndex c < 10)%nat) cs ->
  exists s', change_loop m cs s s'.
Proof.
  induction cs as [|c cs IH]; intros m s ND D F; [exists s; constructor|]. cbn [map] in *. apply NoDup_cons_iff in ND. destruct ND as [N ND].
  apply Forall_cons_iff in F. destruct F as [LT F]. destruct (keys_ex [chSecret c]) as (pks & K). inversion K as [|? pk ? ? BM K']; subst.
  destruct (IH (chIndex c :: m) (mkState (upd (stSecrets s) (chIndex c) (chSecret c)) (upd (stKeys s) (chIndex c) pk)
               (upd (stWeights s) (chIndex c) (chWeight c)) (upd (stBits s) (chIndex c) (chBit c))) ND) as (s' & L).
  { intros i [<-|I]; [exact N|]. intros J. apply (D i I). now right. }
  { exact F. }
  exists s'. apply (cl_cons m c cs s pk s'); [|exact LT|exact BM|exact L]. intros I. apply (D _ I). now left.
Qed.
(** the flow runs to the end exactly when the commitment it signs has 32 bytes *)
Theorem rotate_flow_total hash sks bits ws changes : iden3_hash hash -> test_values sks bits ws -> Forall change_range changes ->
  NoDup (map chIndex changes) -> Forall (fun c => (chIndex c < 10)%nat) changes ->
  exists pks new c2, Forall2 base_mul sks pks /\ change_loop [] changes (mkState sks pks ws bits) new /\ genCommitment hash (stKeys new) (stWeights new) = Some c2 /\ 0 <= c2 < rBN /\
    (2 ^ 248 <= c2 -> exists newMsg asg, test_rotate hash sks bits ws changes new newMsg asg).
Proof.
  intros HI TV FC ND FI. destruct (keys_ex sks) as (pks & K). pose proof TV as (L1 & L2 & L3 & F1 & F2 & F3). pose proof (F2len _ _ _ K) as LK.
  destruct (change_ex changes [] (mkState sks pks ws bits) ND (fun i (H : In i []) => match H with end) FI) as (new & CL).
  destruct (change_inv _ _ _ _ FC CL (start_ok sks bits ws pks TV K)) as ((M1 & M2 & M3 & G1 & G2 & G3) & KN).
  pose proof (F2len _ _ _ KN) as LN. destruct (weights_small ws F3) as [FW _]. destruct (weights_small _ G3) as [GW _].
  destruct (commitment_agrees hash pks ws HI ltac:(congruence) L3 FW) as (c & EC & _).
  destruct (commitment_agrees hash (stKeys new) (stWeights new) HI ltac:(congruence) M3 GW) as (c2 & EC2 & RC & _).
  exists pks, new, c2. split; [exact K|]. split; [exact CL|]. split; [exact EC2|]. split; [exact RC|]. intros BIG.
  assert (L32 : length (helperMessage c2) = 32%nat) by (apply message_length; lia).
  destruct (hash_ex _ (message_bytes c2 L32)) as (H & HH & GH). pose proof (in_on _ GH) as OH.
  destruct (sign_ex (fun b => int64 b =? 1) H (combine (combine (stBits new) (stWeights new)) (stSecrets new)) OH 0 0 Inf (g2_mul_0 _)) as ([sw sig] & LO).
  destruct (sign_value _ H _ OH 0 0 Inf _ (g2_mul_0 _) LO) as (A & EA & MA & _). cbn [fst snd] in EA. rewrite Z.add_0_l in MA.
  destruct (taken_signers (fun b => int64 b =? 1) (stBits new)) with (ws := stWeights new) (sks := stSecrets new) as [T1 _]; [intros b [-> | ->]; reflexivity | exact G2 | congruence | congruence|].
  rewrite T1 in MA. exists (host2 H). eexists. exists pks, c, c2, sw, sig. split; [now split|]. split; [exact CL|]. split; [exact EC2|]. split; [exact HH|]. split; [exact LO|].
  split; [|split; [exact L32|reflexivity]]. rewrite EA. apply (verify_ok (stBits new) (stSecrets new) (stKeys new) H A GH G2 ltac:(congruence) KN MA).
Qed.
(** nobody signs the rotation *)
Theorem ro_nobody c : roWf c = true -> Forall key6 (ro_OldPublicKeys c) -> Forall (fun b => fval b = 0) (ro_BitList c) -> unsat (rotateDefine TestEngine c).
Proof.
  intros W K Z u H. destruct u. apply (rotate_sat TestEngine c W K) in H. destruct H as (_ & _ & _ & _ & _ & apk & h & AP & _ & PC).
  apply pair_many_sat in PC; [|discriminate]. destruct PC as (f & HM & _). apply two_miller in HM. destruct HM as (m1 & m2 & _ & M2 & _).
  destruct AP as [CS|(_ & _ & ->)]; [|exact (miller_y0 (mkG1 (f0 pBLS) (f0 pBLS)) h m2 (eq_refl (f0 pBLS)) M2)].
  cbn [addends] in CS. rewrite (signers_zero _ _ Z) in CS. cbn [map] in CS. remember [] as LL eqn:EL in CS. destruct CS as [q|l0 ? ? ? ? ? ?]; [discriminate EL | destruct l0; discriminate EL].
Qed.
Theorem rotate_flow_needs hash sks bits ws changes new newMsg asg : test_values sks bits ws -> Forall change_range changes ->
  test_rotate hash sks bits ws changes new newMsg asg -> run (rotateDefine TestEngine asg) = Some tt ->
  signers (ro_BitList asg) (stSecrets new) <> [] /\ no_doubling (signers (ro_BitList asg) (stSecrets new)).
Proof.
  intros TV FC (pks & c & c2 & sw & sig & (K & EC) & CL & EC2 & HH & LO & _ & L32 & ->) R.
  pose proof TV as (L1 & L2 & L3 & F1 & F2 & F3).
  destruct (change_inv _ _ _ _ FC CL (start_ok sks bits ws pks TV K)) as ((M1 & M2 & M3 & G1 & G2 & G3) & KN). clear CL.
  cbn [ro_BitList]. destruct new as [sks' pks' ws' bits']. cbn [stSecrets stKeys stWeights stBits] in *. pose proof (F2len _ _ _ KN) as LN.
  set (vb := bigIntToVariableArray bits') in *.
  pose proof (signers_secret vb sks' pks' KN G1) as KS. destruct (signers_Forall (fun s => 0 < s < 2 ^ 230) vb sks' G1) as [FS LS].
  unfold rotateDefine, Verify_bls12_Rotate in R. cbn [ro_OldPublicKeys ro_NewPublicKeys ro_BitList ro_OldWeights ro_NewWeights ro_Signature ro_TrustedWeight ro_NewCommitment ro_OldApkCommitment ro_NewApkCommitmentBytes] in R.
  apply run_bind_iff in R. destruct R as (t & _ & R). apply check_runs in R. destruct R as [_ R]. apply run_bind_iff in R. destruct R as (t1 & _ & R). apply check_runs in R. destruct R as [_ R].
  apply run_bind_iff in R. destruct R as (t2 & _ & R). apply check_runs in R. destruct R as [_ R].
  apply run_bind_iff in R. destruct R as (apk & RA & R). apply run_bind_iff in R. destruct R as (h' & _ & R).
  apply aggRot_test in RA; [|unfold NewG1AffineArray; rewrite map_length; congruence | unfold vb, bigIntToVariableArray; rewrite map_length; congruence].
  destruct RA as (_ & _ & [[E ->]|G]).
  - exfalso. apply run_sat in R. apply pair_many_sat in R; [|discriminate]. destruct R as (f & HM & _). apply two_miller in HM.
    destruct HM as (m1 & m2 & _ & M2' & _). exact (miller_y0 (mkG1 (f0 pBLS) (f0 pBLS)) h' m2 (eq_refl (f0 pBLS)) M2').
  - assert (NK : map key_xy (signers vb (NewG1AffineArray pks')) <> []).
    { intros E. rewrite E in G. remember [] as LL eqn:EL in G. destruct G as [q|l0 ? ? ? ? ? ?]; [discriminate EL | destruct l0; discriminate EL]. }
    split.
    + intros E. rewrite E in KS. inversion KS as [X|]. now apply NK.
    + apply (generic_keys _ _ NK KS); [eapply Forall_impl; [|exact FS]; cbv beta; lia | apply small_sum; [lia | exact FS] | now exists (g1X apk, g1Y apk)].
Qed.

(** *** values for which the flow does not reach an accepted circuit *)
Lemma tx_flow_wf hash sks bits ws x asg : test_values sks bits ws -> bytes32 x -> test_tx hash sks bits ws x asg ->
  txWf asg = true /\ tx_BitList asg = bigIntToVariableArray bits.
Proof.
  intros (L1 & L2 & L3 & _) [B _] (pks & c & h & sw & sig & (K & _) & _ & _ & _ & ->). pose proof (F2len _ _ _ K) as LK. split; [|reflexivity].
  apply txWf_iff. cbn [tx_PublicKeys tx_BitList tx_Weights tx_MsgBytes]. unfold NewG1AffineArray, bigIntToVariableArray. rewrite !map_length. repeat split; congruence.
Qed.
Lemma values_ok b : b = 0 \/ b = 1 -> test_values [1; 2; 3; 4; 5; 6; 7; 8; 9; 10] (repeat b 10) (repeat 5 10).
Proof.
  intros B. repeat (split; [reflexivity|]). assert (2 ^ 230 > 10) by reflexivity. split; [repeat constructor; lia|].
  split; apply Forall_forall; intros y Y; apply repeat_spec in Y; subst y; [exact B|]. split; [lia | reflexivity].
Qed.
Lemma sevens : bytes32 (repeat 7 32). Proof. split; [reflexivity|]. apply Forall_forall. intros y Y. apply repeat_spec in Y. subst y. lia. Qed.
Theorem tx_no_signers : exists hash sks bits ws x asg, iden3_hash hash /\ test_values sks bits ws /\ bytes32 x /\ test_tx hash sks bits ws x asg /\ unsat (txDefine TestEngine asg).
Proof.
  destruct (tx_flow_total codeHash _ _ _ _ codeHash_ok (values_ok 0 (or_introl eq_refl)) sevens) as (asg & T).
  exists codeHash. do 4 eexists. exists asg. split; [exact codeHash_ok|]. split; [exact (values_ok 0 (or_introl eq_refl))|]. split; [exact sevens|]. split; [exact T|].
  destruct (tx_flow_wf _ _ _ _ _ _ (values_ok 0 (or_introl eq_refl)) sevens T) as [W E]. apply (tx_nobody asg W). rewrite E.
  apply Forall_forall. intros y Y. unfold bigIntToVariableArray in Y. apply in_map_iff in Y. destruct Y as (z & <- & Z0). apply repeat_spec in Z0. subst z. reflexivity.
Qed.
Theorem tx_doubling : exists hash sks bits ws x asg, iden3_hash hash /\ test_values sks bits ws /\ bytes32 x /\ Forall (fun b => b = 1) bits /\ NoDup sks /\
  test_tx hash sks bits ws x asg /\ run (txDefine TestEngine asg) <> Some tt.
Proof.
  destruct (tx_flow_total codeHash _ _ _ _ codeHash_ok (values_ok 1 (or_intror eq_refl)) sevens) as (asg & T).
  exists codeHash. do 4 eexists. exists asg. split; [exact codeHash_ok|]. split; [exact (values_ok 1 (or_intror eq_refl))|]. split; [exact sevens|].
  split; [apply Forall_forall; intros y Y; now apply repeat_spec in Y|]. split.
  { repeat constructor; cbn [In]; lia. }
  split; [exact T|].
  intros R. destruct (tx_flow_needs _ _ _ _ _ _ (values_ok 1 (or_intror eq_refl)) T R) as [_ D].
  destruct (tx_flow_wf _ _ _ _ _ _ (values_ok 1 (or_intror eq_refl)) sevens T) as [_ E]. rewrite E in D.
  replace (signers (bigIntToVariableArray (repeat 1 10)) [1; 2; 3; 4; 5; 6; 7; 8; 9; 10]) with [1; 2; 3; 4; 5; 6; 7; 8; 9; 10] in D by (vm_compute; reflexivity).
  refine (D [1; 2] 3 [4; 5; 6; 7; 8; 9; 10] eq_refl _ eq_refl). discriminate.
Qed.
Lemma base_one v : base_mul 1 v -> v = gHost.
Proof.
  intros (P & M & ->). pose proof (g1_mul_fun _ _ _ _ G1gen_on M (g1_mul_1 _)) as ->. unfold gHost. vm_compute. reflexivity.
Qed.
(** ten secrets 1, all weights 5: the commitment is below 2^248 *)
Theorem rotate_short : exists sks bits ws changes, test_values sks bits ws /\ changes <> [] /\ Forall change_range changes /\
  (exists pks new, Forall2 base_mul sks pks /\ change_loop [] changes (mkState sks pks ws bits) new) /\
  forall hash new newMsg asg, iden3_hash hash -> ~ test_rotate hash sks bits ws changes new newMsg asg.
Proof.
  assert (TV : test_values (repeat 1 10) (repeat 1 10) (repeat 5 10)).
  { repeat (split; [reflexivity|]). split; [|split]; apply Forall_forall; intros y Y; apply repeat_spec in Y; subst y; [split; [lia | reflexivity] | now right | split; [lia | reflexivity]]. }
  exists (repeat 1 10), (repeat 1 10), (repeat 5 10), [mkChange 3 1 5 1]. split; [exact TV|]. split; [discriminate|].
  split; [constructor; [repeat split; cbn; lia | constructor]|].
  assert (KG : forall pks, Forall2 base_mul (repeat 1 10) pks -> pks = repeat gHost 10).
  { generalize 10%nat. intros n. induction n as [|n IH]; cbn [repeat]; intros pks K; inversion K; subst; [reflexivity|]. f_equal; [now apply base_one | now apply IH]. }
  split.
  - destruct (keys_ex (repeat 1 10)) as (pks & K). exists pks. destruct (change_ex [mkChange 3 1 5 1] [] (mkState (repeat 1 10) pks (repeat 5 10) (repeat 1 10))) as (new & C).
    + constructor; [intros [] | constructor].
    + intros i [].
    + constructor; [cbn; lia | constructor].
    + exists new. now split.
  - intros hash new newMsg asg HI (pks & c & c2 & sw & sig & (K & EC) & CL & EC2 & _ & _ & _ & L32 & _).
    apply KG in K. subst pks. inversion CL as [|m ch l s pk r NI LT BM CL']; subst. inversion CL'; subst. cbn [chIndex chSecret chWeight chBit stSecrets stKeys stWeights stBits] in *.
    apply base_one in BM. subst pk. change (upd (repeat gHost 10) 3 gHost) with (repeat gHost 10) in EC2. change (upd (repeat 5 10) 3 5) with (repeat 5 10) in EC2.
    rewrite (commit_gc5 hash HI) in EC2. injection EC2 as <-. pose proof gc5_range as R. assert (B : 2 ^ 248 < rBN) by reflexivity.
    apply (proj2 (proj2 (message_length PoseidonEval.gc5 ltac:(lia)))) in L32. lia.
Qed.
