(** Signature verification with the pairing check: what is accepted. *)
From Coq Require Import ZArith NArith List Bool Lia Field Znumtheory.
From Verif Require Import Primes Params ZMod RingPow ZPow Circuit Api Emulated ApiFacts FieldFacts Tower TowerSpec TowerFacts TowerProofs Frobenius TorusFacts CycloFacts Pairing CurveSpec G2 PairSpec HashG2 G2Spec EcIdeal LfVieta EcPoly EcEval EcGroup LineFour G2Jac G2Psi G2Mul G2Cof G2Order MillerProofs FixedQ FixedLoop FinalExp FinalExpProofs FinalExpSpec PairProofs Bls BlsSpec SigSpec CircuitSpec CircuitProofs MillerTotal MillerNeg MillerLf Kappa PairAdd PairAdd2 G1Group PairMul.
Import ListNotations.
Open Scope Z_scope.
Add Field FpFPS : Fp_ft.
Add Field E2FPS : E2_ft.
Add Ring E6RPS : E6_rt.
Add Ring E12RPS : E12_rt.

(** *** values as tower elements *)
Lemma value_kap P Q e : pairing_value P Q e <-> exists m, sat (MillerLoop [P] [Q]) m /\ e = rep12 (kap m).
Proof.
  split; intros (m & S & E); exists m; (split; [exact S|]).
  - rewrite <- E, kap_def, <- rep12_pow. reflexivity.
  - rewrite E, kap_def, <- rep12_pow. reflexivity.
Qed.
Lemma value_pval P Q e : pairing_value P Q e <-> exists v, pval Q (g1aff P) v /\ e = rep12 v.
Proof.
  rewrite value_kap. destruct P as [x y]. cbn [g1aff pval g1X g1Y]. split.
  - intros (m & S & ->). exists (kap m). split; [now exists m | reflexivity].
  - intros (v & (m & S & ->) & ->). exists m. split; [exact S | reflexivity].
Qed.
Lemma value_qval P Q e : pairing_value P Q e <-> exists v, qval P (aff2 Q) v /\ e = rep12 v.
Proof.
  rewrite value_kap. destruct Q as [x y]. cbn [aff2 qval g2X g2Y]. split.
  - intros (m & S & ->). exists (kap m). split; [now exists m | reflexivity].
  - intros (v & (m & S & ->) & ->). exists m. split; [exact S | reflexivity].
Qed.
Theorem value_ex P Q : oncurve1 (g1aff P) -> in_G2 (aff2 Q) -> exists e, pairing_value P Q e.
Proof. intros HP HQ. destruct (pval_ex Q _ HQ HP) as (e & V). exists (rep12 e). apply value_pval. now exists e. Qed.
Theorem value_fun P Q e e' : oncurve1 (g1aff P) -> in_G2 (aff2 Q) -> pairing_value P Q e -> pairing_value P Q e' -> e = e'.
Proof. intros HP HQ V V'. apply value_pval in V, V'. destruct V as (v & V & ->), V' as (v' & V' & ->). now rewrite (pval_fun _ _ _ _ HQ HP V V'). Qed.
Theorem value_order P Q e : pairing_value P Q e -> S12pow e (Z.to_N rBLS) = S12one.
Proof.
  intros V. apply value_pval in V. destruct V as (v & V & ->). rewrite <- rep12_pow, z12_toN by discriminate. rewrite (pval_order _ _ _ V). reflexivity.
Qed.
Theorem value_add1 P1 P2 P3 Q e1 e2 e3 : oncurve1 (g1aff P1) -> oncurve1 (g1aff P2) -> in_G2 (aff2 Q) -> add1 (g1aff P1) (g1aff P2) (g1aff P3) ->
  pairing_value P1 Q e1 -> pairing_value P2 Q e2 -> pairing_value P3 Q e3 -> e3 = S12mul e1 e2.
Proof.
  intros H1 H2 HQ A V1 V2 V3. apply value_pval in V1, V2, V3. destruct V1 as (v1 & V1 & ->), V2 as (v2 & V2 & ->), V3 as (v3 & V3 & ->).
  rewrite <- rep12_mul. now rewrite (pval_add _ _ _ _ _ _ _ HQ H1 H2 A V1 V2 V3).
Qed.
Theorem value_add2 P Q1 Q2 Q3 e1 e2 e3 : oncurve1 (g1aff P) -> in_G2 (aff2 Q1) -> in_G2 (aff2 Q2) -> g2add (aff2 Q1) (aff2 Q2) (aff2 Q3) ->
  pairing_value P Q1 e1 -> pairing_value P Q2 e2 -> pairing_value P Q3 e3 -> e3 = S12mul e1 e2.
Proof.
  intros HP H1 H2 A V1 V2 V3. apply value_qval in V1, V2, V3. destruct V1 as (v1 & V1 & ->), V2 as (v2 & V2 & ->), V3 as (v3 & V3 & ->).
  rewrite <- rep12_mul. now rewrite (qval_add _ _ _ _ _ _ _ HP H1 H2 A V1 V2 V3).
Qed.
Theorem value_mul1 P P' Q k e e' : oncurve1 (g1aff P) -> in_G2 (aff2 Q) -> mul1 (g1aff P) (Z.of_N k) (g1aff P') ->
  pairing_value P Q e -> pairing_value P' Q e' -> e' = S12pow e k.
Proof.
  intros HP HQ M V V'. apply value_pval in V, V'. destruct V as (v & V & ->), V' as (v' & V' & ->).
  rewrite <- rep12_pow, <- (N2Z.id k) at 1. rewrite z12_toN by apply N2Z.is_nonneg. now rewrite (pval_mul _ _ _ _ _ _ HQ HP M V V').
Qed.
Theorem value_mul2 P Q Q' k e e' : oncurve1 (g1aff P) -> in_G2 (aff2 Q) -> g2mul (aff2 Q) (Z.of_N k) (aff2 Q') ->
  pairing_value P Q e -> pairing_value P Q' e' -> e' = S12pow e k.
Proof.
  intros HP HQ M V V'. apply value_qval in V, V'. destruct V as (v & V & ->), V' as (v' & V' & ->).
  rewrite <- rep12_pow, <- (N2Z.id k) at 1. rewrite z12_toN by apply N2Z.is_nonneg. now rewrite (qval_mul _ _ _ _ _ _ HP HQ M V V').
Qed.
Theorem value_neg1 P P' Q e e' : oncurve1 (g1aff P) -> in_G2 (aff2 Q) -> g1aff P' = neg1 (g1aff P) -> pairing_value P Q e -> pairing_value P' Q e' -> S12mul e e' = S12one.
Proof.
  intros HP HQ E V V'. apply value_pval in V, V'. destruct V as (v & V & ->), V' as (v' & V' & ->). rewrite E in V'.
  rewrite <- rep12_mul, (pval_neg _ _ _ _ HQ HP V V'). reflexivity.
Qed.
Theorem value_neg2 P Q Q' e e' : oncurve1 (g1aff P) -> in_G2 (aff2 Q) -> aff2 Q' = g2neg (aff2 Q) -> pairing_value P Q e -> pairing_value P Q' e' -> S12mul e e' = S12one.
Proof.
  intros HP HQ E V V'. apply value_qval in V, V'. destruct V as (v & V & ->), V' as (v' & V' & ->). rewrite E in V'.
  rewrite <- rep12_mul. rewrite (qval_add P _ _ _ _ _ E12_One HP HQ (in_G2_neg _ HQ) (g2_add_neg (aff2 Q)) V V' eq_refl). reflexivity.
Qed.
(** the single-pair circuit returns the value, and accepts nothing when it is 1 *)
Theorem value_Pair P Q r : sat (Pair [P] [Q]) r <-> pairing_value P Q (rep12 r) /\ rep12 r <> S12one.
Proof.
  unfold Pair. cbn [length Nat.eqb]. change (finalExponentiation ?x true) with (FinalExponentiationUnsafe x). split.
  - intros H. apply sat_bind in H. destruct H as (m & HM & H). apply sat_bind in H. destruct H as ([r' e'] & H & R).
    apply sat_ret_inv in R. subst r'. apply unsafe_sound in H; [|exact (miller_neq0 _ _ _ HM)]. destruct H as (_ & H1 & H2). split.
    + exists m. split; [exact HM|]. rewrite <- rep12_pow, e12_fin, <- H1. reflexivity.
    + intros E. apply H2, rep12_inj. exact E.
  - intros ((m & HM & E) & N). pose proof (miller_neq0 _ _ _ HM) as Nm. rewrite <- rep12_pow, e12_fin in E. apply rep12_inj in E. subst r.
    apply sat_bind. exists m. split; [exact HM|]. apply sat_bind. exists (z12 m finE, m). split; [|reflexivity].
    apply unsafe_sat; [exact Nm|]. intros E. apply N. rewrite E. reflexivity.
Qed.

(** *** the check of two pairs *)
Lemma easy_e1 f : easy_trivial f <-> z12 (e1_of f) easyE = E12_One.
Proof.
  unfold easy_trivial, e1_of. rewrite <- !rep12_pow, !e12_easy, <- !rep12_one. destruct (E6_eqb (C1 f) E6_Zero) eqn:E.
  - apply E6_eqb_eq in E. split; [intros [(N & _)|(_ & H)]; [destruct (N E) | now apply rep12_inj] | intros H; right; split; [exact E | now rewrite H]].
  - assert (N : C1 f <> E6_Zero) by (intros H; apply E6_eqb_eq in H; congruence).
    split; [intros [(_ & H)|(Z & _)]; [now apply rep12_inj | destruct (N Z)] | intros H; left; split; [exact N | now rewrite H]].
Qed.
Lemma two_miller P1 P2 Q1 Q2 f : sat (MillerLoop [P1; P2] [Q1; Q2]) f <-> exists m1 m2, sat (MillerLoop [P1] [Q1]) m1 /\ sat (MillerLoop [P2] [Q2]) m2 /\ f = E12_Mul m1 m2.
Proof.
  rewrite (miller_product (@sat) sat_bind' sat_ret' sat_fail'). cbn [combine]. split.
  - intros (_ & _ & rs & H & ->). inversion H as [|? r1 ? rs1 H1 H2]; subst. inversion H2 as [|? r2 ? rs2 H3 H4]; subst. inversion H4; subst. cbn [fst snd fold_right] in *.
    exists r1, r2. split; [exact H1|]. split; [exact H3|]. now rewrite E12_1_r.
  - intros (m1 & m2 & H1 & H2 & ->). split; [reflexivity|]. split; [discriminate|]. exists [m1; m2]. split; [repeat constructor; assumption|]. cbn [fold_right]. now rewrite E12_1_r.
Qed.
Lemma cancel_l a b c : E12_Mul a b = E12_One -> (E12_Mul b c = E12_One <-> a = c).
Proof.
  intros H. split; intros E.
  - transitivity (E12_Mul a (E12_Mul b c)); [rewrite E; ring|]. transitivity (E12_Mul (E12_Mul a b) c); [ring | rewrite H; ring].
  - subst c. transitivity (E12_Mul a b); [ring | exact H].
Qed.
(** e(-G, S) e(K, H) = 1 is accepted exactly when e(G, S) = e(K, H), up to the
    degenerate case of the easy part *)
Theorem check_iff G G' K S H : oncurve1 (g1aff G) -> g1aff G' = neg1 (g1aff G) -> in_G2 (aff2 S) -> oncurve1 (g1aff K) -> in_G2 (aff2 H) ->
  (sat (PairingCheck [G'; K] [S; H]) tt <->
   (exists e, pairing_value G S e /\ pairing_value K H e) /\ exists f, sat (MillerLoop [G'; K] [S; H]) f /\ ~ easy_trivial f).
Proof.
  intros HG EG HS HK HH. rewrite pair_many_sat by discriminate.
  destruct (value_ex G S HG HS) as (e1 & V1). destruct (value_ex K H HK HH) as (e2 & V2).
  pose proof V1 as V1'. pose proof V2 as V2'. apply value_kap in V1', V2'. destruct V1' as (m1 & M1 & E1). destruct V2' as (m2 & M2 & E2').
  assert (X : forall f, sat (MillerLoop [G'; K] [S; H]) f -> (z12 f finE = E12_One <-> e1 = e2)).
  { intros f Hf. apply two_miller in Hf. destruct Hf as (n1 & n2 & F1 & F2 & ->). pose proof (miller_neq0 _ _ _ F1) as N1. pose proof (miller_neq0 _ _ _ F2) as N2.
    assert (A1 : pairing_value G' S (rep12 (kap n1))) by (apply value_kap; exists n1; split; [exact F1 | exact eq_refl]).
    assert (A2 : pairing_value K H (rep12 (kap n2))) by (apply value_kap; exists n2; split; [exact F2 | exact eq_refl]).
    pose proof (value_fun _ _ _ _ HK HH V2 A2) as B2. pose proof (value_neg1 _ _ _ _ _ HG HS EG V1 A1) as B1.
    subst e1. rewrite <- rep12_mul in B1. apply (rep12_inj _ E12_One) in B1.
    rewrite zpow_mulbE12 by assumption. rewrite <- !e12_fin, <- !kap_def. rewrite (cancel_l _ _ (kap n2) B1). rewrite B2.
    split; [intros ->; reflexivity | apply rep12_inj]. }
  split.
  - intros (f & Hf & H1 & H2). apply (X f Hf) in H1. rewrite <- H1 in V2. split; [exists e1; split; [exact V1 | exact V2]|]. exists f. split; [exact Hf|]. intros T. apply H2, easy_e1, T.
  - intros ((e & A1 & A2) & f & Hf & N). exists f. split; [exact Hf|]. split; [|intros T; apply N, easy_e1, T].
    apply (X f Hf). transitivity e; [exact (value_fun _ _ _ _ HG HS V1 A1) | exact (value_fun _ _ _ _ HK HH A2 V2)].
Qed.

(** *** signatures *)
Lemma G1gen_on : oncurve1 (g1aff G1gen).
Proof. unfold oncurve1, g1aff, G1gen. cbn [on_curve g1X g1Y]. apply fval_inj. vm_compute. reflexivity. Qed.
Lemma G1neg_neg : g1aff G1neg = neg1 (g1aff G1gen). Proof. reflexivity. Qed.
(** a key k G and a signature k H *)
Lemma sig_values G K S H k : oncurve1 (g1aff G) -> in_G2 (aff2 H) -> mul1 (g1aff G) k (g1aff K) -> g2mul (aff2 H) k (aff2 S) ->
  exists e, pairing_value G S e /\ pairing_value K H e.
Proof.
  intros HG HH HK HS. pose proof (g1_mul_on _ _ _ HG HK) as CK. assert (GS : in_G2 (aff2 S)) by (apply (in_G2_mul _ _ _ HH HS); discriminate).
  destruct (value_ex G H HG HH) as (e & V). destruct (value_ex G S HG GS) as (e1 & V1). destruct (value_ex K H CK HH) as (e2 & V2).
  exists e1. split; [exact V1|]. pose proof V2 as V2'. pose proof V as Vq. apply value_qval in V1, Vq. apply value_pval in V2, V.
  destruct V1 as (v1 & V1 & E1), Vq as (q & Vq & Eq), V2 as (v2 & V2 & E2'), V as (p & Vp & Ep).
  assert (X : q = p) by (apply rep12_inj; congruence). subst q.
  assert (Y : e1 = e2). { rewrite E1, E2', (qval_mul _ _ _ _ _ _ HG HH HS Vq V1), (pval_mul _ _ _ _ _ _ HH HG HK Vp V2). reflexivity. }
  rewrite Y. exact V2'.
Qed.
Theorem sig_honest K S H k : in_G2 (aff2 H) -> mul1 (g1aff G1gen) k (g1aff K) -> g2mul (aff2 H) k (aff2 S) ->
  (sat (PairingCheck [G1neg; K] [S; H]) tt <-> exists f, sat (MillerLoop [G1neg; K] [S; H]) f /\ ~ easy_trivial f).
Proof.
  intros HH HK HS. pose proof (g1_mul_on _ _ _ G1gen_on HK) as CK. assert (GS : in_G2 (aff2 S)) by (apply (in_G2_mul _ _ _ HH HS); discriminate).
  rewrite (check_iff G1gen G1neg K S H G1gen_on G1neg_neg GS CK HH). split; [tauto|]. intros F. split; [|exact F].
  exact (sig_values G1gen K S H k G1gen_on HH HK HS).
Qed.
(** the value e(G,H) determines the discrete logarithm of an accepted signature *)
Theorem sig_unique K S H k s : in_G2 (aff2 H) -> ~ pairing_value G1gen H S12one -> mul1 (g1aff G1gen) k (g1aff K) -> g2mul (aff2 H) s (aff2 S) ->
  sat (PairingCheck [G1neg; K] [S; H]) tt -> s mod rBLS = k mod rBLS.
Proof.
  intros HH ND HK HS C. pose proof (g1_mul_on _ _ _ G1gen_on HK) as CK. assert (GS : in_G2 (aff2 S)) by (apply (in_G2_mul _ _ _ HH HS); discriminate).
  apply (check_iff G1gen G1neg K S H G1gen_on G1neg_neg GS CK HH) in C. destruct C as ((e1 & V1 & V2) & _).
  destruct (value_ex G1gen H G1gen_on HH) as (e & V). pose proof V as Vq. apply value_qval in V1, Vq. pose proof V as Vp. apply value_pval in V2, Vp.
  destruct V1 as (v1 & V1 & E1), Vq as (q & Vq & Eq), V2 as (v2 & V2 & E2'), Vp as (p & Vp & Ep).
  assert (X : q = p) by (apply rep12_inj; congruence). subst q. assert (Y : v1 = v2) by (apply rep12_inj; congruence). subst v2.
  pose proof (qval_mul _ _ _ _ _ _ G1gen_on HH HS Vq V1) as Z1. pose proof (pval_mul _ _ _ _ _ _ HH G1gen_on HK Vp V2) as Z2. rewrite Z1 in Z2.
  pose proof (pval_neq0 _ _ _ Vp) as N. pose proof (pval_order _ _ _ Vp) as O.
  assert (D : z12 p (s - k) = E12_One).
  { unfold Z.sub. rewrite zpow_addE12, Z2, <- zpow_addE12 by exact N. replace (k + - k) with 0 by ring. reflexivity. }
  destruct (Zdivide_dec rBLS (s - k)) as [W|W].
  - destruct W as (c & W). replace s with (k + c * rBLS) by (rewrite <- W; ring). rewrite Z.mod_add by discriminate. reflexivity.
  - destruct ND. destruct (rel_prime_bezout _ _ (prime_rel_prime _ rBLS_prime _ W)) as [u w E].
    assert (R : p = E12_One); [|rewrite R in Ep; rewrite Ep in V; exact V].
    transitivity (z12 p (rBLS * u + (s - k) * w)); [replace (rBLS * u + (s - k) * w) with 1 by (rewrite <- E; ring); reflexivity|].
    rewrite zpow_addE12, !zpow_mulE12, O, D, !zpow_one by exact N. ring.
Qed.

(** *** sums of keys *)
Ltac fpr := unfold fp0; change (ofZ pBLS 0) with (f0 pBLS); ring.
Lemma add1_inv x1 y1 x2 y2 x3 y3 : x1 <> x2 -> add1 (Aff x1 y1) (Aff x2 y2) (Aff x3 y3) -> exists la, fmul la (fsub x2 x1) = fsub y2 y1 /\
  x3 = fsub (fsub (fmul la la) x1) x2 /\ y3 = fsub (fmul la (fsub x1 x3)) y1.
Proof.
  intros N A. remember (Aff x1 y1) as P eqn:HP. remember (Aff x2 y2) as Q eqn:HQ. remember (Aff x3 y3) as R eqn:HR. destruct A as [| | |a1 b1 a2 b2 la N' E|a1 b1 la N' E]; try discriminate.
  - injection HP as <- <-. injection HQ as <- <-. injection HR as <- <-. exists la. repeat split. exact E.
  - injection HP as <- <-. injection HQ as HQ _. destruct (N HQ).
Qed.
Lemma generic_chord l r : generic_sum l r -> chord_sum l r.
Proof.
  induction 1 as [p|l s p r _ IH N A]; [constructor|]. apply add1_inv in A; [|exact N]. destruct A as (la & E & Ex & Ey).
  destruct r as [x y]. cbn [fst snd] in *. exact (cs_snoc l s p la x y IH E Ex Ey).
Qed.
Lemma generic_chord_fun l r : generic_sum l r -> forall r', chord_sum l r' -> r' = r.
Proof.
  induction 1 as [p|l s p r G IH N A]; intros r' C; apply chord_snoc_inv in C.
  - destruct C as [(q & E & ->)|(l' & s & q & lam & E & Cs & _)]; [now inversion E|].
    destruct l' as [|a [|]]; try discriminate. now apply chord_nil in Cs.
  - destruct C as [(q & E & ->)|(l' & s' & q & lam & E & Cs & E1 & E2')].
    + destruct l as [|a [|]]; try discriminate. apply generic_chord in G. now apply chord_nil in G.
    + apply app_inj_tail in E. destruct E as (<- & <-). rewrite (IH _ Cs) in *. clear s' IH Cs.
      apply add1_inv in A; [|exact N]. destruct A as (la & E & Ex & Ey).
      assert (L : lam = la).
      { assert (D : fmul (fsub lam la) (fsub (fst p) (fst s)) = fp0).
        { transitivity (fsub (fmul lam (fsub (fst p) (fst s))) (fmul la (fsub (fst p) (fst s)))); [ring|]. rewrite E1, E. fpr. }
        apply fp_integral in D. destruct D as [D|D].
        - transitivity (fadd (fsub lam la) la); [ring|]. rewrite D. fpr.
        - destruct N. transitivity (fsub (fst p) (fsub (fst p) (fst s))); [ring|]. rewrite D. fpr. }
      subst lam r'. destruct r as [x y]. cbn [fst snd] in *. subst y. subst x. reflexivity.
Qed.
Lemma generic_scalar X : oncurve1 X -> forall l r, generic_sum l r -> forall ks, Forall2 (fun p k => mul1 X k (Aff (fst p) (snd p))) l ks -> mul1 X (zsum ks) (Aff (fst r) (snd r)).
Proof.
  intros HX l r. induction 1 as [p|l s p r _ IH N A]; intros ks F.
  - inversion F as [|? k ? ks' F1 F2]; subst. inversion F2; subst. cbn [zsum fold_right]. rewrite Z.add_0_r. exact F1.
  - apply Forall2_app_inv_l in F. destruct F as (k1 & k2 & F1 & F2 & ->). inversion F2 as [|? k ? ks' G1 G2]; subst. inversion G2; subst.
    assert (E : zsum (k1 ++ [k]) = zsum k1 + k).
    { unfold zsum. rewrite fold_right_app. cbn [fold_right]. rewrite Z.add_0_r. clear. induction k1 as [|a k1 IH]; cbn [fold_right]; [reflexivity|]. rewrite IH. ring. }
    rewrite E. exact (g1_mul_add _ _ _ _ _ _ HX (IH _ F1) G1 A).
Qed.
Lemma Forall2_signers {A B} (R : A -> B -> Prop) bits : forall l m, Forall2 R l m -> Forall2 R (signers bits l) (signers bits m).
Proof.
  unfold signers. induction bits as [|b bits IH]; intros l m F; [constructor|]. destruct F as [|x y l m H F]; [constructor|].
  cbn [combine filter fst]. destruct (fval b =? 1); cbn [map snd]; [constructor; [exact H|]|]; now apply IH.
Qed.
Lemma addends_all eng bits keys : length keys = length bits -> (eng = TestEngine \/ Forall (fun b => fval b = 1) bits) -> addends eng bits keys = map key_xy (signers bits keys).
Proof.
  intros L [->|F]; [reflexivity|]. destruct eng; [reflexivity|]. unfold addends, signers. revert keys L.
  induction F as [|b bits H _ IH]; intros [|x l] L; try discriminate; [reflexivity|]. cbn [combine map filter fst snd]. rewrite H. cbn [Z.eqb Pos.eqb map fst snd]. f_equal. apply IH. now injection L.
Qed.
Lemma aggregates_apk eng bits keys apk : length keys = length bits -> aggregates eng bits keys apk -> forall P, apk_is eng bits keys P <-> P = apk.
Proof.
  intros L (G & O) P. unfold apk_is. rewrite (addends_all eng bits keys L O). split.
  - intros [C|(_ & E & _)].
    + pose proof (generic_chord_fun _ _ G _ C) as E. destruct P as [x y], apk as [x' y']. cbn [g1X g1Y] in E. now inversion E.
    + rewrite E in G. apply generic_chord in G. now apply chord_nil in G.
  - intros ->. left. now apply generic_chord.
Qed.
Lemma aggregates_scalar eng bits keys apk sks : aggregates eng bits keys apk -> secret_keys keys sks ->
  mul1 (g1aff G1gen) (zsum (signers bits sks)) (g1aff apk).
Proof.
  intros (G & _) F. apply (generic_scalar _ G1gen_on _ _ G (signers bits sks)). apply (Forall2_signers _ bits) in F.
  clear G. revert F. generalize (signers bits keys) (signers bits sks). intros l m F. induction F; cbn [map]; constructor; assumption.
Qed.

(** *** the circuits *)
Theorem tx_honest eng c apk h sks : txWf c = true -> is_bits (tx_BitList c) -> Forall key_wf (tx_PublicKeys c) ->
  fval (tx_SignedWeight c) = signed_weight (tx_BitList c) (tx_Weights c) mod rBN -> set_commit (tx_PublicKeys c) (tx_Weights c) (tx_ApkCommitment c) ->
  aggregates eng (tx_BitList c) (tx_PublicKeys c) apk -> secret_keys (tx_PublicKeys c) sks ->
  sat (HashToG2 (tx_MsgBytes c)) h -> in_G2 (aff2 h) -> g2mul (aff2 h) (zsum (signers (tx_BitList c) sks)) (aff2 (tx_Signature c)) ->
  (exists f, sat (MillerLoop [G1neg; apk] [tx_Signature c; h]) f /\ ~ easy_trivial f) -> sat (txDefine eng c) tt.
Proof.
  intros W B K SW SC AG SK HH GH HS F. apply (tx_sat eng c W). repeat (split; [assumption|]).
  pose proof (proj1 (txWf_iff c) W) as (L1 & L2 & L3 & L4).
  assert (L : length (tx_PublicKeys c) = length (tx_BitList c)) by congruence.
  exists apk, h. split; [now apply (aggregates_apk eng _ _ apk L AG)|]. split; [exact HH|].
  exact (proj2 (sig_honest apk _ h _ GH (aggregates_scalar _ _ _ _ _ AG SK) HS) F).
Qed.
Theorem ro_honest eng c apk h sks z : roWf c = true -> Forall key6 (ro_OldPublicKeys c) -> is_bits (ro_BitList c) -> Forall key_wf (ro_NewPublicKeys c) ->
  weight_where counted (positions (ro_BitList c) (ro_NewPublicKeys c) (ro_OldPublicKeys c) (ro_OldWeights c)) z -> fval (ro_TrustedWeight c) = z mod rBN ->
  set_commit (ro_OldPublicKeys c) (ro_OldWeights c) (ro_OldApkCommitment c) -> set_commit (ro_NewPublicKeys c) (ro_NewWeights c) (ro_NewCommitment c) ->
  aggregates eng (ro_BitList c) (ro_NewPublicKeys c) apk -> secret_keys (ro_NewPublicKeys c) sks ->
  sat (HashToG2 (ro_NewApkCommitmentBytes c)) h -> in_G2 (aff2 h) -> g2mul (aff2 h) (zsum (signers (ro_BitList c) sks)) (aff2 (ro_Signature c)) ->
  (exists f, sat (MillerLoop [G1neg; apk] [ro_Signature c; h]) f /\ ~ easy_trivial f) -> sat (rotateDefine eng c) tt.
Proof.
  intros W K6 B K SW SW' SC SC' AG SK HH GH HS F. apply (rotate_sat eng c W K6). repeat (split; [assumption|]). split; [now exists z|]. repeat (split; [assumption|]).
  pose proof (proj1 (roWf_iff c) W) as (L1 & L2 & L3 & L4 & L5 & L6).
  assert (L : length (ro_NewPublicKeys c) = length (ro_BitList c)) by congruence.
  exists apk, h. split; [now apply (aggregates_apk eng _ _ apk L AG)|]. split; [exact HH|].
  exact (proj2 (sig_honest apk _ h _ GH (aggregates_scalar _ _ _ _ _ AG SK) HS) F).
Qed.
(** what an accepted proof says about the signature *)
Theorem tx_signature eng c apk sks : txWf c = true -> aggregates eng (tx_BitList c) (tx_PublicKeys c) apk -> secret_keys (tx_PublicKeys c) sks ->
  sat (txDefine eng c) tt -> exists h, sat (HashToG2 (tx_MsgBytes c)) h /\
  forall s, in_G2 (aff2 h) -> ~ pairing_value G1gen h S12one -> g2mul (aff2 h) s (aff2 (tx_Signature c)) -> s mod rBLS = zsum (signers (tx_BitList c) sks) mod rBLS.
Proof.
  intros W AG SK H. apply (tx_sat eng c W) in H. destruct H as (_ & _ & _ & _ & apk' & h & A & HH & C).
  pose proof (proj1 (txWf_iff c) W) as (L1 & L2 & L3 & L4).
  assert (L : length (tx_PublicKeys c) = length (tx_BitList c)) by congruence.
  apply (aggregates_apk eng _ _ apk L AG) in A. subst apk'. exists h. split; [exact HH|]. intros s GH ND HS.
  exact (sig_unique apk _ h _ s GH ND (aggregates_scalar _ _ _ _ _ AG SK) HS C).
Qed.
Theorem ro_signature eng c apk sks : roWf c = true -> Forall key6 (ro_OldPublicKeys c) -> aggregates eng (ro_BitList c) (ro_NewPublicKeys c) apk -> secret_keys (ro_NewPublicKeys c) sks ->
  sat (rotateDefine eng c) tt -> exists h, sat (HashToG2 (ro_NewApkCommitmentBytes c)) h /\
  forall s, in_G2 (aff2 h) -> ~ pairing_value G1gen h S12one -> g2mul (aff2 h) s (aff2 (ro_Signature c)) -> s mod rBLS = zsum (signers (ro_BitList c) sks) mod rBLS.
Proof.
  intros W K6 AG SK H. apply (rotate_sat eng c W K6) in H. destruct H as (_ & _ & _ & _ & _ & apk' & h & A & HH & C).
  pose proof (proj1 (roWf_iff c) W) as (L1 & L2 & L3 & L4 & L5 & L6).
  assert (L : length (ro_NewPublicKeys c) = length (ro_BitList c)) by congruence.
  apply (aggregates_apk eng _ _ apk L AG) in A. subst apk'. exists h. split; [exact HH|]. intros s GH ND HS.
  exact (sig_unique apk _ h _ s GH ND (aggregates_scalar _ _ _ _ _ AG SK) HS C).
Qed.
