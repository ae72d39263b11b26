(** Proofs about the test circuits of pairing_test.go. *)
From Coq Require Import ZArith NArith List Bool Lia Znumtheory Field.
From Verif Require Import Primes Params ZMod RingPow ZPow Circuit Api Emulated ApiFacts FieldFacts Tower TowerSpec TowerFacts TowerProofs Frobenius TorusFacts CycloFacts Pairing CurveSpec G2 PairSpec HashG2 G2Spec EcGroup G2Jac G2Mul G2Order MillerProofs FixedQ FixedLoop FinalExp FinalExpProofs FinalExpSpec PairProofs Bls BlsSpec SigSpec MillerTotal MillerNeg G1Group G1Order Kappa PairAdd PairMul PairSig PairNondeg G2Gen TestCirc TestSpec.
Import ListNotations.
Open Scope Z_scope.
Add Field FpFTC : Fp_ft.
Add Field E2FTC : E2_ft.
Add Ring E6RTC : E6_rt.
Add Ring E12RTC : E12_rt.

Lemma E12_assert_run a b : run (E12_AssertIsEqual a b) = Some tt <-> a = b.
Proof.
  unfold E12_AssertIsEqual. destruct (E12_eqb a b) eqn:E.
  - apply E12_eqb_eq in E. split; [intros _; exact E | intros _; reflexivity].
  - split; [intros H; discriminate H | intros H; apply E12_eqb_eq in H; congruence].
Qed.
Lemma sat_eq_bind {A} a b (k : unit -> Circ A) u : sat (bind (E12_AssertIsEqual a b) k) u -> a = b /\ sat (k tt) u.
Proof. intros H. destruct (proj1 (sat_bind _ _ _) H) as ([] & E & K). split; [exact (proj1 (sat_E12_AssertIsEqual _ _ _) E) | exact K]. Qed.
Lemma determ_bind_iff {A} (c : Circ A) (k : A -> Circ unit) a X : determ c a -> accepted_iff (k a) X -> accepted_iff (bind c k) X.
Proof.
  intros D (H1 & H2). split.
  - rewrite run_bind, (proj1 D). exact H1.
  - rewrite sat_bind. split.
    + intros (a' & S & K). rewrite (proj2 D a' S) in K. now apply H2.
    + intros HX. exists a. split; [exact (run_sat _ _ (proj1 D)) | now apply H2].
Qed.
Lemma accepted_equal a b : accepted_iff (E12_AssertIsEqual a b) (a = b).
Proof. split; [apply E12_assert_run | apply sat_E12_AssertIsEqual]. Qed.
Lemma accepted_ext c X Y : (X <-> Y) -> accepted_iff c X -> accepted_iff c Y.
Proof. intros E (H1 & H2). split; [now rewrite H1 | now rewrite H2]. Qed.
Lemma accepted_sat c X : (forall u, ~ sat c u) -> ~ X -> accepted_iff c X.
Proof. intros H N. split; (split; [intros R | intros Y; now destruct N]); exfalso; [exact (H _ (run_sat _ _ R)) | exact (H _ R)]. Qed.

(** *** TestFinalExponentiationTestSolve *)
Theorem finexp_circuit e r : accepted_iff (FinalExponentiationCircuit e r)
  (C1 e <> E6_Zero /\ rep12 r = S12pow (rep12 e) (Z.to_N (3 * ((pBLS ^ 12 - 1) / rBLS))) /\ rep12 r <> S12one).
Proof.
  assert (EX : C1 e <> E6_Zero /\ rep12 r = S12pow (rep12 e) (Z.to_N (3 * ((pBLS ^ 12 - 1) / rBLS))) /\ rep12 r <> S12one <->
    C1 e <> E6_Zero /\ z12 e finE = r /\ z12 e finE <> E12_One).
  { change (Z.to_N (3 * ((pBLS ^ 12 - 1) / rBLS))) with finN. rewrite <- rep12_pow, e12_fin, rep12_eq_iff, <- rep12_one, <- rep12_neq.
    split; intros (H & -> & N); (split; [exact H|]; split; [reflexivity | exact N]). }
  eapply accepted_ext; [symmetry; exact EX|]. clear EX. unfold FinalExponentiationCircuit.
  destruct (E6_eq_dec (C1 e) E6_Zero) as [Z|N1].
  { apply accepted_sat; [|intros (H & _); exact (H Z)]. intros u H. apply sat_bind in H. destruct H as ([r1 e1] & S1 & H).
    apply safe_sound in S1. destruct S1 as (-> & N & _ & ->). destruct (sat_eq_bind _ _ _ _ H) as (EQ & H'). clear H. rename H' into H.
    apply sat_bind in H. destruct H as ([r2 e2] & S2 & H). apply unsafe_sound in S2; [|apply e1_neq0]. destruct S2 as (_ & _ & NR).
    pose proof (proj1 (sat_E12_AssertIsEqual _ _ _) H) as H'. apply NR. rename H' into HQ. rewrite HQ, <- EQ. exact (C1_zero_fin e N Z). }
  assert (Ne : e <> E12_Zero) by (intros ->; now apply N1). pose proof (e1_T0 e N1) as E1.
  destruct (E12_eq_dec (z12 e finE) E12_One) as [F1|NF].
  { apply accepted_sat; [|intros (_ & _ & H); exact (H F1)]. intros u H. apply sat_bind in H. destruct H as ([r1 e1] & S1 & H).
    apply safe_sound in S1. destruct S1 as (-> & N & _ & ->). rewrite E1 in H. destruct (sat_eq_bind _ _ _ _ H) as (EQ & H'). clear H. rename H' into H.
    apply sat_bind in H. destruct H as ([r2 e2] & S2 & H). apply unsafe_sound in S2; [|exact Ne]. destruct S2 as (_ & X & NR). apply NR. rewrite X. exact F1. }
  assert (EZ : z12 (e1_of e) easyE <> E12_One).
  { rewrite E1. intros H. apply NF. rewrite zpow_mulE12 by exact Ne. rewrite H. apply zpow_one. }
  pose proof (safe_complete e Ne EZ) as D1. rewrite E1 in D1. pose proof (unsafe_complete e N1 NF) as D2.
  apply (determ_bind_iff _ _ _ _ D1). destruct (E12_eq_dec (z12 e finE) r) as [ER|NR].
  - assert (D3 : determ (E12_AssertIsEqual (z12 e finE) r) tt).
    { split; [now apply E12_assert_run | intros [] _; reflexivity]. }
    apply (determ_bind_iff _ _ _ _ D3). apply (determ_bind_iff _ _ _ _ D2). eapply accepted_ext; [|apply accepted_equal].
    split; [intros H; exact (conj N1 (conj H NF)) | intros (_ & H & _); exact H].
  - apply accepted_sat; [|intros (_ & H & _); exact (NR H)]. intros u H. destruct (sat_eq_bind _ _ _ _ H) as (EQ & _). exact (NR EQ).
Qed.
(** the input 1 with its power 1 *)
Theorem finexp_one : exists e r, e <> E12_Zero /\ rep12 r = S12pow (rep12 e) (Z.to_N (3 * ((pBLS ^ 12 - 1) / rBLS))) /\ unsat (FinalExponentiationCircuit e r).
Proof.
  exists E12_One, E12_One. split; [exact E12_1_neq_0|]. split.
  - change (Z.to_N (3 * ((pBLS ^ 12 - 1) / rBLS))) with finN. rewrite <- rep12_pow, e12_fin. now rewrite zpow_one.
  - intros []. intros H. apply (proj2 (finexp_circuit _ _)) in H. destruct H as (H & _). now apply H.
Qed.

(** *** Miller values of lists *)
Lemma good_y P : oncurve1 (g1aff P) -> g1Y P <> fp0.
Proof. intros H. exact (g1_y_nz _ _ H). Qed.
Lemma good_millers Ps Qs : good_pairs Ps Qs -> exists rs, Forall2 (fun pq r => determ (MillerLoop [fst pq] [snd pq]) r) (combine Ps Qs) rs.
Proof.
  intros (L & HP & HQ). revert Qs L HQ. induction HP as [|P Ps p HP IH]; intros [|Q Qs] L HQ; try discriminate L.
  - exists []. constructor.
  - inversion HQ as [|q qs q1 HQ']; subst. destruct (IH Qs) as (rs & F); [now injection L | exact HQ'|].
    destruct (miller_total_G2 P Q (good_y P p) q1) as (r & D). exists (r :: rs). cbn [combine]. constructor; [cbn [fst snd]; exact D | exact F].
Qed.
Lemma Forall2_imp {A B} (R S : A -> B -> Prop) l m : (forall a b, R a b -> S a b) -> Forall2 R l m -> Forall2 S l m.
Proof. intros H. induction 1; constructor; auto. Qed.
Lemma Forall2_fun {A B} (R S : A -> B -> Prop) l m m' : (forall a b c, R a b -> S a c -> c = b) -> Forall2 R l m -> Forall2 S l m' -> m' = m.
Proof. intros H F. revert m'. induction F as [|a b l m r F IH]; intros m' G; inversion G as [|a' c l' k s G']; subst; [reflexivity|]. f_equal; [exact (H _ _ _ r s) | now apply IH]. Qed.
Definition Pr (rs : list E12) : E12 := fold_right E12_Mul E12_One rs.
Theorem good_miller Ps Qs rs : length Ps = length Qs -> Ps <> [] -> Forall2 (fun pq r => determ (MillerLoop [fst pq] [snd pq]) r) (combine Ps Qs) rs ->
  determ (MillerLoop Ps Qs) (Pr rs).
Proof.
  intros L N F. split.
  - apply miller_run. split; [exact L|]. split; [exact N|]. exists rs. split; [|apply rep12_Prod]. revert F. apply Forall2_imp. intros a b D. exact (proj1 D).
  - intros f S. apply miller_sat in S. destruct S as (_ & _ & rs' & F' & E). apply rep12_inj. rewrite E, <- rep12_Prod.
    f_equal. unfold Pr. f_equal. revert F F'. apply Forall2_fun. intros a b c D S. exact (proj2 D c S).
Qed.
Lemma kap_Pr rs : Forall (fun r => r <> E12_Zero) rs -> kap (Pr rs) = Pr (map kap rs).
Proof.
  assert (NZ : forall l, Forall (fun r => r <> E12_Zero) l -> Pr l <> E12_Zero).
  { induction 1; cbn [Pr fold_right]; [exact E12_1_neq_0 | now apply nz_mul]. }
  induction 1 as [|r rs Hr H IH]; cbn [Pr fold_right map]; [exact kap_one|]. fold (Pr rs). rewrite kap_mul; [|exact Hr | now apply NZ]. now rewrite IH.
Qed.
Lemma rep12_Pr rs : rep12 (Pr rs) = fold_right S12mul S12one (map rep12 rs).
Proof. apply rep12_Prod. Qed.
Lemma millers_nz l rs : Forall2 (fun pq r => determ (MillerLoop [fst pq] [snd pq]) r) l rs -> Forall (fun r => r <> E12_Zero) rs.
Proof. induction 1 as [|pq r l rs D F IH]; constructor; [exact (miller_neq0 _ _ _ (run_sat _ _ (proj1 D))) | exact IH]. Qed.
Lemma product_kap Ps Qs rs e : Forall2 (fun pq r => determ (MillerLoop [fst pq] [snd pq]) r) (combine Ps Qs) rs ->
  (pairing_product Ps Qs e <-> e = rep12 (kap (Pr rs))).
Proof.
  intros F. assert (V : Forall2 (fun pq v => pairing_value (fst pq) (snd pq) v) (combine Ps Qs) (map (fun r => rep12 (kap r)) rs)).
  { induction F as [|pq r l rs D F IH]; cbn [map]; constructor; [|exact IH]. apply value_kap. exists r. split; [exact (run_sat _ _ (proj1 D)) | exact eq_refl]. }
  assert (E : fold_right S12mul S12one (map (fun r => rep12 (kap r)) rs) = rep12 (kap (Pr rs))).
  { rewrite (kap_Pr rs (millers_nz _ _ F)), rep12_Pr, map_map. reflexivity. }
  split.
  - intros (es & G & ->). rewrite <- E. f_equal. revert F G. clear. generalize (combine Ps Qs). intros l F. revert es.
    induction F as [|pq r l rs D F IH]; intros es G; inversion G as [|a v b es' Hv G']; subst; cbn [map]; [reflexivity|]. f_equal; [|now apply IH].
    apply value_kap in Hv. destruct Hv as (m & S & E). rewrite (proj2 D m S) in E. exact E.
  - intros ->. exists (map (fun r => rep12 (kap r)) rs). split; [exact V | symmetry; exact E].
Qed.

(** *** Pair of several pairs *)
Lemma pair_sat Ps Qs r : length Ps <> 1%nat ->
  (sat (Pair Ps Qs) r <-> exists f, sat (MillerLoop Ps Qs) f /\ r = z12 f finE /\ z12 (e1_of f) easyE <> E12_One).
Proof.
  intros N1. unfold Pair. cbv zeta. rewrite (proj2 (Nat.eqb_neq _ _) N1). change (fun r => finalExponentiation r false) with FinalExponentiation. split.
  - intros H. apply sat_bind in H. destruct H as (f & HM & H). apply sat_bind in H. destruct H as ([r' e'] & H & R).
    apply sat_ret_inv in R. subst r'. apply safe_sound in H. destruct H as (_ & _ & H1 & H2). exists f. split; [exact HM|]. split; [exact H2 | exact H1].
  - intros (f & HM & -> & H2). apply sat_bind. exists f. split; [exact HM|]. apply sat_bind. exists (z12 f finE, e1_of f). split; [|reflexivity].
    apply run_sat, safe_complete; [|exact H2]. exact (miller_neq0 _ _ _ HM).
Qed.
Lemma pair_det Ps Qs f : length Ps <> 1%nat -> determ (MillerLoop Ps Qs) f -> z12 (e1_of f) easyE <> E12_One -> determ (Pair Ps Qs) (kap f).
Proof.
  intros N1 D N. assert (K : kap f = z12 f finE) by (rewrite kap_def, e12_fin; reflexivity). rewrite K. split.
  - unfold Pair. cbv zeta. rewrite (proj2 (Nat.eqb_neq _ _) N1). rewrite run_bind, (proj1 D), run_bind.
    change (finalExponentiation f false) with (FinalExponentiation f).
    rewrite (proj1 (safe_complete f (miller_neq0 _ _ _ (run_sat _ _ (proj1 D))) N)). reflexivity.
  - intros r H. apply (pair_sat _ _ _ N1) in H. destruct H as (g & S & E & _). rewrite (proj2 D g S) in E. exact E.
Qed.
Lemma pair_none Ps Qs f : length Ps <> 1%nat -> determ (MillerLoop Ps Qs) f -> z12 (e1_of f) easyE = E12_One -> forall r, ~ sat (Pair Ps Qs) r.
Proof. intros N1 D T r H. apply (pair_sat _ _ _ N1) in H. destruct H as (g & S & _ & NE). rewrite (proj2 D g S) in NE. exact (NE T). Qed.
Lemma degenerate_iff Ps Qs f : determ (MillerLoop Ps Qs) f -> (degenerate Ps Qs <-> z12 (e1_of f) easyE = E12_One).
Proof.
  intros D. split.
  - intros (g & S & T). rewrite (proj2 D g S) in T. now apply easy_e1.
  - intros T. exists f. split; [exact (run_sat _ _ (proj1 D)) | now apply easy_e1].
Qed.
(** a Miller value with a trivial easy part has value 1 *)
Lemma easy_kap f : f <> E12_Zero -> z12 (e1_of f) easyE = E12_One -> kap f = E12_One.
Proof.
  intros N T. destruct (E6_eq_dec (C1 f) E6_Zero) as [Z|NZ]; [exact (kap_6 f N Z)|]. rewrite (e1_T0 f NZ) in T. rewrite kap_def, e12_fin, zpow_mulE12 by exact N. rewrite T. apply zpow_one.
Qed.
Theorem pair_many Ps Qs r : good_pairs Ps Qs -> (2 <= length Ps)%nat ->
  accepted_iff (res <- Pair Ps Qs ;; E12_AssertIsEqual res r) (pairing_product Ps Qs (rep12 r) /\ ~ degenerate Ps Qs).
Proof.
  intros G L. destruct (good_millers Ps Qs G) as (rs & F). destruct G as (EL & _).
  assert (N1 : length Ps <> 1%nat) by lia. assert (N0 : Ps <> []) by (intros ->; cbn [length] in L; lia).
  pose proof (good_miller Ps Qs rs EL N0 F) as D. pose proof (product_kap Ps Qs rs (rep12 r) F) as HK. pose proof (degenerate_iff Ps Qs _ D) as HD.
  destruct (E12_eq_dec (z12 (e1_of (Pr rs)) easyE) E12_One) as [T|NT].
  - apply accepted_sat; [|intros (_ & H); apply H, HD, T]. intros u H. apply sat_bind in H. destruct H as (v & H & _). exact (pair_none Ps Qs _ N1 D T v H).
  - apply (determ_bind_iff _ _ _ _ (pair_det Ps Qs _ N1 D NT)). eapply accepted_ext; [|apply accepted_equal]. rewrite HK, HD.
    split; [intros <-; split; [reflexivity | exact NT] | intros (E & _); apply rep12_inj; symmetry; exact E].
Qed.
Theorem product_nontrivial Ps Qs e : good_pairs Ps Qs -> Ps <> [] -> pairing_product Ps Qs e -> e <> S12one -> ~ degenerate Ps Qs.
Proof.
  intros G N0 HP NE HD. destruct (good_millers Ps Qs G) as (rs & F). destruct G as (EL & _). pose proof (good_miller Ps Qs rs EL N0 F) as D.
  apply (degenerate_iff _ _ _ D) in HD. apply (product_kap _ _ _ _ F) in HP. apply NE. rewrite HP.
  rewrite (easy_kap _ (miller_neq0 _ _ _ (run_sat _ _ (proj1 D))) HD). reflexivity.
Qed.
Theorem product_ex Ps Qs : good_pairs Ps Qs -> exists r, forall e, pairing_product Ps Qs e <-> e = rep12 r.
Proof. intros G. destruct (good_millers Ps Qs G) as (rs & F). exists (kap (Pr rs)). intros e. exact (product_kap Ps Qs rs e F). Qed.

(** *** the circuits *)
Theorem pair_circuit P Q r : oncurve1 (g1aff P) -> mul1 (g1aff P) rBLS Inf -> in_G2 (aff2 Q) -> accepted_iff (PairCircuit P Q r) (pairing_value P Q (rep12 r)).
Proof.
  intros HP OP HQ. destruct (miller_total_G2 P Q (good_y P HP) HQ) as (m & D). pose proof (miller_neq0 _ _ _ (run_sat _ _ (proj1 D))) as Nm.
  assert (V : pairing_value P Q (rep12 (kap m))) by (apply value_kap; exists m; split; [exact (run_sat _ _ (proj1 D)) | exact eq_refl]).
  assert (NK : z12 m finE <> E12_One).
  { intros E. apply (nondeg P Q HP OP HQ). rewrite kap_def, e12_fin, E in V. exact V. }
  assert (N1 : C1 m <> E6_Zero) by (intros Z; apply NK; exact (C1_zero_fin m Nm Z)).
  assert (DP : determ (Pair [P] [Q]) (z12 m finE)).
  { split.
    - unfold Pair. cbv zeta. cbn [length Nat.eqb]. rewrite run_bind, (proj1 D), run_bind.
      change (finalExponentiation m true) with (FinalExponentiationUnsafe m). rewrite (proj1 (unsafe_complete m N1 NK)). reflexivity.
    - intros v S. apply value_Pair in S. destruct S as (S & _). pose proof (value_fun _ _ _ _ HP HQ V S) as E. rewrite kap_def, e12_fin in E. apply rep12_inj. symmetry. exact E. }
  unfold PairCircuit. apply (determ_bind_iff _ _ _ _ DP). eapply accepted_ext; [|apply accepted_equal]. rewrite kap_def, e12_fin in V. split.
  - intros <-. exact V.
  - intros S. apply rep12_inj. exact (value_fun _ _ _ _ HP HQ V S).
Qed.
Theorem multi_circuit P1 P2 Q1 Q2 r : oncurve1 (g1aff P1) -> oncurve1 (g1aff P2) -> in_G2 (aff2 Q1) -> in_G2 (aff2 Q2) ->
  accepted_iff (MultiPairCircuit P1 P2 Q1 Q2 r) (pairing_product [P1; P1; P2; P2] [Q1; Q2; Q1; Q2] (rep12 r) /\ ~ degenerate [P1; P1; P2; P2] [Q1; Q2; Q1; Q2]).
Proof.
  intros H1 H2 G1 G2'. unfold MultiPairCircuit. apply pair_many; [|cbn [length]; lia].
  split; [reflexivity|]. split; (constructor; [assumption|]; constructor; [assumption|]; constructor; [assumption|]; constructor; [assumption | constructor]).
Qed.
Lemma check_swap Ps Qs X : accepted_iff (res <- Pair Ps Qs ;; E12_AssertIsEqual res E12_One) X -> accepted_iff (PairingCheck Ps Qs) X.
Proof. intros H. exact H. Qed.
Theorem check_many Ps Qs : good_pairs Ps Qs -> (2 <= length Ps)%nat -> accepted_iff (PairingCheck Ps Qs) (pairing_product Ps Qs S12one /\ ~ degenerate Ps Qs).
Proof. intros G L. apply check_swap. exact (pair_many Ps Qs E12_One G L). Qed.
Lemma good4 P1 P2 Q1 Q2 : oncurve1 (g1aff P1) -> oncurve1 (g1aff P2) -> in_G2 (aff2 Q1) -> in_G2 (aff2 Q2) -> good_pairs [P1; P1; P2; P2] [Q1; Q2; Q1; Q2].
Proof.
  intros H1 H2 G1 G2'. split; [reflexivity|]. split; (constructor; [assumption|]; constructor; [assumption|]; constructor; [assumption|]; constructor; [assumption | constructor]).
Qed.
Lemma good2 P1 P2 Q1 Q2 : oncurve1 (g1aff P1) -> oncurve1 (g1aff P2) -> in_G2 (aff2 Q1) -> in_G2 (aff2 Q2) -> good_pairs [P1; P2] [Q1; Q2].
Proof. intros H1 H2 G1 G2'. split; [reflexivity|]. split; (constructor; [assumption|]; constructor; [assumption | constructor]). Qed.
Theorem check_circuit P1 P2 Q1 Q2 : oncurve1 (g1aff P1) -> oncurve1 (g1aff P2) -> in_G2 (aff2 Q1) -> in_G2 (aff2 Q2) ->
  accepted_iff (PairingCheckCircuit P1 P2 Q1 Q2) (pairing_product [P1; P1; P2; P2] [Q1; Q2; Q1; Q2] S12one /\ ~ degenerate [P1; P1; P2; P2] [Q1; Q2; Q1; Q2]).
Proof. intros H1 H2 G1 G2'. apply check_many; [now apply good4 | cbn [length]; lia]. Qed.

(** *** P and -P: the product of the values is 1, and the Miller value *)
Lemma neg_on P : oncurve1 (g1aff P) -> oncurve1 (g1aff (negG1 P)).
Proof. intros H. exact (g1_neg_on (g1aff P) H). Qed.
Lemma neg_pair P Q : oncurve1 (g1aff P) -> in_G2 (aff2 Q) -> exists f f', determ (MillerLoop [P] [Q]) f /\ determ (MillerLoop [negG1 P] [Q]) f' /\ cj f f'.
Proof.
  intros HP HQ. pose proof (good_y P HP) as N. pose proof (good_y _ (neg_on P HP)) as N'. destruct (lines_total Q (proj1 HQ) (in_G2_above _ HQ)) as (l1 & l2 & lls & M).
  exists (mvalue P l1 l2 lls), (mvalue (negG1 P) l1 l2 lls). split; [exact (miller_lines P Q l1 l2 lls N M)|]. split; [exact (miller_lines (negG1 P) Q l1 l2 lls N' M) | exact (mvalue_neg P l1 l2 lls N)].
Qed.
Lemma E2_neg0 z : E2_Neg z = E2_Zero <-> z = E2_Zero.
Proof. split; intros H; [transitivity (E2_Neg (E2_Neg z)); [ring | rewrite H; ring] | rewrite H; ring]. Qed.
Lemma cj_kap f f' : f <> E12_Zero -> cj f f' -> E12_Mul f f' <> E12_Zero -> kap (E12_Mul f f') = E12_One /\
  (z12 (e1_of (E12_Mul f f')) easyE = E12_One <-> B0 (norm6 f) = E2_Zero /\ B1 (norm6 f) = E2_Zero).
Proof.
  intros N C NZ. destruct (cj_prod f f' C) as (s & E). assert (E' : E12_Mul f f' = e12_of (if s then E6_Neg (norm6 f) else norm6 f)) by (rewrite <- E; ring).
  rewrite E' in *. split; [apply kap_6; [exact NZ | reflexivity]|]. rewrite (proj2 (e1_spec _)) by reflexivity. unfold e12_of at 1. cbn [C0]. rewrite easy_form2.
  destruct s; [|reflexivity]. unfold E6_Neg. cbn [B0 B1]. now rewrite !E2_neg0.
Qed.
Theorem check_opposite P Q1 Q2 f1 f2 : oncurve1 (g1aff P) -> in_G2 (aff2 Q1) -> in_G2 (aff2 Q2) -> sat (MillerLoop [P] [Q1]) f1 -> sat (MillerLoop [P] [Q2]) f2 ->
  accepted_iff (PairingCheckCircuit P (negG1 P) Q1 Q2) (~ (B0 (norm6 (E12_Mul f1 f2)) = E2_Zero /\ B1 (norm6 (E12_Mul f1 f2)) = E2_Zero)).
Proof.
  intros HP G1 G2' S1 S2. destruct (neg_pair P Q1 HP G1) as (a & a' & Da & Da' & Ca). destruct (neg_pair P Q2 HP G2') as (b & b' & Db & Db' & Cb).
  rewrite (proj2 Da f1 S1), (proj2 Db f2 S2). clear f1 f2 S1 S2.
  assert (F : Forall2 (fun pq r => determ (MillerLoop [fst pq] [snd pq]) r) (combine [P; P; negG1 P; negG1 P] [Q1; Q2; Q1; Q2]) [a; b; a'; b']).
  { cbn [combine]. constructor; [cbn [fst snd]; exact Da|]. constructor; [cbn [fst snd]; exact Db|]. constructor; [cbn [fst snd]; exact Da'|]. constructor; [cbn [fst snd]; exact Db' | constructor]. }
  assert (ND : [P; P; negG1 P; negG1 P] <> []) by discriminate.
  pose proof (good_miller [P; P; negG1 P; negG1 P] [Q1; Q2; Q1; Q2] [a; b; a'; b'] eq_refl ND F) as D.
  pose proof (miller_neq0 _ _ _ (run_sat _ _ (proj1 D))) as NZ.
  assert (EP : Pr [a; b; a'; b'] = E12_Mul (E12_Mul a b) (E12_Mul a' b')) by (unfold Pr; cbn [fold_right]; rewrite E12_1_r; ring).
  pose proof (product_kap _ _ _ S12one F) as HK. pose proof (degenerate_iff _ _ _ D) as HD. rewrite EP in HK, HD, NZ. clear D F.
  destruct (cj_kap (E12_Mul a b) (E12_Mul a' b') (nz_l _ _ NZ) (cj_mul _ _ _ _ Ca Cb) NZ) as (K1 & K2). rewrite K1 in HK. rewrite K2 in HD.
  eapply accepted_ext; [|exact (check_circuit P (negG1 P) Q1 Q2 HP (neg_on P HP) G1 G2')]. rewrite HK, HD. split; [intros (_ & H); exact H | intros H; split; [reflexivity | exact H]].
Qed.

(** *** TestFinalExponentiationSafeCircuit *)
Lemma safe_check P1 P2 Q1 Q2 X : accepted_iff (PairingCheck [P1; P2] [Q1; Q2]) X -> accepted_iff (FinalExponentiationSafeCircuit P1 P2 Q1 Q2) X.
Proof.
  assert (SY : forall a, accepted_iff (E12_AssertIsEqual E12_One a) (a = E12_One)).
  { intros a. eapply accepted_ext; [|apply accepted_equal]. split; intros H; symmetry; exact H. }
  intros (HR & HS). split.
  - rewrite <- HR. unfold FinalExponentiationSafeCircuit, PairingCheck, Pair. cbv zeta. rewrite !run_bind. cbn [length Nat.eqb].
    destruct (run (MillerLoop [P1; P2] [Q1; Q2])) as [f|]; [|reflexivity]. rewrite !run_bind. change (finalExponentiation f false) with (FinalExponentiation f).
    destruct (run (FinalExponentiation f)) as [[r e]|]; [|reflexivity]. cbn [run]. rewrite (E12_assert_run E12_One r), (E12_assert_run r E12_One). split; intros H; symmetry; exact H.
  - rewrite <- HS. rewrite pair_many_sat by discriminate. unfold FinalExponentiationSafeCircuit. rewrite sat_bind. split.
    + intros (f & M & H). exists f. split; [exact M|]. apply sat_bind in H. destruct H as ([r e] & S & H). apply (proj2 (SY r)) in H.
      apply safe_sound in S. destruct S as (_ & _ & N & E). rewrite <- E. split; [exact H | exact N].
    + intros (f & M & E & N). exists f. split; [exact M|]. apply sat_bind. exists (z12 f finE, e1_of f).
      split; [exact (run_sat _ _ (proj1 (safe_complete f (miller_neq0 _ _ _ M) N)))|]. apply (proj2 (SY _)). exact E.
Qed.
Theorem safe_circuit P1 P2 Q1 Q2 : oncurve1 (g1aff P1) -> oncurve1 (g1aff P2) -> in_G2 (aff2 Q1) -> in_G2 (aff2 Q2) ->
  accepted_iff (FinalExponentiationSafeCircuit P1 P2 Q1 Q2) (pairing_product [P1; P2] [Q1; Q2] S12one /\ ~ degenerate [P1; P2] [Q1; Q2]).
Proof. intros H1 H2 G1 G2'. apply safe_check. apply check_many; [now apply good2 | cbn [length]; lia]. Qed.
Theorem safe_opposite P Q f : oncurve1 (g1aff P) -> in_G2 (aff2 Q) -> sat (MillerLoop [P] [Q]) f ->
  accepted_iff (FinalExponentiationSafeCircuit P (negG1 P) Q Q) (~ (B0 (norm6 f) = E2_Zero /\ B1 (norm6 f) = E2_Zero)).
Proof.
  intros HP HQ S. destruct (neg_pair P Q HP HQ) as (a & a' & Da & Da' & Ca). rewrite (proj2 Da f S). clear f S.
  assert (F : Forall2 (fun pq r => determ (MillerLoop [fst pq] [snd pq]) r) (combine [P; negG1 P] [Q; Q]) [a; a']).
  { cbn [combine]. constructor; [cbn [fst snd]; exact Da|]. constructor; [cbn [fst snd]; exact Da' | constructor]. }
  assert (ND : [P; negG1 P] <> []) by discriminate.
  pose proof (good_miller [P; negG1 P] [Q; Q] [a; a'] eq_refl ND F) as D. pose proof (miller_neq0 _ _ _ (run_sat _ _ (proj1 D))) as NZ.
  assert (EP : Pr [a; a'] = E12_Mul a a') by (unfold Pr; cbn [fold_right]; rewrite E12_1_r; reflexivity).
  pose proof (product_kap _ _ _ S12one F) as HK. pose proof (degenerate_iff _ _ _ D) as HD. rewrite EP in HK, HD, NZ. clear D F.
  destruct (cj_kap a a' (nz_l _ _ NZ) Ca NZ) as (K1 & K2). rewrite K1 in HK. rewrite K2 in HD.
  eapply accepted_ext; [|exact (safe_circuit P (negG1 P) Q Q HP (neg_on P HP) HQ HQ)]. rewrite HK, HD. split; [intros (_ & H); exact H | intros H; split; [reflexivity | exact H]].
Qed.

(** *** the fixed-argument circuits *)
Lemma pairFixed_run P f : run (PairFixedQ P) = Some f <-> run (Pair [P] [G2gen]) = Some f.
Proof.
  unfold PairFixedQ, Pair. rewrite !run_bind. cbn [length Nat.eqb]. pose proof (fixed_run P) as H.
  destruct (run (MillerLoopFixedQ P)) as [a|]; destruct (run (MillerLoop [P] [G2gen])) as [b|].
  - pose proof (proj1 (H a) eq_refl) as E. injection E as ->. reflexivity.
  - discriminate (proj1 (H a) eq_refl).
  - discriminate (proj2 (H b) eq_refl).
  - reflexivity.
Qed.
Lemma doublePairFixed_run P T Q f : run (DoublePairFixedQ P T Q) = Some f <-> run (Pair [P; T] [Q; G2gen]) = Some f.
Proof.
  unfold DoublePairFixedQ, Pair. rewrite !run_bind. cbn [length Nat.eqb]. pose proof (double_run P T Q) as H.
  destruct (run (DoubleMillerLoopFixedQ P T Q)) as [a|]; destruct (run (MillerLoop [P; T] [Q; G2gen])) as [b|].
  - pose proof (proj1 (H a) eq_refl) as E. injection E as ->. reflexivity.
  - discriminate (proj1 (H a) eq_refl).
  - discriminate (proj2 (H b) eq_refl).
  - reflexivity.
Qed.
Lemma accepted_same {A} (c d : Circ A) (k : A -> Circ unit) X : (forall a, run c = Some a <-> run d = Some a) -> (forall a, sat c a <-> sat d a) ->
  accepted_iff (bind d k) X -> accepted_iff (bind c k) X.
Proof.
  intros R S (H1 & H2). split.
  - rewrite <- H1, !run_bind. destruct (run c) as [a|]; destruct (run d) as [b|].
    + pose proof (proj1 (R a) eq_refl) as E. injection E as ->. reflexivity.
    + discriminate (proj1 (R a) eq_refl).
    + discriminate (proj2 (R b) eq_refl).
    + reflexivity.
  - rewrite <- H2, !sat_bind. split; intros (a & Ha & K); exists a; (split; [apply S; exact Ha | exact K]).
Qed.
Theorem fixed_circuit P r : oncurve1 (g1aff P) -> mul1 (g1aff P) rBLS Inf -> accepted_iff (PairFixedCircuit P r) (pairing_value P G2gen (rep12 r)).
Proof. intros HP OP. unfold PairFixedCircuit. apply (accepted_same _ _ _ _ (pairFixed_run P) (pairFixed_sat P)). exact (pair_circuit P G2gen r HP OP gen_in_G2). Qed.
Theorem double_circuit P1 P2 Q r : oncurve1 (g1aff P1) -> oncurve1 (g1aff P2) -> in_G2 (aff2 Q) ->
  accepted_iff (DoublePairFixedCircuit P1 P2 Q r) (pairing_product [P1; P2] [Q; G2gen] (rep12 r) /\ ~ degenerate [P1; P2] [Q; G2gen]).
Proof.
  intros H1 H2 HQ. unfold DoublePairFixedCircuit. apply (accepted_same _ _ _ _ (doublePairFixed_run P1 P2 Q) (doublePairFixed_sat P1 P2 Q)).
  apply pair_many; [exact (good2 _ _ _ _ H1 H2 HQ gen_in_G2) | cbn [length]; lia].
Qed.

(** *** the point (0, 0) of a zero scalar *)
Lemma inverse_0 v : ~ sat (fp_Inverse fp0) v.
Proof.
  intros H. unfold fp_Inverse in H. apply sat_ask in H. destruct H as (t & H). apply sat_assert_bind in H. destruct H as (E & _). apply feqb_eq in E.
  change fp0 with (f0 pBLS) in E. assert (Z : fmul t (f0 pBLS) = f0 pBLS) by ring. rewrite Z in E. apply (f_equal fval) in E. vm_compute in E. discriminate E.
Qed.
Lemma miller_0 P Q f : g1Y P = fp0 -> ~ sat (MillerLoop [P] [Q]) f.
Proof.
  intros E H. destruct (proj1 (miller_one (@sat) sat_bind' sat_ret' sat_fail' P Q f) H) as (s & I & _).
  apply (init_inv (@sat) sat_bind' sat_ret') in I. destruct I as (yi & I & _). rewrite E in I. exact (inverse_0 yi I).
Qed.
Theorem zero_point Q r : unsat (PairCircuit (mkG1 fp0 fp0) Q r) /\ unsat (PairFixedCircuit (mkG1 fp0 fp0) r).
Proof.
  assert (A : forall Q v, ~ sat (Pair [mkG1 fp0 fp0] [Q]) v).
  { intros q v H. apply value_Pair in H. destruct H as ((m & H & _) & _). exact (miller_0 (mkG1 fp0 fp0) q m (eq_refl fp0) H). }
  split; intros u H; apply sat_bind in H; destruct H as (v & H & _); [exact (A _ _ H) | apply pairFixed_sat in H; exact (A _ _ H)].
Qed.
