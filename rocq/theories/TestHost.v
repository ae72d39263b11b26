(** The tests of pairing_test.go with points drawn as multiples of the
    generators (randomG1G2Affines, lines 16-28). *)
From Coq Require Import ZArith NArith List Bool Lia Znumtheory Ring Field.
From Verif Require Import Primes Params ZMod RingPow ZPow Circuit Api Emulated Tower TowerSpec FieldFacts TowerFacts ApiFacts TowerProofs CurveSpec Pairing Bls BlsSpec G2 G2Spec G2Jac G2Mul G2Order G2Gen MillerProofs FixedQ FixedLoop CycloFacts TorusFacts FinalExp FinalExpProofs FinalExpSpec PairProofs PairSpec SigSpec MillerTotal Kappa EcGroup G1Group G1Order PairAdd PairMul PairSig G2Cyclic PairNondeg HostMath TestCirc TestSpec TestCircProofs.
Import ListNotations.
Open Scope Z_scope.
Add Ring E12RTH : E12_rt.

(** the points that randomG1G2Affines returns for the scalars a and b *)
Lemma drawn_1 a P : mul1 (g1aff G1gen) a (g1aff P) -> oncurve1 (g1aff P) /\ mul1 (g1aff P) rBLS Inf.
Proof.
  intros H. split; [exact (g1_mul_on _ _ _ G1gen_on H)|].
  pose proof (g1_mul_on _ _ _ G1gen_on H) as HP. destruct (g1_mul_ex (g1aff P) rBLS HP) as (S & HS).
  pose proof (g1_mul_mul _ _ _ _ _ G1gen_on H HS) as M. destruct (g1_mul_ex Inf a (Logic.I : oncurve1 Inf)) as (T & HT). rewrite (g1_mul_Inf _ _ HT) in HT.
  pose proof (g1_mul_mul _ _ _ _ _ G1gen_on G1gen_order HT) as M'. rewrite Z.mul_comm in M'. rewrite (g1_mul_fun _ _ _ _ G1gen_on M M') in HS. exact HS.
Qed.
Lemma drawn_2 b Q : g2mul (aff2 G2gen) b (aff2 Q) -> in_G2 (aff2 Q).
Proof. intros H. apply (in_G2_mul _ _ _ gen_in_G2 H). discriminate. Qed.
Lemma drawn_value g a b P Q e : pval G2gen (g1aff G1gen) g -> mul1 (g1aff G1gen) a (g1aff P) -> g2mul (aff2 G2gen) b (aff2 Q) ->
  (pairing_value P Q e <-> e = rep12 (z12 g (a * b))).
Proof.
  intros V HP HQ. destruct (drawn_1 _ _ HP) as (OP & _). pose proof (drawn_2 _ _ HQ) as GQ.
  assert (X : forall e, pairing_value P Q e -> e = rep12 (z12 g (a * b))).
  { intros e' HV. apply value_qval in HV. destruct HV as (v & HV & ->). destruct (pval_ex G2gen _ gen_in_G2 OP) as (h & Vh).
    pose proof (pval_mul _ _ _ _ _ _ gen_in_G2 G1gen_on HP V Vh) as E1. assert (Vh' : qval P (aff2 G2gen) h) by (destruct P; exact Vh).
    pose proof (qval_mul _ _ _ _ _ _ OP gen_in_G2 HQ Vh' HV) as E2'. rewrite E2', E1, <- zpow_mulE12 by exact (pval_neq0 _ _ _ V). reflexivity. }
  split; [apply X|]. intros ->. destruct (value_ex P Q OP GQ) as (e' & V'). rewrite <- (X e' V'). exact V'.
Qed.
Lemma gen_pow_1 g k : pval G2gen (g1aff G1gen) g -> (z12 g k = E12_One <-> (rBLS | k)).
Proof.
  intros V. pose proof (pval_neq0 _ _ _ V) as Ng. split.
  - intros E. destruct (Zdivide_dec rBLS k) as [D|N]; [exact D|]. exfalso.
    pose proof (order_coprime _ _ Ng (pval_order _ _ _ V) E N) as E1. apply (nondeg G1gen G2gen G1gen_on G1gen_order gen_in_G2). apply value_pval. exists g. split; [exact V | now rewrite E1].
  - intros (c & ->). rewrite Z.mul_comm, zpow_mulE12 by exact Ng. rewrite (pval_order _ _ _ V). apply zpow_one.
Qed.
Lemma prod_4 g a1 a2 b1 b2 P1 P2 Q1 Q2 e : pval G2gen (g1aff G1gen) g -> mul1 (g1aff G1gen) a1 (g1aff P1) -> mul1 (g1aff G1gen) a2 (g1aff P2) ->
  g2mul (aff2 G2gen) b1 (aff2 Q1) -> g2mul (aff2 G2gen) b2 (aff2 Q2) ->
  (pairing_product [P1; P1; P2; P2] [Q1; Q2; Q1; Q2] e <-> e = rep12 (z12 g ((a1 + a2) * (b1 + b2)))).
Proof.
  intros V HP1 HP2 HQ1 HQ2. pose proof (pval_neq0 _ _ _ V) as Ng.
  assert (E : fold_right S12mul S12one [rep12 (z12 g (a1 * b1)); rep12 (z12 g (a1 * b2)); rep12 (z12 g (a2 * b1)); rep12 (z12 g (a2 * b2))] = rep12 (z12 g ((a1 + a2) * (b1 + b2)))).
  { change (fold_right S12mul S12one (map rep12 [z12 g (a1 * b1); z12 g (a1 * b2); z12 g (a2 * b1); z12 g (a2 * b2)]) = rep12 (z12 g ((a1 + a2) * (b1 + b2)))).
    rewrite <- rep12_Pr. f_equal. unfold Pr. cbn [fold_right]. rewrite E12_1_r, <- !zpow_addE12 by exact Ng. f_equal. ring. }
  unfold pairing_product. cbn [combine]. split.
  - intros (es & F & ->). inversion F as [|p1 e1 l1 es1 V1 F1]; subst. inversion F1 as [|p2 e2 l2 es2 V2 F2]; subst. inversion F2 as [|p3 e3 l3 es3 V3 F3]; subst.
    inversion F3 as [|p4 e4 l4 es4 V4 F4]; subst. inversion F4; subst. cbn [fst snd] in *.
    apply (drawn_value g a1 b1 _ _ _ V HP1 HQ1) in V1. apply (drawn_value g a1 b2 _ _ _ V HP1 HQ2) in V2. apply (drawn_value g a2 b1 _ _ _ V HP2 HQ1) in V3. apply (drawn_value g a2 b2 _ _ _ V HP2 HQ2) in V4.
    rewrite V1, V2, V3, V4. exact E.
  - intros ->. eexists. split; [|symmetry; exact E].
    constructor; [cbn [fst snd]; now apply (drawn_value g a1 b1 _ _ _ V HP1 HQ1)|]. constructor; [cbn [fst snd]; now apply (drawn_value g a1 b2 _ _ _ V HP1 HQ2)|].
    constructor; [cbn [fst snd]; now apply (drawn_value g a2 b1 _ _ _ V HP2 HQ1)|]. constructor; [cbn [fst snd]; now apply (drawn_value g a2 b2 _ _ _ V HP2 HQ2) | constructor].
Qed.
Lemma prod_2 g a1 a2 b1 b2 P1 P2 Q1 Q2 e : pval G2gen (g1aff G1gen) g -> mul1 (g1aff G1gen) a1 (g1aff P1) -> mul1 (g1aff G1gen) a2 (g1aff P2) ->
  g2mul (aff2 G2gen) b1 (aff2 Q1) -> g2mul (aff2 G2gen) b2 (aff2 Q2) ->
  (pairing_product [P1; P2] [Q1; Q2] e <-> e = rep12 (z12 g (a1 * b1 + a2 * b2))).
Proof.
  intros V HP1 HP2 HQ1 HQ2. pose proof (pval_neq0 _ _ _ V) as Ng.
  assert (E : fold_right S12mul S12one [rep12 (z12 g (a1 * b1)); rep12 (z12 g (a2 * b2))] = rep12 (z12 g (a1 * b1 + a2 * b2))).
  { change (fold_right S12mul S12one (map rep12 [z12 g (a1 * b1); z12 g (a2 * b2)]) = rep12 (z12 g (a1 * b1 + a2 * b2))).
    rewrite <- rep12_Pr. f_equal. unfold Pr. cbn [fold_right]. rewrite E12_1_r, <- !zpow_addE12 by exact Ng. reflexivity. }
  unfold pairing_product. cbn [combine]. split.
  - intros (es & F & ->). inversion F as [|p1 e1 l1 es1 V1 F1]; subst. inversion F1 as [|p2 e2 l2 es2 V2 F2]; subst. inversion F2; subst. cbn [fst snd] in *.
    apply (drawn_value g a1 b1 _ _ _ V HP1 HQ1) in V1. apply (drawn_value g a2 b2 _ _ _ V HP2 HQ2) in V2. rewrite V1, V2. exact E.
  - intros ->. eexists. split; [|symmetry; exact E].
    constructor; [cbn [fst snd]; now apply (drawn_value g a1 b1 _ _ _ V HP1 HQ1)|]. constructor; [cbn [fst snd]; now apply (drawn_value g a2 b2 _ _ _ V HP2 HQ2) | constructor].
Qed.
Lemma gval : exists g, pval G2gen (g1aff G1gen) g.
Proof. exact (pval_ex G2gen _ gen_in_G2 G1gen_on). Qed.
(** TestPairTestSolve, TestPairFixedTestSolve *)
Theorem pair_drawn a b P Q r : mul1 (g1aff G1gen) a (g1aff P) -> g2mul (aff2 G2gen) b (aff2 Q) -> pairing_value P Q (rep12 r) -> run (PairCircuit P Q r) = Some tt.
Proof. intros HP HQ V. destruct (drawn_1 _ _ HP) as (OP & RP). exact (proj2 (proj1 (pair_circuit P Q r OP RP (drawn_2 _ _ HQ))) V). Qed.
Theorem fixed_drawn a P r : mul1 (g1aff G1gen) a (g1aff P) -> pairing_value P G2gen (rep12 r) -> run (PairFixedCircuit P r) = Some tt.
Proof. intros HP V. destruct (drawn_1 _ _ HP) as (OP & RP). exact (proj2 (proj1 (fixed_circuit P r OP RP)) V). Qed.
(** TestMultiPairTestSolve *)
Theorem multi_drawn a1 a2 b1 b2 P1 P2 Q1 Q2 r : mul1 (g1aff G1gen) a1 (g1aff P1) -> mul1 (g1aff G1gen) a2 (g1aff P2) ->
  g2mul (aff2 G2gen) b1 (aff2 Q1) -> g2mul (aff2 G2gen) b2 (aff2 Q2) -> ~ (rBLS | a1 + a2) -> ~ (rBLS | b1 + b2) ->
  accepted_iff (MultiPairCircuit P1 P2 Q1 Q2 r) (pairing_product [P1; P1; P2; P2] [Q1; Q2; Q1; Q2] (rep12 r)).
Proof.
  intros HP1 HP2 HQ1 HQ2 NA NB. destruct gval as (g & V). pose proof (fun e => prod_4 g a1 a2 b1 b2 P1 P2 Q1 Q2 e V HP1 HP2 HQ1 HQ2) as PR.
  pose proof (proj1 (drawn_1 _ _ HP1)) as O1. pose proof (proj1 (drawn_1 _ _ HP2)) as O2. pose proof (drawn_2 _ _ HQ1) as G1. pose proof (drawn_2 _ _ HQ2) as G2'.
  eapply accepted_ext; [|exact (multi_circuit P1 P2 Q1 Q2 r O1 O2 G1 G2')]. split; [intros (H & _); exact H|]. intros H. split; [exact H|].
  refine (product_nontrivial _ _ _ (good4 P1 P2 Q1 Q2 O1 O2 G1 G2') _ H _); [discriminate|]. apply PR in H. rewrite H, <- rep12_one. apply rep12_neq.
  intros E. apply (gen_pow_1 g _ V) in E. apply (prime_mult _ rBLS_prime) in E. tauto.
Qed.
(** TestDoublePairFixedTestSolve *)
Theorem double_drawn a b P Q r : mul1 (g1aff G1gen) a (g1aff P) -> g2mul (aff2 G2gen) b (aff2 Q) -> ~ (rBLS | b + 1) ->
  accepted_iff (DoublePairFixedCircuit P P Q r) (pairing_product [P; P] [Q; G2gen] (rep12 r)).
Proof.
  intros HP HQ NB. destruct gval as (g & V). pose proof (fun e => prod_2 g a a b 1 P P Q G2gen e V HP HP HQ (g2_mul_1 _)) as PR.
  pose proof (proj1 (drawn_1 _ _ HP)) as O1. pose proof (drawn_2 _ _ HQ) as G1.
  eapply accepted_ext; [|exact (double_circuit P P Q r O1 O1 G1)]. split; [intros (H & _); exact H|]. intros H. split; [exact H|].
  refine (product_nontrivial _ _ _ (good2 P P Q G2gen O1 O1 G1 gen_in_G2) _ H _); [discriminate|]. apply PR in H. rewrite H, <- rep12_one. apply rep12_neq.
  intros E. apply (gen_pow_1 g _ V) in E. replace (a * b + a * 1) with (a * (b + 1)) in E by ring. apply (prime_mult _ rBLS_prime) in E.
  destruct E as [E|E]; [|exact (NB E)]. refine (g1_multiple a (g1aff P) HP _ E). discriminate.
Qed.
(** TestPairingCheckTestSolve: -P for P *)
Theorem check_drawn a b1 b2 P Q1 Q2 : mul1 (g1aff G1gen) a (g1aff P) -> g2mul (aff2 G2gen) b1 (aff2 Q1) -> g2mul (aff2 G2gen) b2 (aff2 Q2) ->
  accepted_iff (PairingCheckCircuit P (MillerNeg.negG1 P) Q1 Q2) (~ degenerate [P; P; MillerNeg.negG1 P; MillerNeg.negG1 P] [Q1; Q2; Q1; Q2]).
Proof.
  intros HP HQ1 HQ2. destruct gval as (g & V). assert (HN : mul1 (g1aff G1gen) (- a) (g1aff (MillerNeg.negG1 P))) by exact (g1_mul_neg _ _ _ HP).
  eapply accepted_ext; [|exact (check_circuit P (MillerNeg.negG1 P) Q1 Q2 (proj1 (drawn_1 _ _ HP)) (proj1 (drawn_1 _ _ HN)) (drawn_2 _ _ HQ1) (drawn_2 _ _ HQ2))].
  split; [intros (_ & H); exact H|]. intros H. split; [|exact H]. apply (prod_4 g a (- a) b1 b2 _ _ _ _ _ V HP HN HQ1 HQ2).
  replace ((a + - a) * (b1 + b2)) with 0 by ring. reflexivity.
Qed.
(** two random G1 points with a different sum: rejected *)
Theorem check_other a1 a2 b1 b2 P1 P2 Q1 Q2 : mul1 (g1aff G1gen) a1 (g1aff P1) -> mul1 (g1aff G1gen) a2 (g1aff P2) ->
  g2mul (aff2 G2gen) b1 (aff2 Q1) -> g2mul (aff2 G2gen) b2 (aff2 Q2) -> ~ (rBLS | a1 + a2) -> ~ (rBLS | b1 + b2) -> unsat (PairingCheckCircuit P1 P2 Q1 Q2).
Proof.
  intros HP1 HP2 HQ1 HQ2 NA NB u H. destruct u. destruct gval as (g & V).
  apply (proj2 (check_circuit P1 P2 Q1 Q2 (proj1 (drawn_1 _ _ HP1)) (proj1 (drawn_1 _ _ HP2)) (drawn_2 _ _ HQ1) (drawn_2 _ _ HQ2))) in H.
  destruct H as (H & _). apply (prod_4 g a1 a2 b1 b2 _ _ _ _ _ V HP1 HP2 HQ1 HQ2) in H. apply (rep12_inj E12_One) in H. symmetry in H.
  apply (gen_pow_1 g _ V) in H. apply (prime_mult _ rBLS_prime) in H. tauto.
Qed.
