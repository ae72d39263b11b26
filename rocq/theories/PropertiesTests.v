(** Property C69: what the test circuits of pairing_test.go accept. *)
From Coq Require Import ZArith NArith List Bool.
From Verif Require Import Params ZMod Circuit Emulated Tower TowerSpec TowerFacts Pairing CurveSpec BlsSpec G2Spec PairSpec SigSpec FixedQ G2Jac EcGroup MillerNeg TestCirc TestSpec TestCircProofs TestHost TestWit.
From Verif Require EcGroup G1Group.
Import ListNotations.
Open Scope Z_scope.

(** lines 30-58 *)
Theorem C69_final_exponentiation (InGt Res : E12) : accepted_iff (FinalExponentiationCircuit InGt Res)
  (C1 InGt <> E6_Zero /\ rep12 Res = S12pow (rep12 InGt) (Z.to_N (3 * ((pBLS ^ 12 - 1) / rBLS))) /\ rep12 Res <> S12one).
Proof. exact (finexp_circuit InGt Res). Qed.
Print Assumptions C69_final_exponentiation.
(** a nonzero input with the right result that no prover can satisfy *)
Theorem C69_final_exponentiation_refuted : exists InGt Res, InGt <> E12_Zero /\
  rep12 Res = S12pow (rep12 InGt) (Z.to_N (3 * ((pBLS ^ 12 - 1) / rBLS))) /\ unsat (FinalExponentiationCircuit InGt Res).
Proof. exact finexp_one. Qed.
Print Assumptions C69_final_exponentiation_refuted.
(** lines 60-93 and 204-237 *)
Theorem C69_pair (P : G1Affine) (Q : G2Affine) (Res : E12) : oncurve1 (g1aff P) -> mul1 (g1aff P) rBLS Inf -> in_G2 (aff2 Q) ->
  accepted_iff (PairCircuit P Q Res) (pairing_value P Q (rep12 Res)).
Proof. exact (pair_circuit P Q Res). Qed.
Print Assumptions C69_pair.
Theorem C69_pair_fixed (P : G1Affine) (Res : E12) : oncurve1 (g1aff P) -> mul1 (g1aff P) rBLS Inf -> accepted_iff (PairFixedCircuit P Res) (pairing_value P G2gen (rep12 Res)).
Proof. exact (fixed_circuit P Res). Qed.
Print Assumptions C69_pair_fixed.
(** the scalar 0 is in the range of randomG1G2Affines: its point is (0, 0), and
    no result is accepted *)
Theorem C69_zero_scalar_refuted : exists P, P = mkG1 fp0 fp0 /\ forall Q Res, unsat (PairCircuit P Q Res) /\ unsat (PairFixedCircuit P Res).
Proof. exact (ex_intro _ (mkG1 fp0 fp0) (conj eq_refl zero_point)). Qed.
Print Assumptions C69_zero_scalar_refuted.
(** any number of pairs from two up: the product of the values, and a Miller value
    with a nontrivial easy part *)
Theorem C69_pair_many (Ps : list G1Affine) (Qs : list G2Affine) (Res : E12) : good_pairs Ps Qs -> (2 <= length Ps)%nat ->
  accepted_iff (res <- Pair Ps Qs ;; E12_AssertIsEqual res Res) (pairing_product Ps Qs (rep12 Res) /\ ~ degenerate Ps Qs).
Proof. exact (pair_many Ps Qs Res). Qed.
Print Assumptions C69_pair_many.
Theorem C69_check_many (Ps : list G1Affine) (Qs : list G2Affine) : good_pairs Ps Qs -> (2 <= length Ps)%nat ->
  accepted_iff (PairingCheck Ps Qs) (pairing_product Ps Qs S12one /\ ~ degenerate Ps Qs).
Proof. exact (check_many Ps Qs). Qed.
Print Assumptions C69_check_many.
(** the second condition follows from the first unless the product is 1 *)
Theorem C69_nontrivial (Ps : list G1Affine) (Qs : list G2Affine) (e : list (list (list Fp))) : good_pairs Ps Qs -> Ps <> [] -> pairing_product Ps Qs e -> e <> S12one ->
  ~ degenerate Ps Qs.
Proof. exact (product_nontrivial Ps Qs e). Qed.
Print Assumptions C69_nontrivial.
(** there is exactly one product *)
Theorem C69_product (Ps : list G1Affine) (Qs : list G2Affine) : good_pairs Ps Qs -> exists r, forall e, pairing_product Ps Qs e <-> e = rep12 r.
Proof. exact (product_ex Ps Qs). Qed.
Print Assumptions C69_product.
(** lines 95-131, with P1 = a1 G, P2 = a2 G, Q1 = b1 H, Q2 = b2 H *)
Theorem C69_multi_test (a1 a2 b1 b2 : Z) (P1 P2 : G1Affine) (Q1 Q2 : G2Affine) (Res : E12) : mul1 (g1aff G1gen) a1 (g1aff P1) -> mul1 (g1aff G1gen) a2 (g1aff P2) ->
  g2mul (aff2 G2gen) b1 (aff2 Q1) -> g2mul (aff2 G2gen) b2 (aff2 Q2) -> ~ (rBLS | a1 + a2) -> ~ (rBLS | b1 + b2) ->
  accepted_iff (MultiPairCircuit P1 P2 Q1 Q2 Res) (pairing_product [P1; P1; P2; P2] [Q1; Q2; Q1; Q2] (rep12 Res)).
Proof. exact (multi_drawn a1 a2 b1 b2 P1 P2 Q1 Q2 Res). Qed.
Print Assumptions C69_multi_test.
(** lines 239-275 *)
Theorem C69_double_fixed_test (a b : Z) (P : G1Affine) (Q : G2Affine) (Res : E12) : mul1 (g1aff G1gen) a (g1aff P) -> g2mul (aff2 G2gen) b (aff2 Q) -> ~ (rBLS | b + 1) ->
  accepted_iff (DoublePairFixedCircuit P P Q Res) (pairing_product [P; P] [Q; G2gen] (rep12 Res)).
Proof. exact (double_drawn a b P Q Res). Qed.
Print Assumptions C69_double_fixed_test.
(** lines 133-163: with P2 = -P1 every product is 1; what remains is the easy part *)
Theorem C69_check_test (a b1 b2 : Z) (P : G1Affine) (Q1 Q2 : G2Affine) : mul1 (g1aff G1gen) a (g1aff P) -> g2mul (aff2 G2gen) b1 (aff2 Q1) -> g2mul (aff2 G2gen) b2 (aff2 Q2) ->
  accepted_iff (PairingCheckCircuit P (negG1 P) Q1 Q2) (~ degenerate [P; P; negG1 P; negG1 P] [Q1; Q2; Q1; Q2]).
Proof. exact (check_drawn a b1 b2 P Q1 Q2). Qed.
Print Assumptions C69_check_test.
(** the same, in terms of the norms to Fp6 of the two Miller values *)
Theorem C69_check_norms (P : G1Affine) (Q1 Q2 : G2Affine) (f1 f2 : E12) : oncurve1 (g1aff P) -> in_G2 (aff2 Q1) -> in_G2 (aff2 Q2) ->
  sat (MillerLoop [P] [Q1]) f1 -> sat (MillerLoop [P] [Q2]) f2 ->
  accepted_iff (PairingCheckCircuit P (negG1 P) Q1 Q2) (~ (B0 (norm6 (E12_Mul f1 f2)) = E2_Zero /\ B1 (norm6 (E12_Mul f1 f2)) = E2_Zero)).
Proof. exact (check_opposite P Q1 Q2 f1 f2). Qed.
Print Assumptions C69_check_norms.
(** other points are rejected *)
Theorem C69_check_other (a1 a2 b1 b2 : Z) (P1 P2 : G1Affine) (Q1 Q2 : G2Affine) : mul1 (g1aff G1gen) a1 (g1aff P1) -> mul1 (g1aff G1gen) a2 (g1aff P2) ->
  g2mul (aff2 G2gen) b1 (aff2 Q1) -> g2mul (aff2 G2gen) b2 (aff2 Q2) -> ~ (rBLS | a1 + a2) -> ~ (rBLS | b1 + b2) -> unsat (PairingCheckCircuit P1 P2 Q1 Q2).
Proof. exact (check_other a1 a2 b1 b2 P1 P2 Q1 Q2). Qed.
Print Assumptions C69_check_other.
(** lines 165-202 *)
Theorem C69_safe (P1 P2 : G1Affine) (Q1 Q2 : G2Affine) : oncurve1 (g1aff P1) -> oncurve1 (g1aff P2) -> in_G2 (aff2 Q1) -> in_G2 (aff2 Q2) ->
  accepted_iff (FinalExponentiationSafeCircuit P1 P2 Q1 Q2) (pairing_product [P1; P2] [Q1; Q2] S12one /\ ~ degenerate [P1; P2] [Q1; Q2]).
Proof. exact (safe_circuit P1 P2 Q1 Q2). Qed.
Print Assumptions C69_safe.
(** TestFinalExponentiationSafeCircuit draws nothing: it passes *)
Theorem C69_safe_test : run (FinalExponentiationSafeCircuit G1gen (negG1 G1gen) G2gen G2gen) = Some tt.
Proof. exact safe_test. Qed.
Print Assumptions C69_safe_test.
(** accepted runs of the other tests *)
Example C69_final_exponentiation_ex : exists InGt Res, run (FinalExponentiationCircuit InGt Res) = Some tt.
Proof. exact finexp_test. Qed.
Example C69_pair_ex : exists Res, pairing_value G1gen G2gen (rep12 Res) /\ run (PairCircuit G1gen G2gen Res) = Some tt /\ run (PairFixedCircuit G1gen Res) = Some tt.
Proof. exact pair_test. Qed.
Example C69_multi_ex : exists Res, pairing_product [G1gen; G1gen; G1gen; G1gen] [G2gen; G2gen; G2gen; G2gen] (rep12 Res) /\ run (MultiPairCircuit G1gen G1gen G2gen G2gen Res) = Some tt.
Proof. exact multi_test. Qed.
Example C69_double_ex : exists Res, pairing_product [G1gen; G1gen] [G2gen; G2gen] (rep12 Res) /\ run (DoublePairFixedCircuit G1gen G1gen G2gen Res) = Some tt.
Proof. exact double_test. Qed.
Example C69_check_ex : run (PairingCheckCircuit G1gen (negG1 G1gen) G2gen G2gen) = Some tt.
Proof. exact check_test. Qed.
(** 1 and 1 are scalars as C69_multi_test and C69_check_other need them *)
Example C69_scalars_ex : mul1 (g1aff G1gen) 1 (g1aff G1gen) /\ g2mul (aff2 G2gen) 1 (aff2 G2gen) /\ ~ (rBLS | 1 + 1).
Proof. split; [exact (G1Group.g1_mul_1 _)|]. split; [exact (EcGroup.g2_mul_1 _)|]. exact (not_r 2 (conj eq_refl eq_refl)). Qed.
