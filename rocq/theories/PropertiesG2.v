(** Property theorems C19-C25 and C65: the second group. *)
From Coq Require Import ZArith List Bool.
From Verif Require Import Params ZMod Circuit Api Emulated ApiFacts Tower TowerFacts Pairing CurveSpec G2 HashG2 G2Spec G2Pred EcGroup G2Jac G2Mul G2Cof G2Psi G2Clear G2Order G2Gen G2Refute FixedQ G2Full HashFull Clear13 ConstMulExact Clear13Jac.
Import ListNotations.
Open Scope Z_scope.

(** The specification is the group it should be: on y^2 = x^3 + 4(1+u) over
    Fp2 the chord-tangent relation is a total function and an abelian group
    law.  All later statements about sums and multiples rest on this. *)
Theorem C19_group_law :
  (forall P Q, g2on P -> g2on Q -> exists R, g2add P Q R /\ g2on R /\ forall R', g2add P Q R' -> R' = R) /\
  (forall P Q R, g2on P -> g2on Q -> g2add P Q R -> g2add Q P R) /\
  (forall P Q R PQ QR S T, g2on P -> g2on Q -> g2on R -> g2add P Q PQ -> g2add PQ R S -> g2add Q R QR -> g2add P QR T -> S = T) /\
  (forall P, g2add P Inf P) /\ (forall P, g2on P -> g2on (g2neg P) /\ g2add P (g2neg P) Inf).
Proof. exact group_law. Qed.
Print Assumptions C19_group_law.

(** C19: Jacobian doubling, for every representation of every point *)
Theorem C19_double (J : G2Jacobian) (P : point E2) : jacobian (jX J) (jY J) (jZ J) P ->
  exists R, g2add P P R /\ jacobian (jX (G2JacobianDouble J)) (jY (G2JacobianDouble J)) (jZ (G2JacobianDouble J)) R.
Proof. exact (jac_double J P). Qed.
Print Assumptions C19_double.
(** the honest prover's addition: all points of the curve, infinity, equal and
    opposite operands included *)
Theorem C19_add_honest (p a : G2Jacobian) (P Q : point E2) : jacobian (jX p) (jY p) (jZ p) P -> jacobian (jX a) (jY a) (jZ a) Q -> g2on P -> g2on Q ->
  exists r R, run (G2JacobianAddAssign p a) = Some r /\ g2add P Q R /\ jacobian (jX r) (jY r) (jZ r) R.
Proof. exact (jac_add_honest p a P Q). Qed.
Print Assumptions C19_add_honest.
(** any prover; missing: infinity as an operand and equal operands (both fail, below) *)
Theorem C19_add_sound_partial (p a : G2Jacobian) (P Q : point E2) (r : G2Jacobian) :
  jacobian (jX p) (jY p) (jZ p) P -> jacobian (jX a) (jY a) (jZ a) Q -> g2on P -> g2on Q -> P <> Inf -> Q <> Inf -> P <> Q ->
  sat (G2JacobianAddAssign p a) r -> exists R, g2add P Q R /\ jacobian (jX r) (jY r) (jZ r) R.
Proof. exact (jac_add_sound p a P Q r). Qed.
Print Assumptions C19_add_sound_partial.
(** equal operands: an accepted assignment of the comparison bits whose result
    is the point at infinity, although 2G is not *)
Theorem C19_add_equal_refuted : exists r, sat (G2JacobianAddAssign gJ gJ) r /\
  forall R, g2add (aff2 G2gen) (aff2 G2gen) R -> ~ jacobian (jX r) (jY r) (jZ r) R.
Proof. exact add_equal_cheat. Qed.
Print Assumptions C19_add_equal_refuted.
(** infinity plus G accepted as infinity *)
Theorem C19_add_infinity_refuted : exists r, sat (G2JacobianAddAssign (mkJ E2_One E2_One E2_Zero) gJ) r /\ jacobian (jX r) (jY r) (jZ r) Inf.
Proof. exact add_inf_cheat. Qed.
Print Assumptions C19_add_infinity_refuted.
Example C19_ex : jacobian (jX gJ) (jY gJ) (jZ gJ) (aff2 G2gen) /\ g2on (aff2 G2gen) /\ aff2 G2gen <> g2neg (aff2 G2gen) /\ aff2 G2gen <> Inf.
Proof. exact C19_example. Qed.

(** C20: the round trip, for any prover; and each conversion on its own *)
Theorem C20_round_trip (q : G2Affine) : q <> mkG2 E2_Zero E2_Zero -> determ (j <- GetG2JacFromG2Affine q ;; GetG2AffineFromG2Jac j) q.
Proof. exact (round_trip q). Qed.
Print Assumptions C20_round_trip.
Theorem C20_to_jacobian (q : G2Affine) : q <> mkG2 E2_Zero E2_Zero -> exists j, determ (GetG2JacFromG2Affine q) j /\ jacobian (jX j) (jY j) (jZ j) (aff2 q).
Proof. exact (jac_of_aff_point q). Qed.
Print Assumptions C20_to_jacobian.
Theorem C20_to_affine (J : G2Jacobian) (x y : E2) : jacobian (jX J) (jY J) (jZ J) (Aff x y) -> determ (GetG2AffineFromG2Jac J) (mkG2 x y).
Proof. exact (aff_of_jac_determ J x y). Qed.
Print Assumptions C20_to_affine.
(** (0,0), the code's affine infinity: the honest prover gets Z = 0, another
    prover may also choose (0,0,1) *)
Theorem C20_zero (r : G2Jacobian) : sat (GetG2JacFromG2Affine (mkG2 E2_Zero E2_Zero)) r <->
  r = mkJ E2_Zero E2_Zero E2_One \/ r = mkJ E2_One E2_One E2_Zero.
Proof. exact (jac_of_zero r). Qed.
Print Assumptions C20_zero.
(** the point at infinity has no affine image: the circuit is unsatisfiable,
    the select of (0,0) is never reached *)
Theorem C20_infinity_refuted : exists J, jacobian (jX J) (jY J) (jZ J) Inf /\ unsat (GetG2AffineFromG2Jac J).
Proof. exact (ex_intro _ (mkJ E2_One E2_One E2_Zero) inf_jac_unsat). Qed.
Print Assumptions C20_infinity_refuted.
Theorem C20_infinity_unsat (J : G2Jacobian) : jacobian (jX J) (jY J) (jZ J) Inf -> unsat (GetG2AffineFromG2Jac J).
Proof. exact (aff_of_jac_unsat J). Qed.
Print Assumptions C20_infinity_unsat.
Example C20_ex : G2gen <> mkG2 E2_Zero E2_Zero.
Proof. exact gen_nz. Qed.

(** C21: affine addition, subtraction and doubling have exactly one accepted
    result, the chord-tangent sum; missing from the addition: equal operands
    (fails, below) and opposite operands (unsatisfiable) *)
Theorem C21_add_partial (p q : G2Affine) : g2on (aff2 p) -> g2on (aff2 q) -> aff2 p <> aff2 q -> aff2 p <> g2neg (aff2 q) ->
  exists r, determ (G2AddAssign p q) r /\ g2add (aff2 p) (aff2 q) (aff2 r).
Proof. exact (add_generic p q). Qed.
Print Assumptions C21_add_partial.
Theorem C21_sub_partial (p q : G2Affine) : g2on (aff2 p) -> g2on (aff2 q) -> aff2 p <> aff2 q -> aff2 p <> g2neg (aff2 q) ->
  exists r, determ (G2SubAssign p q) r /\ g2add (aff2 p) (g2neg (aff2 q)) (aff2 r).
Proof. exact (sub_generic p q). Qed.
Print Assumptions C21_sub_partial.
Theorem C21_double (p : G2Affine) : g2on (aff2 p) -> exists r, determ (G2Double p) r /\ g2add (aff2 p) (aff2 p) (aff2 r).
Proof. exact (double_all p). Qed.
Print Assumptions C21_double.
Theorem C21_add_opposite (p q : G2Affine) : g2on (aff2 p) -> aff2 p = g2neg (aff2 q) -> unsat (G2AddAssign p q).
Proof. exact (add_opposite p q). Qed.
Print Assumptions C21_add_opposite.
(** equal operands: any slope is accepted, and the honest prover's own answer
    is not even on the curve *)
Theorem C21_add_equal_any (p : G2Affine) (l : E2) : exists r, sat (G2AddAssign p p) r /\ aff2 r = third E2 E2_Mul E2_Sub l (g2X p) (g2Y p) (g2X p).
Proof. exact (ex_intro _ (chord2 l (g2X p) (g2Y p) (g2X p)) (conj (aff_add_same p l) eq_refl)). Qed.
Print Assumptions C21_add_equal_any.
Theorem C21_add_equal_refuted : exists p r, g2on (aff2 p) /\ run (G2AddAssign p p) = Some r /\ ~ g2on (aff2 r) /\ forall R, g2add (aff2 p) (aff2 p) R -> R <> aff2 r.
Proof. exact (ex_intro _ G2gen (ex_intro _ badSum (conj gen_on (conj aff_add_same_honest (conj badSum_off badSum_not))))). Qed.
Print Assumptions C21_add_equal_refuted.
Example C21_ex : exists q, g2add (aff2 G2gen) (aff2 G2gen) (aff2 q) /\ g2on (aff2 G2gen) /\ g2on (aff2 q) /\ aff2 G2gen <> aff2 q /\ aff2 G2gen <> g2neg (aff2 q).
Proof. exact C21_example. Qed.

(** C22: [15132376222941642752]P.  Honest prover: every point of the curve *)
Theorem C22_honest (J : G2Jacobian) (P : point E2) : g2on P -> jacobian (jX J) (jY J) (jZ J) P ->
  exists r R, run (G2JacobianConstScalarMul J) = Some r /\ g2mul P 15132376222941642752 R /\ jacobian (jX r) (jY r) (jZ r) R.
Proof. exact (constmul_honest J P). Qed.
Print Assumptions C22_honest.
(** any prover: points no multiple of which up to that number is infinity;
    missing: points of small order *)
Theorem C22_sound_partial (J : G2Jacobian) (P : point E2) (r : G2Jacobian) : g2on P -> jacobian (jX J) (jY J) (jZ J) P ->
  order_above 15132376222941642752 P -> sat (G2JacobianConstScalarMul J) r ->
  exists R, g2mul P 15132376222941642752 R /\ jacobian (jX r) (jY r) (jZ r) R.
Proof. exact (constmul_sound J P r). Qed.
Print Assumptions C22_sound_partial.
(** in particular all points of the order-r subgroup, *)
Theorem C22_subgroup (J : G2Jacobian) (P : point E2) : in_G2 P -> jacobian (jX J) (jY J) (jZ J) P ->
  exists R, g2mul P 15132376222941642752 R /\ R <> Inf /\ (exists r, sat (G2JacobianConstScalarMul J) r) /\
    forall r, sat (G2JacobianConstScalarMul J) r -> jacobian (jX r) (jY r) (jZ r) R.
Proof. exact (constmul_G2 J P). Qed.
Print Assumptions C22_subgroup.
(** and infinity *)
Theorem C22_infinity (J r : G2Jacobian) : jacobian (jX J) (jY J) (jZ J) Inf -> sat (G2JacobianConstScalarMul J) r -> jacobian (jX r) (jY r) (jZ r) Inf.
Proof. exact (constmul_inf J r). Qed.
Print Assumptions C22_infinity.
(** the criterion used for the subgroup gives the order *)
Theorem C22_criterion (P : point E2) : in_G2 P -> g2mul P rBLS Inf /\ order_above (rBLS - 1) P.
Proof. exact (criterion P). Qed.
Print Assumptions C22_criterion.
(** the exact condition: every prover computes the product, unless the point
    has order 13 *)
Theorem C22_exact (J : G2Jacobian) (P : point E2) : g2on P -> jacobian (jX J) (jY J) (jZ J) P ->
  ((forall r, sat (G2JacobianConstScalarMul J) r -> exists R, g2mul P 15132376222941642752 R /\ jacobian (jX r) (jY r) (jZ r) R) <->
   (P = Inf \/ ~ g2mul P 13 Inf)).
Proof. exact (constmul_exact J P). Qed.
Print Assumptions C22_exact.
(** at every point of order 13 a prover can reach infinity instead *)
Theorem C22_order13 (J : G2Jacobian) (P : point E2) : g2on P -> jacobian (jX J) (jY J) (jZ J) P -> g2mul P 13 Inf ->
  exists r, sat (G2JacobianConstScalarMul J) r /\ jacobian (jX r) (jY r) (jZ r) Inf.
Proof. exact (constmul_cheat13 J P). Qed.
Print Assumptions C22_order13.
Theorem C22_refuted : exists J P r, g2on P /\ jacobian (jX J) (jY J) (jZ J) P /\ sat (G2JacobianConstScalarMul J) r /\
  forall R, g2mul P 15132376222941642752 R -> ~ jacobian (jX r) (jY r) (jZ r) R.
Proof. exact constmul_refuted. Qed.
Print Assumptions C22_refuted.
Example C22_order13_ex : g2on (aff2 u13p) /\ aff2 u13p <> Inf /\ g2mul (aff2 u13p) 13 Inf.
Proof. exact order13. Qed.
Example C22_ex : in_G2 (aff2 G2gen) /\ jacobian (jX gJ) (jY gJ) (jZ gJ) (aff2 G2gen) /\ order_above 15132376222941642752 (aff2 G2gen).
Proof. exact (conj gen_in_G2 (conj gJ_rep gen_mul_order)). Qed.

(** C23: Psi is the untwist-Frobenius-twist map in both coordinate systems *)
Theorem C23_psi_affine (p : G2Affine) : psi_of (aff2 p) (aff2 (G2Psi p)).
Proof. exact (psi_aff p). Qed.
Print Assumptions C23_psi_affine.
Theorem C23_psi_jacobian (J : G2Jacobian) (P Q : point E2) : jacobian (jX J) (jY J) (jZ J) P -> psi_of P Q ->
  jacobian (jX (G2JacobianPsi J)) (jY (G2JacobianPsi J)) (jZ (G2JacobianPsi J)) Q.
Proof. exact (psi_jac J P Q). Qed.
Print Assumptions C23_psi_jacobian.
(** it is a function, an endomorphism of the curve, and its square is known *)
Theorem C23_psi_function (P : point E2) : exists P', psi_of P P' /\ forall P'', psi_of P P'' -> P'' = P'.
Proof. exact (psi_total P). Qed.
Print Assumptions C23_psi_function.
Theorem C23_psi_curve (P P' : point E2) : psi_of P P' -> g2on P -> g2on P'.
Proof. exact (psi_on P P'). Qed.
Print Assumptions C23_psi_curve.
Theorem C23_psi_homomorphism (P Q S P' Q' S' : point E2) : psi_of P P' -> psi_of Q Q' -> psi_of S S' -> g2add P Q S -> g2add P' Q' S'.
Proof. exact (psi_hom P Q S P' Q' S'). Qed.
Print Assumptions C23_psi_homomorphism.
Theorem C23_psi_square (p : G2Affine) : G2Psi (G2Psi p) = mkG2 (E2_MulByElement (g2X p) thirdRootOneG1) (E2_Neg (g2Y p)).
Proof. exact (psi_psi p). Qed.
Print Assumptions C23_psi_square.
Example C23_ex : exists Q, psi_of (aff2 G2gen) Q /\ g2mul (aff2 G2gen) blsX Q /\ Q <> aff2 G2gen.
Proof. exact C23_example. Qed.

(** C24: cofactor clearing.  [cleared P R]: R = [x^2-x-1]P + psi([x-1]P) + psi(psi([2]P)) *)
Theorem C24_honest (J : G2Jacobian) (P : point E2) : g2on P -> jacobian (jX J) (jY J) (jZ J) P ->
  exists r R, run (ClearCofactor J) = Some r /\ cleared P R /\ jacobian (jX r) (jY r) (jZ r) R.
Proof. exact (clear_honest J P). Qed.
Print Assumptions C24_honest.
(** any prover, when the image is finite *)
Theorem C24_sound (J : G2Jacobian) (P R : point E2) (r : G2Jacobian) : g2on P -> jacobian (jX J) (jY J) (jZ J) P -> cleared P R -> R <> Inf ->
  sat (ClearCofactor J) r -> jacobian (jX r) (jY r) (jZ r) R /\ in_G2 R.
Proof. exact (clear_sound_full J P R r). Qed.
Print Assumptions C24_sound.
(** any prover: sound at every point of the curve but those of order 13, and
    unsound at each of those *)
Theorem C24_exact (J : G2Jacobian) (P : point E2) : g2on P -> jacobian (jX J) (jY J) (jZ J) P ->
  ((forall r, sat (ClearCofactor J) r -> exists R, cleared P R /\ jacobian (jX r) (jY r) (jZ r) R) <-> (P = Inf \/ ~ g2mul P 13 Inf)).
Proof. exact (clear_exact J P). Qed.
Print Assumptions C24_exact.
(** there a prover gets a point outside the subgroup, where the formula gives infinity *)
Theorem C24_jacobian_refuted : exists J P r Q, g2on P /\ jacobian (jX J) (jY J) (jZ J) P /\ cleared P Inf /\
  sat (ClearCofactor J) r /\ jacobian (jX r) (jY r) (jZ r) Q /\ g2on Q /\ Q <> Inf /\ ~ in_G2 Q.
Proof. exact clear13_jac. Qed.
Print Assumptions C24_jacobian_refuted.
(** the affine version, which HashToG2 uses *)
Theorem C24_affine (p : G2Affine) (R : point E2) : g2on (aff2 p) -> cleared (aff2 p) R -> R <> Inf ->
  exists r, determ (G2ClearCofactor p) r /\ aff2 r = R /\ in_G2 R.
Proof. exact (clear_affine_full p R). Qed.
Print Assumptions C24_affine.
(** any prover, any point not of order 13: the result is the formula's and lies in
    the subgroup; a point the formula sends to infinity has no valid witness *)
Theorem C24_affine_sound (p r : G2Affine) : g2on (aff2 p) -> ~ g2mul (aff2 p) 13 Inf -> sat (G2ClearCofactor p) r ->
  cleared (aff2 p) (aff2 r) /\ in_G2 (aff2 r).
Proof. exact (clear_affine_sound p r). Qed.
Print Assumptions C24_affine_sound.
Theorem C24_affine_reject (p : G2Affine) : g2on (aff2 p) -> ~ g2mul (aff2 p) 13 Inf -> cleared (aff2 p) Inf -> unsat (G2ClearCofactor p).
Proof. exact (clear_affine_reject p). Qed.
Print Assumptions C24_affine_reject.
Example C24_affine_reject_ex : exists p, g2on (aff2 p) /\ ~ g2mul (aff2 p) 13 Inf /\ cleared (aff2 p) Inf.
Proof. exact order23. Qed.
(** at a point of order 13 the affine version adds a point to itself: the honest
    prover's result is a point off the curve, where the formula gives infinity *)
Theorem C24_affine_refuted : exists p r, g2on (aff2 p) /\ cleared (aff2 p) Inf /\ run (G2ClearCofactor p) = Some r /\ ~ g2on (aff2 r).
Proof. exact clear13_refuted. Qed.
Print Assumptions C24_affine_refuted.
Theorem C24_subgroup (p : G2Affine) : in_G2 (aff2 p) -> exists r, determ (G2ClearCofactor p) r /\ cleared (aff2 p) (aff2 r).
Proof. exact (clear_G2 p). Qed.
Print Assumptions C24_subgroup.
(** the formula is a function of the point and stays on the curve *)
Theorem C24_formula (P : point E2) : g2on P -> exists R, cleared P R /\ g2on R /\ forall R', cleared P R' -> R' = R.
Proof. exact (cleared_function P). Qed.
Print Assumptions C24_formula.
Example C24_ex : g2on (aff2 G2gen) /\ jacobian (jX gJ) (jY gJ) (jZ gJ) (aff2 G2gen) /\ exists R, cleared (aff2 G2gen) R /\ R <> Inf.
Proof. exact (conj gen_on (conj gJ_rep gen_cleared)). Qed.

(** C65: the twist has exactly h2 r points; the formula sends each of them to
    infinity or into the subgroup of order r, and to infinity exactly when h2
    kills it *)
Theorem C65_count : exists l, NoDup l /\ (forall P, In P l <-> g2on P) /\ Z.of_nat (length l) =
  (blsX^8 - 4*blsX^7 + 5*blsX^6 - 4*blsX^4 + 6*blsX^3 - 4*blsX^2 - 4*blsX + 13) / 9 * rBLS.
Proof. exact twist_count. Qed.
Print Assumptions C65_count.
Theorem C65_exponent (P : point E2) : g2on P -> g2mul P (h2BLS * rBLS) Inf.
Proof. exact (twist_exponent P). Qed.
Print Assumptions C65_exponent.
Theorem C65_cleared (P R : point E2) : g2on P -> cleared P R -> R = Inf \/ in_G2 R.
Proof. exact (clear_in_G2 P R). Qed.
Print Assumptions C65_cleared.
Theorem C65_kernel (P R : point E2) : g2on P -> cleared P R -> (R = Inf <-> g2mul P h2BLS Inf).
Proof. exact (clear_kernel P R). Qed.
Print Assumptions C65_kernel.
(** the additions in the code's formula are all ordinary unless the result is infinity *)
Theorem C65_ordinary (P R : point E2) : g2on P -> cleared P R -> (clear_generic P <-> R <> Inf).
Proof. exact (generic_iff P R). Qed.
Print Assumptions C65_ordinary.
(** both cases occur, the first off the subgroup *)
Example C65_ex : (exists R, cleared (aff2 G2gen) R /\ R <> Inf) /\ exists P, g2on P /\ P <> Inf /\ cleared P Inf.
Proof. exact (conj gen_cleared kernel_ex). Qed.

(** C25: the predicates.  The honest prover's answers are right *)
Theorem C25_honest (x y : Fp) (X Y : E2) :
  run (G1NotZero x) = Some (bF (negb (feqb x fp0))) /\ run (G1NotEqual x y) = Some (bF (negb (feqb x y))) /\
  run (E2NotZero X) = Some (bF (negb (E2_eqb X E2_Zero))) /\ run (E2NotEqual X Y) = Some (bF (negb (E2_eqb X Y))) /\
  run (E2NotOne X) = Some (bF (negb (E2_eqb X E2_One))) /\
  run (G2AffineNotInfinity (mkG2 X Y)) = Some (bF (negb (E2_eqb X E2_Zero && E2_eqb Y E2_Zero))).
Proof. exact (conj (run_G1NotZero x) (conj (run_G1NotEqual x y) (conj (run_E2NotZero X) (conj (run_E2NotEqual X Y) (conj (run_E2NotOne X) (run_NotInf X Y)))))). Qed.
Print Assumptions C25_honest.
(** any prover: exactly these answers are accepted.  0 is sound ("equal" is
    never claimed of different values); 1 is not *)
Theorem C25_accepted_partial (x y : Fp) (X Y : E2) (v : Fr) :
  (sat (G1NotZero x) v <-> v = bF true \/ (x = fp0 /\ v = bF false)) /\
  (sat (G1NotEqual x y) v <-> (v = bF true /\ (x <> y \/ fval x < 2 ^ 381 - pBLS)) \/ (v = bF false /\ x = y)) /\
  (sat (E2NotZero X) v <-> v = bF true \/ (X = E2_Zero /\ v = bF false)) /\
  (sat (E2NotEqual X Y) v <-> (v = bF true /\ (X <> Y \/ fval (A0 X) < 2 ^ 381 - pBLS \/ fval (A1 X) < 2 ^ 381 - pBLS)) \/ (v = bF false /\ X = Y)) /\
  (sat (E2NotOne X) v <-> v = bF true \/ (X = E2_One /\ v = bF false)) /\
  (sat (G2AffineNotInfinity (mkG2 X Y)) v <-> v = bF true \/ (X = E2_Zero /\ Y = E2_Zero /\ v = bF false)).
Proof. exact (conj (sat_G1NotZero x v) (conj (sat_G1NotEqual x y v) (conj (sat_E2NotZero X v) (conj (sat_E2NotEqual X Y v) (conj (sat_E2NotOne X v) (sat_NotInf X Y v)))))). Qed.
Print Assumptions C25_accepted_partial.
Theorem C25_refuted : exists (x : Fp) (X : E2),
  sat (G1NotZero fp0) (bF true) /\ sat (E2NotZero E2_Zero) (bF true) /\ sat (G1NotEqual x x) (bF true) /\
  sat (E2NotEqual X X) (bF true) /\ sat (E2NotOne E2_One) (bF true) /\ sat (G2AffineNotInfinity (mkG2 E2_Zero E2_Zero)) (bF true) /\ bF true <> bF false.
Proof. exact predicates_cheat. Qed.
Print Assumptions C25_refuted.
Example C25_ex : run (E2NotEqual (g2X G2gen) (g2Y G2gen)) = Some (bF true).
Proof. exact C25_example. Qed.
