(** Property theorems C33-C36: Miller loop and pairing check. *)
From Coq Require Import ZArith List Bool Permutation.
From Verif Require Import Params ZMod RingPow Circuit Api Emulated Tower TowerSpec FieldFacts TowerFacts TowerProofs TorusFacts CurveSpec PrecompTable Pairing FinalExpSpec MillerProofs FixedQ FixedLoop PairProofs.
Import ListNotations.
Open Scope Z_scope.

(** C33: every accepted step is the textbook point operation on
    y^2 = x^3 + b (any b), and its line coefficients are those of a line that
    meets the curve in exactly the points of that operation. *)
Theorem C33_double_step (p q : G2Affine) (ln : lineEvaluation) (b : E2) :
  sat (doubleStep p) (q, ln) -> g2Y p <> E2_Zero ->
  add2 E2_Zero (aff p) (aff p) (aff q) /\
  (oncurve2 E2_Zero b (aff p) ->
   oncurve2 E2_Zero b (aff q) /\ cuts b ln (g2X p) (g2X p) (g2X q)) /\
  online2 (R0 ln) (R1 ln) (g2X p) (g2Y p).
Proof. exact (doubleStep_spec p q ln b). Qed.
Print Assumptions C33_double_step.

Theorem C33_tangent_line (p : G2Affine) (ln : lineEvaluation) (b : E2) :
  sat (tangentCompute p) ln -> g2Y p <> E2_Zero ->
  exists q, add2 E2_Zero (aff p) (aff p) (aff q) /\
  (oncurve2 E2_Zero b (aff p) -> cuts b ln (g2X p) (g2X p) (g2X q)) /\
  online2 (R0 ln) (R1 ln) (g2X p) (g2Y p).
Proof. exact (tangent_spec p ln b). Qed.
Print Assumptions C33_tangent_line.

Theorem C33_add_step (p1 p2 q : G2Affine) (ln : lineEvaluation) (b : E2) :
  sat (addStep p1 p2) (q, ln) -> g2X p1 <> g2X p2 ->
  add2 E2_Zero (aff p1) (aff p2) (aff q) /\
  (oncurve2 E2_Zero b (aff p1) -> oncurve2 E2_Zero b (aff p2) ->
   oncurve2 E2_Zero b (aff q) /\ cuts b ln (g2X p1) (g2X p2) (g2X q)) /\
  online2 (R0 ln) (R1 ln) (g2X p1) (g2Y p1) /\ online2 (R0 ln) (R1 ln) (g2X p2) (g2Y p2).
Proof. exact (addStep_spec p1 p2 q ln b). Qed.
Print Assumptions C33_add_step.

(** 2 p1 + p2, computed as (p1 + p2) + p1 *)
Theorem C33_double_and_add_step (p1 p2 q : G2Affine) (ln1 ln2 : lineEvaluation) (b : E2) :
  sat (doubleAndAddStep p1 p2) (q, ln1, ln2) -> g2X p1 <> g2X p2 ->
  exists s, add2 E2_Zero (aff p1) (aff p2) (aff s) /\
  (g2X s <> g2X p1 -> add2 E2_Zero (aff s) (aff p1) (aff q)) /\
  (g2X s = g2X p1 -> g2Y p1 = E2_Zero) /\
  (g2X s <> g2X p1 -> oncurve2 E2_Zero b (aff p1) -> oncurve2 E2_Zero b (aff p2) ->
   oncurve2 E2_Zero b (aff q) /\
   cuts b ln1 (g2X p1) (g2X p2) (g2X s) /\ cuts b ln2 (g2X s) (g2X p1) (g2X q)).
Proof. exact (doubleAndAdd_spec p1 p2 q ln1 ln2 b). Qed.
Print Assumptions C33_double_and_add_step.

Theorem C33_triple_step (p q : G2Affine) (ln1 ln2 : lineEvaluation) (b : E2) :
  sat (tripleStep p) (q, ln1, ln2) -> g2Y p <> E2_Zero ->
  exists s, add2 E2_Zero (aff p) (aff p) (aff s) /\ g2X s <> g2X p /\
  add2 E2_Zero (aff s) (aff p) (aff q) /\
  (oncurve2 E2_Zero b (aff p) ->
   oncurve2 E2_Zero b (aff q) /\
   cuts b ln1 (g2X p) (g2X p) (g2X s) /\ cuts b ln2 (g2X s) (g2X p) (g2X q)).
Proof. exact (triple_spec p q ln1 ln2 b). Qed.
Print Assumptions C33_triple_step.

(** on non-degenerate inputs the steps are accepted and pin down one result *)
Theorem C33_steps_total (p p2 : G2Affine) :
  (g2Y p <> E2_Zero -> exists r, determ (doubleStep p) r) /\
  (g2Y p <> E2_Zero -> exists r, determ (tangentCompute p) r) /\
  (g2X p <> g2X p2 -> exists r, determ (addStep p p2) r).
Proof. exact (conj (doubleStep_total p) (conj (tangent_total p) (addStep_total p p2))). Qed.
Print Assumptions C33_steps_total.

(** without g2Y p <> 0 the statement is false: doubling (0,0) accepts every
    point of y^2 = x^3, with every line through the origin *)
Theorem C33_double_zero_refuted : exists p, forall l : E2,
  sat (doubleStep p) (mkG2 (E2_Mul l l) (E2_Neg (E2_Mul l (E2_Mul l l))), mkLine (E2_Neg l) E2_Zero).
Proof. exact (ex_intro _ g20 double_free). Qed.
Print Assumptions C33_double_zero_refuted.

(** C34: the value of the multi-pair loop is the product of the single-pair
    values, for any number of pairs, any prover, and for the honest one. *)
Theorem C34_multi_miller_product (Ps : list G1Affine) (Qs : list G2Affine) (f : E12) :
  (sat (MillerLoop Ps Qs) f <->
   length Ps = length Qs /\ Ps <> [] /\
   exists rs, Forall2 (fun pq r => sat (MillerLoop [fst pq] [snd pq]) r) (combine Ps Qs) rs /\
     rep12 f = fold_right S12mul S12one (map rep12 rs)) /\
  (run (MillerLoop Ps Qs) = Some f <->
   length Ps = length Qs /\ Ps <> [] /\
   exists rs, Forall2 (fun pq r => run (MillerLoop [fst pq] [snd pq]) = Some r) (combine Ps Qs) rs /\
     rep12 f = fold_right S12mul S12one (map rep12 rs)).
Proof. exact (conj (miller_sat Ps Qs f) (miller_run Ps Qs f)). Qed.
Print Assumptions C34_multi_miller_product.

(** hence the order of the pairs does not matter ... *)
Theorem C34_pair_order (Ps Ps' : list G1Affine) (Qs Qs' : list G2Affine) (f : E12) :
  length Ps = length Qs -> length Ps' = length Qs' -> Permutation (combine Ps Qs) (combine Ps' Qs') ->
  sat (MillerLoop Ps Qs) f -> sat (MillerLoop Ps' Qs') f.
Proof. exact (miller_perm Ps Qs Ps' Qs' f). Qed.
Print Assumptions C34_pair_order.

(** ... and empty or mismatched inputs are always rejected. *)
Theorem C34_bad_lengths (Ps : list G1Affine) (Qs : list G2Affine) :
  Ps = [] \/ length Ps <> length Qs -> forall f, ~ sat (MillerLoop Ps Qs) f.
Proof. exact (miller_bad Ps Qs). Qed.
Print Assumptions C34_bad_lengths.

(** no accepted Miller value is zero *)
Theorem C34_nonzero (Ps : list G1Affine) (Qs : list G2Affine) (f : E12) :
  sat (MillerLoop Ps Qs) f -> f <> E12_Zero.
Proof. exact (miller_neq0 Ps Qs f). Qed.
Print Assumptions C34_nonzero.

(** C35: the loops that read the precomputed table agree with the generic
    loop run on the standard generator of G2, for every other argument. *)
Theorem C35_fixed_argument (P T : G1Affine) (Q : G2Affine) (f : E12) :
  (sat (MillerLoopFixedQ P) f <-> sat (MillerLoop [P] [G2gen]) f) /\
  (run (MillerLoopFixedQ P) = Some f <-> run (MillerLoop [P] [G2gen]) = Some f) /\
  (sat (DoubleMillerLoopFixedQ P T Q) f <-> sat (MillerLoop [P; T] [Q; G2gen]) f) /\
  (run (DoubleMillerLoopFixedQ P T Q) = Some f <-> run (MillerLoop [P; T] [Q; G2gen]) = Some f) /\
  (sat (PairFixedQ P) f <-> sat (Pair [P] [G2gen]) f) /\
  (sat (DoublePairFixedQ P T Q) f <-> sat (Pair [P; T] [Q; G2gen]) f).
Proof.
  exact (conj (fixed_sat P f) (conj (fixed_run P f) (conj (double_sat P T Q f)
        (conj (double_run P T Q f) (conj (pairFixed_sat P f) (doublePairFixed_sat P T Q f)))))).
Qed.
Print Assumptions C35_fixed_argument.

(** the honest prover gets a value for every P with y <> 0 *)
Theorem C35_fixed_total (P : G1Affine) : g1Y P <> fp0 -> exists f, run (MillerLoop [P] [G2gen]) = Some f.
Proof. exact (miller_gen_total P). Qed.
Print Assumptions C35_fixed_total.

(** C36: an accepted check has at least two pairs, and the product of the
    single-pair Miller values has trivial final exponentiation. *)
Theorem C36_pairing_check_sound (Ps : list G1Affine) (Qs : list G2Affine) :
  sat (PairingCheck Ps Qs) tt ->
  length Ps = length Qs /\ (2 <= length Ps)%nat /\
  exists rs, Forall2 (fun pq r => sat (MillerLoop [fst pq] [snd pq]) r) (combine Ps Qs) rs /\
    S12pow (fold_right S12mul S12one (map rep12 rs)) (Z.to_N (3 * ((pBLS ^ 12 - 1) / rBLS))) = S12one.
Proof. exact (pairing_sound Ps Qs). Qed.
Print Assumptions C36_pairing_check_sound.

(** conversely the honest prover passes, outside the exceptional set of the
    torus compression *)
Theorem C36_pairing_check_complete (Ps : list G1Affine) (Qs : list G2Affine) (f : E12) :
  (2 <= length Ps)%nat -> run (MillerLoop Ps Qs) = Some f -> C1 f <> E6_Zero ->
  S12pow (rep12 f) (Z.to_N ((pBLS ^ 6 - 1) * (pBLS ^ 2 + 1))) <> S12one ->
  S12pow (rep12 f) (Z.to_N (3 * ((pBLS ^ 12 - 1) / rBLS))) = S12one ->
  run (PairingCheck Ps Qs) = Some tt.
Proof. exact (pairing_complete Ps Qs f). Qed.
Print Assumptions C36_pairing_check_complete.

(** a check of a single pair is never accepted: the unsafe final
    exponentiation is used, and it cannot return 1 *)
Theorem C36_single_pair_rejected (P : G1Affine) (Q : G2Affine) : ~ sat (PairingCheck [P] [Q]) tt.
Proof. exact (pairing_single P Q). Qed.
Print Assumptions C36_single_pair_rejected.

(** non-vacuity: steps on the generator, the loop on the generator, and an
    accepted check *)
Example C33_ex : g2Y G2gen <> E2_Zero /\ oncurve2 E2_Zero (mkE2 (fpZ 4) (fpZ 4)) (aff G2gen) /\
  exists q l1 l2, sat (tripleStep G2gen) (q, l1, l2).
Proof. exact gen_example. Qed.
Example C34_C35_ex : exists f, run (MillerLoop [mkG1 (fpZ 5) (fpZ 7); mkG1 (fpZ 1) (fpZ 2)] [G2gen; G2gen]) = Some f.
Proof. exact (two_example (mkG1 (fpZ 5) (fpZ 7)) (mkG1 (fpZ 1) (fpZ 2)) ltac:(discriminate) ltac:(discriminate)). Qed.
Example C36_ex : sat (PairingCheck [mkG1 (fpZ 5) (fpZ 7); mkG1 (fpZ 5) (fpZ 7)] [mkG2 E2_Zero E2_Zero; mkG2 E2_Zero E2_Zero]) tt.
Proof. exact (check00 (mkG1 (fpZ 5) (fpZ 7)) ltac:(discriminate)). Qed.
