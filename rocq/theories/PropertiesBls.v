(** Property theorems C40, C42-C46: key aggregation and weights. *)
From Coq Require Import ZArith List Bool Permutation.
From Verif Require Import Params ZMod Circuit Api Emulated Pairing CurveSpec Bls BlsSpec BlsProofs BlsExamples BlsRefute.
Import ListNotations.
Open Scope Z_scope.

(** C40: for either engine and any prover, an accepted aggregation has a
    boolean bit list and the claimed weight is the signers' weight in the field. *)
Theorem C40_signed_weight (eng : engine) (keys : list G1Key) (bits ws : list Fr) (t : Fr) (P : G1Affine) :
  length keys = 10%nat -> length bits = 10%nat -> length ws = 10%nat ->
  sat (AggregatePublicKeys eng keys bits ws t) P ->
  is_bits bits /\ fval t = signed_weight bits ws mod rBN.
Proof. exact (agg_weight eng keys bits ws t P). Qed.
Example C40_ex : sat (AggregatePublicKeys Compiled witKeys ones10 exW (ofZ rBN 55)) (mkG1 (fpZ (fst g1genZ)) (fpZ (snd g1genZ))).
Proof. exact (run_sat _ _ (proj1 agg_comp_example)). Qed.

(** C42, test engine: the run succeeds exactly when bits and limbs are well
    formed and the signers' keys can be added without meeting equal abscissae,
    and then the result is the sum of the signers' keys ((0,0) if there is none). *)
Theorem C42_test_engine (keys : list G1Key) (bits ws : list Fr) (t : Fr) (P : G1Affine) :
  length keys = 10%nat -> length bits = 10%nat -> length ws = 10%nat ->
  (run (AggregatePublicKeys TestEngine keys bits ws t) = Some P <->
   is_bits bits /\ Forall key_wf keys /\ fval t = signed_weight bits ws mod rBN /\
   ((signers bits keys = [] /\ P = mkG1 (f0 pBLS) (f0 pBLS)) \/ generic_sum (map key_xy (signers bits keys)) (g1X P, g1Y P))).
Proof. exact (agg_test keys bits ws t P). Qed.
Theorem C42_test_engine_rotate (keys : list G1Key) (bits : list Fr) (P : G1Affine) :
  length keys = 10%nat -> length bits = 10%nat ->
  (run (AggregatePublicKeys_Rotate TestEngine keys bits) = Some P <->
   is_bits bits /\ Forall key_wf keys /\
   ((signers bits keys = [] /\ P = mkG1 (f0 pBLS) (f0 pBLS)) \/ generic_sum (map key_xy (signers bits keys)) (g1X P, g1Y P))).
Proof. exact (aggRot_test keys bits P). Qed.
(** [generic_sum] is the chord-tangent sum *)
Theorem C42_sum_is_sum (l : list (Fp * Fp)) (r : Fp * Fp) :
  generic_sum l r -> point_sum (map (fun p => Aff (fst p) (snd p)) l) (Aff (fst r) (snd r)).
Proof. exact (generic_point_sum l r). Qed.
Example C42_test_ex : run (AggregatePublicKeys TestEngine exKeys bits13 exW (ofZ rBN 4)) =
  Some (mkG1 (fpZ (fst (last_sum 0 0 ex13))) (fpZ (snd (last_sum 0 0 ex13)))).
Proof. exact agg_test_example. Qed.

(** C42, compiled circuit, all bits set: the sum, and no other value *)
Theorem C42_compiled_all_sign_partial (keys : list G1Key) (bits ws : list Fr) (t : Fr) (P : G1Affine) :
  length keys = 10%nat -> length bits = 10%nat -> length ws = 10%nat ->
  Forall (fun b => fval b = 1) bits -> Forall key_wf keys -> fval t = signed_weight bits ws mod rBN ->
  generic_sum (map key_xy keys) (g1X P, g1Y P) -> determ (AggregatePublicKeys Compiled keys bits ws t) P.
Proof. exact (agg_comp_ones keys bits ws t P). Qed.
Theorem C42_compiled_all_sign_rotate_partial (keys : list G1Key) (bits : list Fr) (P : G1Affine) :
  length keys = 10%nat -> length bits = 10%nat ->
  Forall (fun b => fval b = 1) bits -> Forall key_wf keys ->
  generic_sum (map key_xy keys) (g1X P, g1Y P) -> determ (AggregatePublicKeys_Rotate Compiled keys bits) P.
Proof. exact (aggRot_comp_ones keys bits P). Qed.
Example C42_compiled_ex : determ (AggregatePublicKeys Compiled witKeys ones10 exW (ofZ rBN 55)) (mkG1 (fpZ (fst g1genZ)) (fpZ (snd g1genZ))).
Proof. exact agg_comp_example. Qed.

(** C42, compiled circuit, one signer: the only accepted value has
    abscissa 4/x^2 and is off the curve unless x^3 = 4 *)
Theorem C42_compiled_one_signer (k : G1Key) (keys : list G1Key) (bits : list Fr) :
  length (k :: keys) = 10%nat -> length bits = 10%nat ->
  first_only bits -> Forall key_wf (k :: keys) -> oncurve1 (key_point k) -> key_x k <> f0 pBLS ->
  exists P, determ (AggregatePublicKeys_Rotate Compiled (k :: keys) bits) P /\
    fmul (g1X P) (fmul (key_x k) (key_x k)) = fpZ 4 /\
    (fmul (fmul (key_x k) (key_x k)) (key_x k) <> fpZ 4 -> ~ oncurve1 (Aff (g1X P) (g1Y P))).
Proof. exact (aggRot_comp_one k keys bits). Qed.
Theorem C42_compiled_refuted : exists keys bits k, length keys = 10%nat /\ length bits = 10%nat /\
  Forall key_wf keys /\ Forall (fun k => oncurve1 (key_point k)) keys /\ is_bits bits /\ signers bits keys = [k] /\
  exists P, determ (AggregatePublicKeys_Rotate Compiled keys bits) P /\
    Aff (g1X P) (g1Y P) <> key_point k /\ ~ oncurve1 (Aff (g1X P) (g1Y P)).
Proof. exact agg_compiled_refuted. Qed.

(** C43: distinct abscissae: exactly the sum *)
Theorem C43_add_g1_distinct_partial (p q : G1Affine) : g1X p <> g1X q ->
  exists R, determ (AddG1Points (mkGV p false) (mkGV q false)) (mkGV R false) /\
    add1 (Aff (g1X p) (g1Y p)) (Aff (g1X q) (g1Y q)) (Aff (g1X R) (g1Y R)).
Proof. exact (AddG1_sound p q). Qed.
Example C43_ex : exists R, determ (AddG1Points (mkGV (mkG1 (fpZ 0) (fpZ 2)) false) (mkGV (mkG1 (fpZ 5) (fpZ 7)) false)) (mkGV R false) /\
    add1 (Aff (fpZ 0) (fpZ 2)) (Aff (fpZ 5) (fpZ 7)) (Aff (g1X R) (g1Y R)).
Proof. exact (C43_add_g1_distinct_partial (mkG1 (fpZ 0) (fpZ 2)) (mkG1 (fpZ 5) (fpZ 7)) ltac:(discriminate)). Qed.
(** equal operands on the curve: several values are accepted, even off the curve *)
Theorem C43_add_g1_equal_refuted : exists p R1 R2, oncurve1 (Aff (g1X p) (g1Y p)) /\ R1 <> R2 /\
  sat (AddG1Points (mkGV p false) (mkGV p false)) R1 /\ sat (AddG1Points (mkGV p false) (mkGV p false)) R2 /\
  ~ oncurve1 (Aff (g1X (gvP R1)) (g1Y (gvP R1))).
Proof. exact addG1_refuted. Qed.
(** opposite operands: nothing is accepted *)
Theorem C43_add_g1_opposite_unsat (x y : Fp) : fadd y y <> f0 pBLS ->
  unsat (AddG1Points (mkGV (mkG1 x y) false) (mkGV (mkG1 x (fopp y)) false)).
Proof. exact (AddG1_opp_unsat x y). Qed.

(** C44: what CalculateTrustedWeight accepts, for every input ... *)
Theorem C44_trusted_weight_general (old new : list G1Key) (bits ws : list Fr) :
  length old = 10%nat -> length new = 10%nat -> length bits = 10%nat -> length ws = 10%nat ->
  Forall key6 old -> Forall key6 new -> forall t,
  sat (CalculateTrustedWeight old new bits ws) t <->
  is_bits bits /\ exists z, weight_where counted (positions bits new old ws) z /\ fval t = z mod rBN.
Proof. exact (trusted_general old new bits ws). Qed.
(** ... and when no old key is all zero: exactly the positions that signed with an unchanged key *)
Theorem C44_trusted_weight (old new : list G1Key) (bits ws : list Fr) :
  length old = 10%nat -> length new = 10%nat -> length bits = 10%nat -> length ws = 10%nat ->
  Forall key6 old -> Forall key6 new -> forall t, Forall (fun k => k <> zero_key) old ->
  (sat (CalculateTrustedWeight old new bits ws) t <->
   is_bits bits /\ exists z, weight_where signed_and_kept (positions bits new old ws) z /\ fval t = z mod rBN).
Proof. exact (trusted_formula old new bits ws). Qed.
Example C44_ex : Forall (fun k => k <> zero_key) exKeys /\ sat (CalculateTrustedWeight exKeys exKeys ones10 exW) (ofZ rBN 55).
Proof. exact trusted_example. Qed.

(** C45: nobody signed, yet weight is counted (old key all zero) *)
Theorem C45_only_signers_refuted : exists old new bits ws t,
  length old = 10%nat /\ length new = 10%nat /\ length bits = 10%nat /\ length ws = 10%nat /\
  Forall key6 old /\ Forall key6 new /\ Forall (fun b => fval b = 0) bits /\
  sat (CalculateTrustedWeight old new bits ws) t /\ fval t = 1.
Proof. exact trusted_nonsigner_refuted. Qed.

(** C46: the same validators in another order, all signing: nothing is counted *)
Theorem C46_membership_refuted : exists old new bits ws t,
  length old = 10%nat /\ length new = 10%nat /\ length bits = 10%nat /\ length ws = 10%nat /\
  Forall key_wf old /\ Permutation old new /\ Forall (fun b => fval b = 1) bits /\
  sat (CalculateTrustedWeight old new bits ws) t /\ fval t = 0 /\ signed_weight bits ws = 55.
Proof. exact trusted_moved_refuted. Qed.

Print Assumptions C40_signed_weight.
Print Assumptions C42_test_engine.
Print Assumptions C42_test_engine_rotate.
Print Assumptions C42_sum_is_sum.
Print Assumptions C42_compiled_all_sign_partial.
Print Assumptions C42_compiled_all_sign_rotate_partial.
Print Assumptions C42_compiled_one_signer.
Print Assumptions C42_compiled_refuted.
Print Assumptions C43_add_g1_distinct_partial.
Print Assumptions C43_add_g1_equal_refuted.
Print Assumptions C43_add_g1_opposite_unsat.
Print Assumptions C44_trusted_weight_general.
Print Assumptions C44_trusted_weight.
Print Assumptions C45_only_signers_refuted.
Print Assumptions C46_membership_refuted.
