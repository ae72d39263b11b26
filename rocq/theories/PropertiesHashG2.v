(** Property theorems C26-C32 and C56-C58: hashing to the second group. *)
From Coq Require Import ZArith NArith List Bool String.
From Coq Require Import List.
From Verif Require Import Params ZMod RingPow Circuit Api Emulated FieldFacts Tower TowerFacts Pairing CurveSpec HashField HashFieldSpec Sha256Proofs HashFieldProofs G2 HashG2 G2Spec HashSpec G2Pred EcGroup G2Jac G2Mul G2Clear G2Chain G2Refute HashSgn HashSqrt HashIso HashMap HashFinal HashWitPts HashWit HashCheat HashTop HashFull.
Import ListNotations.
Open Scope Z_scope.

(** C26: what g2Sgn0 accepts: the parity of the first coordinate, or the
    opposite bit when that coordinate is below 2^381 - p *)
Theorem C26_accepted (u : E2) (v : Fr) : sat (g2Sgn0 u) v <->
  v = bF (Z.odd (fval (A0 u))) \/ (fval (A0 u) < 2 ^ 381 - pBLS /\ v = bF (negb (Z.odd (fval (A0 u))))).
Proof. exact (sat_sgn0 u v). Qed.
Print Assumptions C26_accepted.
(** the honest prover; missing: A0 = 0 with A1 odd (fails, next) and other provers *)
Theorem C26_honest_partial (u : E2) : fval (A0 u) <> 0 \/ Z.odd (fval (A1 u)) = false -> run (g2Sgn0 u) = Some (bF (sgn0 u)).
Proof. exact (sgn0_agrees u). Qed.
Print Assumptions C26_honest_partial.
Theorem C26_refuted : exists u, run (g2Sgn0 u) = Some (bF false) /\ sgn0 u = true.
Proof. exact (ex_intro _ (mkE2 fp0 fp1) sgn0_wrong). Qed.
Print Assumptions C26_refuted.
Theorem C26_flip_refuted : exists u, sat (g2Sgn0 u) (bF true) /\ sat (g2Sgn0 u) (bF false).
Proof. exact (ex_intro _ E2_One sgn0_flip). Qed.
Print Assumptions C26_flip_refuted.
Example C26_ex : fval (A0 E2_One) <> 0 /\ sgn0 E2_One = true.
Proof. split; [discriminate | reflexivity]. Qed.

(** C27: the accepted result is unique and is the power *)
Theorem C27_exp (x : E2) (k : Z) : 0 <= k -> determ (E2Exp x k) (e2pow x (Z.to_N k)).
Proof. exact (exp_nonneg x k). Qed.
Print Assumptions C27_exp.
Theorem C27_exp_neg (x : E2) (k : Z) : k < 0 -> x <> E2_Zero -> exists y, E2_Mul y x = E2_One /\ determ (E2Exp x k) (e2pow y (Z.to_N (- k))).
Proof. exact (exp_neg x k). Qed.
Print Assumptions C27_exp_neg.
Theorem C27_exp_neg_zero (k : Z) : k < 0 -> unsat (E2Exp E2_Zero k).
Proof. exact (exp_neg_zero k). Qed.
Print Assumptions C27_exp_neg_zero.
Example C27_ex : E2_One <> E2_Zero.
Proof. exact E2_1_neq_0. Qed.

(** C28: the honest prover, u and v nonzero *)
Theorem C28_sqrt_ratio_partial (u v : E2) : u <> E2_Zero -> v <> E2_Zero -> exists z b, run (g2SqrtRatio u v) = Some (z, bF b) /\
  ((b = false /\ (exists s, E2_Mul (E2_Mul s s) v = u) /\ E2_Mul (E2_Mul z z) v = u) \/
   (b = true /\ ~ (exists s, E2_Mul (E2_Mul s s) v = u) /\ E2_Mul (E2_Mul z z) v = E2_Mul isoZ u)).
Proof. exact (sqrt_honest u v). Qed.
Print Assumptions C28_sqrt_ratio_partial.
(** u = 0 is reported as a non-square although 0 = 0^2 v *)
Theorem C28_zero_refuted (v : E2) : (exists s, E2_Mul (E2_Mul s s) v = E2_Zero) /\ run (g2SqrtRatio E2_Zero v) = Some (E2_Zero, bF true).
Proof. exact (sqrt_zero_wrong v). Qed.
Print Assumptions C28_zero_refuted.
(** any prover: the root is right up to an eighth root of unity, and a claimed
    square is one *)
Theorem C28_any_prover (u v z : E2) (f : Fr) : u <> E2_Zero -> v <> E2_Zero -> sat (g2SqrtRatio u v) (z, f) ->
  exists b t, f = bF b /\ e2pow t 8 = E2_One /\ E2_Mul (E2_Mul z z) v = E2_Mul (if b then E2_Mul isoZ u else u) t /\
    (b = false -> exists s, E2_Mul (E2_Mul s s) v = u).
Proof. exact (sqrt_any u v z f). Qed.
Print Assumptions C28_any_prover.
(** and no better: a "square root" of 1 whose square is -1 *)
Theorem C28_cheat_refuted : exists z, sat (g2SqrtRatio E2_One E2_One) (z, bF false) /\ E2_Mul (E2_Mul z z) E2_One = E2_Neg E2_One.
Proof. exact sqrt_cheat. Qed.
Print Assumptions C28_cheat_refuted.
Example C28_ex : E2_One <> E2_Zero /\ e2Z wu0 <> E2_Zero.
Proof. split; [exact E2_1_neq_0 | exact wu0_nz]. Qed.

(** C29: the honest prover computes the RFC 9380 map, so it lands on E' *)
Theorem C29_sswu_honest (u : E2) : u <> E2_Zero ->
  exists x y, run (MapElementToCurve2 u) = Some (mkG2 x y) /\ sswu_xy u x y /\ isoon (Aff x y).
Proof. exact (map_on u). Qed.
Print Assumptions C29_sswu_honest.
(** any prover: the abscissa is one of the two candidates and the ordinate is
    right up to an eighth root of unity *)
Theorem C29_any_prover_partial (u x y : E2) : sat (MapElementToCurve2 u) (mkG2 x y) ->
  u <> E2_Zero /\ exists a b t, sswu_x1 u a /\ sswu_x2 u a b /\ (x = a \/ x = b) /\ e2pow t 8 = E2_One /\ E2_Mul y y = E2_Mul (iso_g x) t.
Proof. exact (map_any u x y). Qed.
Print Assumptions C29_any_prover_partial.
(** whenever x1 gives a square there is an accepted point off E' *)
Theorem C29_refuted : exists u x y, u <> E2_Zero /\ sat (MapElementToCurve2 u) (mkG2 x y) /\ ~ isoon (Aff x y).
Proof. exact map_cheat_ex. Qed.
Print Assumptions C29_refuted.
Example C29_ex : e2Z wu0 <> E2_Zero /\ run (MapElementToCurve2 (e2Z wu0)) = Some (mkG2 (e2Z wx0) (e2Z wy0)).
Proof. split; [exact wu0_nz | exact w0_run]. Qed.

(** C30: satisfiable exactly for u <> 0; RFC 9380 is defined at 0 too *)
Theorem C30_satisfiable_partial (u : E2) : satisfiable (MapElementToCurve2 u) <-> u <> E2_Zero.
Proof. exact (map_satisfiable u). Qed.
Print Assumptions C30_satisfiable_partial.
Theorem C30_refuted : exists u x y, sswu u x y /\ isoon (Aff x y) /\ unsat (MapElementToCurve2 u).
Proof. exact (ex_intro _ E2_Zero map_zero_ex). Qed.
Print Assumptions C30_refuted.
Example C30_ex : satisfiable (MapElementToCurve2 (e2Z wu0)).
Proof. exact (proj2 (map_satisfiable _) wu0_nz). Qed.

(** C31: on every point of E' the circuit has exactly one result, the RFC's
    iso_map, and it is on the G2 curve; there is no exception on E' because the
    kernel has no point over Fp2 *)
Theorem C31_isogeny (x y : E2) : isoon (Aff x y) ->
  exists q, determ (G2Isogeny (mkG2 x y)) q /\ iso_map x y (aff2 q) /\ g2on (aff2 q).
Proof. exact (iso_total x y). Qed.
Print Assumptions C31_isogeny.
(** off E' as well the code computes iso_map, and is unsatisfiable where the
    RFC returns the point at infinity *)
Theorem C31_all_points (x y : E2) :
  (E2_Add x (mkE2 (fpZ 6) (fpZ (-6))) <> E2_Zero -> exists q, determ (G2Isogeny (mkG2 x y)) q /\ iso_map x y (aff2 q)) /\
  (E2_Add x (mkE2 (fpZ 6) (fpZ (-6))) = E2_Zero -> unsat (G2Isogeny (mkG2 x y)) /\ iso_map x y Inf).
Proof. exact (iso_code x y). Qed.
Print Assumptions C31_all_points.
Example C31_ex : isoon (Aff (e2Z wx0) (e2Z wy0)) /\ iso_map (e2Z wx0) (e2Z wy0) (wP wq0x wq0y).
Proof. split; [exact (sswu_on _ _ _ w0_xy) | exact w0_iso]. Qed.

(** C32: the honest prover, every 32-byte message *)
Theorem C32_honest (msg : list Fr) : length msg = 32%nat -> Forall (fun x => fval x < 256) msg ->
  exists c0 c1, hash_to_field pBLS (map fval msg) (bytesOf "BLS_SIG_BLS12381G2_XMD:SHA-256_SSWU_RO_POP_") 2 = Some [c0; c1] /\
  (pairE2 c0 <> E2_Zero -> pairE2 c1 <> E2_Zero -> exists x0 y0 Q0 x1 y1 Q1,
    sswu_xy (pairE2 c0) x0 y0 /\ iso_map x0 y0 Q0 /\ sswu_xy (pairE2 c1) x1 y1 /\ iso_map x1 y1 Q1 /\
    forall S T, Q0 <> Q1 -> g2add Q0 Q1 S -> cleared S T -> T <> Inf ->
      exists R, run (HashToG2 msg) = Some R /\ aff2 R = T /\ in_G2 T).
Proof. exact (full_honest msg). Qed.
Print Assumptions C32_honest.
(** any prover whose two SSWU points are on E'; missing: nothing forces them there *)
Theorem C32_any_prover_partial (msg : list Fr) (R : G2Affine) : length msg = 32%nat -> sat (HashToG2 msg) R ->
  Forall (fun x => fval x < 256) msg /\ exists u0 u1 x0 y0 x1 y1,
  sat (MapElementToCurve2 u0) (mkG2 x0 y0) /\ sat (MapElementToCurve2 u1) (mkG2 x1 y1) /\
  (isoon (Aff x0 y0) -> isoon (Aff x1 y1) -> exists Q0 Q1, iso_map x0 y0 Q0 /\ iso_map x1 y1 Q1 /\
   forall S T, Q0 <> Q1 -> g2add Q0 Q1 S -> cleared S T -> T <> Inf -> aff2 R = T /\ in_G2 T).
Proof. exact (full_any msg R). Qed.
Print Assumptions C32_any_prover_partial.
(** every message has an accepted hash off the curve; also one in the subgroup
    that does not depend on the message, together with its negative *)
Theorem C32_refuted (msg : list Fr) : length msg = 32%nat -> Forall (fun x => fval x < 256) msg ->
  (exists R, sat (HashToG2 msg) R /\ ~ g2on (aff2 R)) /\
  sat (HashToG2 msg) wR /\ sat (HashToG2 msg) (affneg wR) /\ in_G2 (aff2 wR).
Proof. exact (top_cheat msg). Qed.
Print Assumptions C32_refuted.
Example C32_ex : e2Z wu0 <> E2_Zero /\ e2Z wu1 <> E2_Zero /\ wP wq0x wq0y <> wP wq1x wq1y /\
  g2add (wP wq0x wq0y) (wP wq1x wq1y) (wP wSx wSy) /\ cleared (wP wSx wSy) (aff2 wR) /\ aff2 wR <> Inf.
Proof. exact (conj wu0_nz (conj wu1_nz (conj (proj1 (proj2 (proj2 w_nonexc))) (conj wS_add (conj (proj2 w_generic) wR_finite))))). Qed.

(** C56: the sign of the SSWU point; missing: A0 u = 0 or A0 y = 0 (fails, next) *)
Theorem C56_sign_partial (u x y : E2) : A0 u <> fp0 -> A0 y <> fp0 -> sswu u x y -> run (MapElementToCurve2 u) = Some (mkG2 x y).
Proof. exact (map_rfc u x y). Qed.
Print Assumptions C56_sign_partial.
Theorem C56_refuted : exists u x y, run (MapElementToCurve2 u) = Some (mkG2 x y) /\ ~ sswu u x y /\ sswu u x (E2_Neg y).
Proof. exact map_sign_ex. Qed.
Print Assumptions C56_refuted.
(** and a prover can negate the ordinate whenever A0 u < 2^381 - p *)
Theorem C56_flip_refuted (u x y : E2) : fval (A0 u) < 2 ^ 381 - pBLS -> run (MapElementToCurve2 u) = Some (mkG2 x y) -> sat (MapElementToCurve2 u) (mkG2 x (E2_Neg y)).
Proof. exact (map_flip u x y). Qed.
Print Assumptions C56_flip_refuted.
Example C56_ex : A0 (e2Z wu0) <> fp0 /\ A0 (e2Z wu1) <> fp0 /\ A0 (e2Z wy0) <> fp0 /\ A0 (e2Z wy1) <> fp0.
Proof. exact w_A0. Qed.
Example C56_ex_sswu : sswu (e2Z wu0) (e2Z wx0) (e2Z wy0) /\ sswu (e2Z wu1) (e2Z wx1) (e2Z wy1).
Proof. exact (conj w0_sswu w1_sswu). Qed.

(** C57: the honest HashToG2 is RFC 9380 hash_to_curve, a point of the subgroup;
    missing: equal Q0 and Q1, results at infinity, and A0 = 0 (C56_refuted) *)
Theorem C57_rfc_partial (msg : list Fr) (c0 c1 : Z * Z) (x0 y0 x1 y1 : E2) (Q0 Q1 S T : point E2) : length msg = 32%nat -> Forall (fun x => fval x < 256) msg ->
  hash_to_field pBLS (map fval msg) (bytesOf "BLS_SIG_BLS12381G2_XMD:SHA-256_SSWU_RO_POP_") 2 = Some [c0; c1] ->
  A0 (pairE2 c0) <> fp0 -> A0 (pairE2 c1) <> fp0 -> A0 y0 <> fp0 -> A0 y1 <> fp0 ->
  sswu (pairE2 c0) x0 y0 -> iso_map x0 y0 Q0 -> sswu (pairE2 c1) x1 y1 -> iso_map x1 y1 Q1 -> Q0 <> Q1 -> g2add Q0 Q1 S -> cleared S T -> T <> Inf ->
  exists R, run (HashToG2 msg) = Some R /\ aff2 R = T /\ in_G2 T.
Proof. exact (full_rfc msg c0 c1 x0 y0 x1 y1 Q0 Q1 S T). Qed.
Print Assumptions C57_rfc_partial.
(** the same from the field elements on, with an instance *)
Theorem C57_field_partial (u0 u1 x0 y0 x1 y1 : E2) (Q0 Q1 S T : point E2) : A0 u0 <> fp0 -> A0 u1 <> fp0 -> A0 y0 <> fp0 -> A0 y1 <> fp0 ->
  sswu u0 x0 y0 -> iso_map x0 y0 Q0 -> sswu u1 x1 y1 -> iso_map x1 y1 Q1 -> Q0 <> Q1 -> g2add Q0 Q1 S -> cleared S T -> T <> Inf ->
  exists R, run (hashTail u0 u1) = Some R /\ aff2 R = T /\ in_G2 T.
Proof. exact (full_field u0 u1 x0 y0 x1 y1 Q0 Q1 S T). Qed.
Print Assumptions C57_field_partial.
Example C57_ex : rfc_hash (e2Z wu0) (e2Z wu1) (aff2 wR) /\ run (hashTail (e2Z wu0) (e2Z wu1)) = Some wR.
Proof. exact (conj w_rfc (proj1 w_hash)). Qed.

(** C58: EncodeToG2, EncodeToG2OnJac and HashToG2OnJac, honest prover; missing:
    results at infinity, zero field elements, the sign when A0 is zero *)
Theorem C58_encode_partial (msg : list Fr) : length msg = 32%nat -> Forall (fun x => fval x < 256) msg ->
  exists c, hash_to_field pBLS (map fval msg) (bytesOf "BLS_SIG_BLS12381G2_XMD:SHA-256_SSWU_RO_POP_") 1 = Some [c] /\
  (pairE2 c <> E2_Zero -> exists x y Q, sswu_xy (pairE2 c) x y /\ iso_map x y Q /\ (A0 (pairE2 c) <> fp0 -> A0 y <> fp0 -> sgn0 (pairE2 c) = sgn0 y) /\
  forall R, cleared Q R -> R <> Inf -> in_G2 R /\ exists r, run (EncodeToG2 msg) = Some r /\ run (EncodeToG2OnJac msg) = Some r /\ aff2 r = R).
Proof. exact (full_enc msg). Qed.
Print Assumptions C58_encode_partial.
Theorem C58_hash_jac_partial (msg : list Fr) : length msg = 32%nat -> Forall (fun x => fval x < 256) msg ->
  exists c0 c1, hash_to_field pBLS (map fval msg) (bytesOf "BLS_SIG_BLS12381G2_XMD:SHA-256_SSWU_RO_POP_") 2 = Some [c0; c1] /\
  (pairE2 c0 <> E2_Zero -> pairE2 c1 <> E2_Zero -> exists x0 y0 Q0 x1 y1 Q1,
  sswu_xy (pairE2 c0) x0 y0 /\ iso_map x0 y0 Q0 /\ sswu_xy (pairE2 c1) x1 y1 /\ iso_map x1 y1 Q1 /\
  (A0 (pairE2 c0) <> fp0 -> A0 y0 <> fp0 -> sgn0 (pairE2 c0) = sgn0 y0) /\ (A0 (pairE2 c1) <> fp0 -> A0 y1 <> fp0 -> sgn0 (pairE2 c1) = sgn0 y1) /\
  forall S R, g2add Q0 Q1 S -> cleared S R -> R <> Inf -> in_G2 R /\ exists r, run (HashToG2OnJac msg) = Some r /\ aff2 r = R).
Proof. exact (full_jac msg). Qed.
Print Assumptions C58_hash_jac_partial.
Example C58_ex : cleared (wP wSx wSy) (aff2 wR) /\ aff2 wR <> Inf /\ length (repeat (ofZ rBN 7) 32) = 32%nat.
Proof. split; [exact (proj2 w_generic)|]. split; [discriminate | reflexivity]. Qed.
