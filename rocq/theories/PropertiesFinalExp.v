(** Property theorems C16-C18: final exponentiation. *)
From Coq Require Import ZArith List Bool.
From Verif Require Import Params ZMod RingPow Circuit Api Emulated Tower TowerSpec FieldFacts TowerFacts TowerProofs TorusFacts Pairing FinalExpSpec.
Import ListNotations.
Open Scope Z_scope.

(** C16: ExptTorus / ExptHalfTorus raise to the (negative) curve parameter
    x = -15132376222941642752, resp. x/2. *)
Theorem C16_expt_torus (x z : E6) (m mz : E12) :
  Storus (rep6 x) (rep12 m) -> Storus (rep6 z) (rep12 mz) ->
  (sat (ExptTorus x) z -> S12mul (rep12 mz) (S12pow (rep12 m) 15132376222941642752) = S12one) /\
  (sat (ExptHalfTorus x) z -> S12mul (rep12 mz) (S12pow (rep12 m) 7566188111470821376) = S12one).
Proof. exact (expt_spec x m z mz). Qed.
Print Assumptions C16_expt_torus.

(** On the cyclotomic subgroup the honest prover always succeeds. *)
Theorem C16_expt_torus_total (x : E6) (m : E12) :
  Storus (rep6 x) (rep12 m) -> S12pow (rep12 m) (Z.to_N (pBLS ^ 4 - pBLS ^ 2 + 1)) = S12one ->
  exists z, determ (ExptTorus x) z.
Proof. exact (expt_total x m). Qed.
Print Assumptions C16_expt_torus_total.

(** C17: the result is e^(3 (p^12-1)/r), whatever the prover does. *)
Theorem C17_final_exponentiation (e r e' : E12) :
  (rep12 e <> S12zero -> sat (FinalExponentiationUnsafe e) (r, e') ->
     rep12 r = S12pow (rep12 e) (Z.to_N (3 * ((pBLS ^ 12 - 1) / rBLS))) /\ rep12 r <> S12one) /\
  (sat (FinalExponentiation e) (r, e') -> rep12 e <> S12zero /\ rep12 r = S12pow (rep12 e) (Z.to_N (3 * ((pBLS ^ 12 - 1) / rBLS)))).
Proof. exact (finexp_sound e r e'). Qed.
Print Assumptions C17_final_exponentiation.

(** ... and the honest prover succeeds: always in the unsafe variant when the
    result is not 1, and in the safe variant when the easy part is not 1. *)
Theorem C17_final_exponentiation_total (e : E12) :
  (S12pow (rep12 e) (Z.to_N (3 * ((pBLS ^ 12 - 1) / rBLS))) <> S12one -> rep12 e <> S12zero ->
     exists r, determ (FinalExponentiationUnsafe e) (r, e) /\ rep12 r = S12pow (rep12 e) (Z.to_N (3 * ((pBLS ^ 12 - 1) / rBLS)))) /\
  (C1 e <> E6_Zero -> S12pow (rep12 e) (Z.to_N ((pBLS ^ 6 - 1) * (pBLS ^ 2 + 1))) <> S12one ->
     exists r, determ (FinalExponentiation e) (r, e) /\ rep12 r = S12pow (rep12 e) (Z.to_N (3 * ((pBLS ^ 12 - 1) / rBLS)))).
Proof. exact (finexp_complete e). Qed.
Print Assumptions C17_final_exponentiation_total.

(** the unsafe variant pins nothing down at e = 0 *)
Theorem C17_unsafe_zero_refuted : exists r1 r2, r1 <> r2 /\
  sat (FinalExponentiationUnsafe E12_Zero) (r1, E12_Zero) /\
  sat (FinalExponentiationUnsafe E12_Zero) (r2, E12_Zero).
Proof. exact unsafe_zero_free. Qed.
Print Assumptions C17_unsafe_zero_refuted.

(** non-vacuity: some e has a nontrivial result *)
Example C16_C17_ex : exists e, rep12 e <> S12zero /\
  S12pow (rep12 e) (Z.to_N (3 * ((pBLS ^ 12 - 1) / rBLS))) <> S12one.
Proof.
  destruct exists_fin as (e & H & N). exists e.
  rewrite <- rep12_pow, e12_fin, <- rep12_zero, <- rep12_one, <- !rep12_neq. split; assumption.
Qed.

(** C18 is false: the safe variant overwrites its argument. *)
Theorem C18_argument_unmodified_refuted :
  exists e r e', sat (FinalExponentiation e) (r, e') /\ e' <> e.
Proof. exact safe_modifies. Qed.
Print Assumptions C18_argument_unmodified_refuted.

(** exactly when and how *)
Theorem C18_argument_partial (e r e' : E12) :
  (sat (FinalExponentiationUnsafe e) (r, e') -> e <> E12_Zero -> e' = e) /\
  (sat (FinalExponentiation e) (r, e') -> C1 e <> E6_Zero -> e' = e) /\
  (sat (FinalExponentiation e) (r, e') -> C1 e = E6_Zero -> e' = mkE12 (C0 e) E6_One).
Proof. exact (finexp_arg e r e'). Qed.
Print Assumptions C18_argument_partial.
