(** Specification side of signatures. *)
From Coq Require Import ZArith List Bool.
From Verif Require Import Params ZMod Circuit Emulated Tower Pairing CurveSpec G2Spec Bls BlsSpec PairSpec.
Import ListNotations.
Open Scope Z_scope.

(** the generator of the first group *)
Definition G1gen : G1Affine := mkG1 g1GenX g1GenY.
(** the signers' keys add up to apk without meeting equal abscissae, and either
    everybody signs or the test engine runs (the compiled circuit adds junk
    otherwise, C42) *)
Definition aggregates (eng : engine) (bits : list Fr) (keys : list G1Key) (apk : G1Affine) : Prop :=
  generic_sum (map key_xy (signers bits keys)) (g1X apk, g1Y apk) /\ (eng = TestEngine \/ Forall (fun b => fval b = 1) bits).
(** each key is its secret multiple of the generator *)
Definition secret_keys (keys : list G1Key) (sks : list Z) : Prop :=
  Forall2 (fun k s => mul1 (g1aff G1gen) s (key_point k)) keys sks.
