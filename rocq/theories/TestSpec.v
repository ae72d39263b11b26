(** Specification side of the test circuits: acceptance and products of pairing
    values. *)
From Coq Require Import ZArith NArith List Bool.
From Verif Require Import Params ZMod Circuit Emulated Tower TowerSpec TowerFacts Pairing CurveSpec BlsSpec G2Spec G2Jac PairSpec.
Import ListNotations.
Open Scope Z_scope.

(** the circuit is accepted exactly when X holds, by the honest prover
    (test.IsSolved) and by an arbitrary one *)
Definition accepted_iff (c : Circ unit) (X : Prop) : Prop := (run c = Some tt <-> X) /\ (sat c tt <-> X).
(** e is the product of the pairing values of the pairs *)
Definition pairing_product (Ps : list G1Affine) (Qs : list G2Affine) (e : list (list (list Fp))) : Prop :=
  exists es, Forall2 (fun pq v => pairing_value (fst pq) (snd pq) v) (combine Ps Qs) es /\ e = fold_right S12mul S12one es.
(** the Miller value of the pairs has a trivial easy part *)
Definition degenerate (Ps : list G1Affine) (Qs : list G2Affine) : Prop :=
  exists f, sat (MillerLoop Ps Qs) f /\ easy_trivial f.
(** points of the two groups that the theorems below need *)
Definition good_pairs (Ps : list G1Affine) (Qs : list G2Affine) : Prop :=
  length Ps = length Qs /\ Forall (fun P => oncurve1 (g1aff P)) Ps /\ Forall (fun Q => in_G2 (aff2 Q)) Qs.
