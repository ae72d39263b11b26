(** Specification side of the pairing: its values, and multiples of points of
    the first group. *)
From Coq Require Import ZArith NArith List Bool.
From Verif Require Import Params ZMod Circuit Emulated Tower TowerSpec TowerFacts Pairing CurveSpec G2Spec.
Import ListNotations.
Open Scope Z_scope.

(** e is an accepted value of the pairing circuit at (P, Q): a Miller value
    raised to three times the usual exponent *)
Definition pairing_value (P : G1Affine) (Q : G2Affine) (e : list (list (list Fp))) : Prop :=
  exists m, sat (MillerLoop [P] [Q]) m /\ S12pow (rep12 m) (Z.to_N (3 * ((pBLS ^ 12 - 1) / rBLS))) = e.

(** an affine pair as a point *)
Definition g1aff (P : G1Affine) : point Fp := Aff (g1X P) (g1Y P).
(** -P *)
Definition neg1 : point Fp -> point Fp := pneg Fp fopp.
(** R = k P on y^2 = x^3 + 4 *)
Definition mul1 : point Fp -> Z -> point Fp -> Prop := ec_zmul Fp (f0 pBLS) (f1 pBLS) fadd fmul fsub fopp (f0 pBLS).

(** the easy part (exponent (p^6-1)(p^2+1)) of the final exponentiation of f is
    1; for f in Fp6 the code replaces f by f + w first (pairing.go:126-132) *)
Definition easy_trivial (f : E12) : Prop :=
  (C1 f <> E6_Zero /\ S12pow (rep12 f) (Z.to_N ((pBLS ^ 6 - 1) * (pBLS ^ 2 + 1))) = S12one) \/
  (C1 f = E6_Zero /\ S12pow (rep12 (mkE12 (C0 f) E6_One)) (Z.to_N ((pBLS ^ 6 - 1) * (pBLS ^ 2 + 1))) = S12one).
