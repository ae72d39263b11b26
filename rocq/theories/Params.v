(** Numeric parameters of the two fields and of the curve.
    - [rBN]: order of the BN254 scalar field, the native field of the circuits
      (tests call [test.IsSolved(..., ecc.BN254.ScalarField())],
      /repo/spark/bls-tx_test.go, /repo/spark/bls-rotate_test.go; Poseidon
      constants of constants.go are for this field).
    - [pBLS]: BLS12-381 base field modulus, [emulated.BLS12381Fp]
      (/repo/spark/pairing_bls12381/params.go:11).
    - [rBLS]: BLS12-381 group order. *)
From Coq Require Import ZArith.
Open Scope Z_scope.

Definition rBN : Z := 21888242871839275222246405745257275088548364400416034343698204186575808495617.
Definition pBLS : Z := 4002409555221667393417789825735904156556882819939007885332058136124031650490837864442687629129015664037894272559787.
Definition rBLS : Z := 52435875175126190479447740508185965837690552500527637822603658699938581184513.
