(** Model of the test circuits of /repo/spark/pairing_bls12381/pairing_test.go
    (lines 30-272): their Define functions.  A witness element InGt or Res is its
    value; `pairing.AssertIsEqual` is Ext12.AssertIsEqual. *)
From Coq Require Import ZArith List Bool.
From Verif Require Import Params ZMod Circuit Api Emulated Tower Pairing.
Import ListNotations.

(** pairing_test.go:35-45.  FinalExponentiation may overwrite InGt.C1
    (pairing.go:133), and the second call reads it *)
Definition FinalExponentiationCircuit (InGt Res : E12) : Circ unit :=
  ' (res1, InGt) <- FinalExponentiation InGt ;;
  E12_AssertIsEqual res1 Res ;;;
  ' (res2, _) <- FinalExponentiationUnsafe InGt ;;
  E12_AssertIsEqual res2 Res.
(** pairing_test.go:66-77 *)
Definition PairCircuit (InG1 : G1Affine) (InG2 : G2Affine) (Res : E12) : Circ unit :=
  res <- Pair [InG1] [InG2] ;;
  E12_AssertIsEqual res Res.
(** pairing_test.go:101-112 *)
Definition MultiPairCircuit (In1G1 In2G1 : G1Affine) (In1G2 In2G2 : G2Affine) (Res : E12) : Circ unit :=
  res <- Pair [In1G1; In1G1; In2G1; In2G1] [In1G2; In2G2; In1G2; In2G2] ;;
  E12_AssertIsEqual res Res.
(** pairing_test.go:138-148 *)
Definition PairingCheckCircuit (In1G1 In2G1 : G1Affine) (In1G2 In2G2 : G2Affine) : Circ unit :=
  PairingCheck [In1G1; In1G1; In2G1; In2G1] [In1G2; In2G2; In1G2; In2G2].
(** pairing_test.go:171-184 *)
Definition FinalExponentiationSafeCircuit (P1 P2 : G1Affine) (Q1 Q2 : G2Affine) : Circ unit :=
  res <- MillerLoop [P1; P2] [Q1; Q2] ;;
  ' (res2, _) <- FinalExponentiation res ;;
  let one := E12_One in
  E12_AssertIsEqual one res2.
(** pairing_test.go:210-221 *)
Definition PairFixedCircuit (InG1 : G1Affine) (Res : E12) : Circ unit :=
  res <- PairFixedQ InG1 ;;
  E12_AssertIsEqual res Res.
(** pairing_test.go:244-255 *)
Definition DoublePairFixedCircuit (In1G1 In2G1 : G1Affine) (In1G2 : G2Affine) (Res : E12) : Circ unit :=
  res <- DoublePairFixedQ In1G1 In2G1 In1G2 ;;
  E12_AssertIsEqual res Res.
