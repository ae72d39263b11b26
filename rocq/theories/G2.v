(** Model of /repo/spark/pairing_bls12381/g2.go (all functions except the
    constructor NewG2Affine): Jacobian and affine arithmetic on the twist.

    Values are taken modulo p.  Where the Go code looks at bits of an element
    it first calls Reduce; the model then asks the prover for a representative
    each time ([fp_Reduce]).  In gnark, Reduce of an element that is already
    reduced keeps the representative chosen earlier, so the model lets the
    prover do at least as much as the code. *)
From Coq Require Import ZArith List Bool.
From Verif Require Import Params ZMod Circuit Api Emulated Tower Pairing.
Import ListNotations.
Open Scope Z_scope.
Local Notation fr0 := (f0 rBN).

(** g2.go:17-19 *)
Record G2Jacobian : Set := mkJ { jX : E2; jY : E2; jZ : E2 }.

(** g2.go:34-67 *)
Definition G2JacobianDouble (p : G2Jacobian) : G2Jacobian :=
  let XX := E2_Square (jX p) in
  let YY := E2_Square (jY p) in
  let YYYY := E2_Square YY in
  let ZZ := E2_Square (jZ p) in
  let S := E2_Add (jX p) YY in
  let S := E2_Square S in
  let S := E2_Sub S XX in
  let S := E2_Sub S YYYY in
  let S := E2_Double S in
  let M := E2_Double XX in
  let M := E2_Add M XX in
  let pZ := E2_Add (jZ p) (jY p) in
  let pZ := E2_Square pZ in
  let pZ := E2_Sub pZ YY in
  let pZ := E2_Sub pZ ZZ in
  let T := E2_Square M in
  let pX := T in
  let T := E2_Double S in
  let pX := E2_Sub pX T in
  let pY := E2_Sub S pX in
  let pY := E2_Mul pY M in
  let YYYY := E2_Double YYYY in
  let YYYY := E2_Double YYYY in
  let YYYY := E2_Double YYYY in
  let pY := E2_Sub pY YYYY in
  mkJ pX pY pZ.

(** g2.go:94-107 (the method hashG2.go:532-545 is the same code) *)
Definition G1NotZero (x : Fp) : Circ Fr :=
  x <- fp_Reduce x ;;
  mfold (fun isNotZero b => api_Or isNotZero b) (fp_ToBits x) fr0.

(** g2.go:109-113 (also hashG2.go:526-530) *)
Definition E2NotZero (x : E2) : Circ Fr :=
  a0NotZero <- G1NotZero (A0 x) ;;
  a1NotZero <- G1NotZero (A1 x) ;;
  api_Or a0NotZero a1NotZero.

(** the comparison loop of g2.go:127-129; both bit slices have length 384 *)
Definition notEqualBits (x y : Z) : Circ Fr :=
  mfold (fun notEqual bc => d <- api_Xor (fst bc) (snd bc) ;; api_Or notEqual d)
        (combine (fp_ToBits x) (fp_ToBits y)) fr0.

(** g2.go:115-132 (also hashG2.go:555-572) *)
Definition G1NotEqual (x y : Fp) : Circ Fr :=
  x <- fp_Reduce x ;;
  y <- fp_Reduce y ;;
  notEqualBits x y.

(** g2.go:134-139 (also hashG2.go:574-579) *)
Definition E2NotEqual (x y : E2) : Circ Fr :=
  a0NotEqual <- G1NotEqual (A0 x) (A0 y) ;;
  a1NotEqual <- G1NotEqual (A1 x) (A1 y) ;;
  api_Or a0NotEqual a1NotEqual.

(** three selects with the same selector (g2.go:192-194, 196-198, 200-202) *)
Definition J_Select (s : Fr) (p q : G2Jacobian) : Circ G2Jacobian :=
  x <- E2_Select s (jX p) (jX q) ;;
  y <- E2_Select s (jY p) (jY q) ;;
  z <- E2_Select s (jZ p) (jZ q) ;;
  Ret (mkJ x y z).

(** g2.go:154-190 without the comparisons: the generic addition formulas;
    returns U1, U2, S1, S2 (lines 156-161) and the sum *)
Definition jacAddRaw (p a : G2Jacobian) : (E2 * E2 * E2 * E2) * G2Jacobian :=
  let Z1Z1 := E2_Square (jZ a) in
  let Z2Z2 := E2_Square (jZ p) in
  let U1 := E2_Mul (jX a) Z2Z2 in
  let U2 := E2_Mul (jX p) Z1Z1 in
  let S1 := E2_Mul (jY a) (jZ p) in
  let S1 := E2_Mul S1 Z2Z2 in
  let S2 := E2_Mul (jY p) (jZ a) in
  let S2 := E2_Mul S2 Z1Z1 in
  let H := E2_Sub U2 U1 in
  let I := E2_Double H in
  let I := E2_Square I in
  let J := E2_Mul H I in
  let r := E2_Sub S2 S1 in
  let r := E2_Double r in
  let V := E2_Mul U1 I in
  let pX := E2_Square r in
  let pX := E2_Sub pX J in
  let pX := E2_Sub pX V in
  let pX := E2_Sub pX V in
  let pY := E2_Sub V pX in
  let pY := E2_Mul pY r in
  let S1' := E2_Mul S1 J in
  let S1' := E2_Double S1' in
  let pY := E2_Sub pY S1' in
  let pZ := E2_Add (jZ p) (jZ a) in
  let pZ := E2_Square pZ in
  let pZ := E2_Sub pZ Z1Z1 in
  let pZ := E2_Sub pZ Z2Z2 in
  let pZ := E2_Mul pZ H in
  ((U1, U2, S1, S2), mkJ pX pY pZ).

(** g2.go:142-205 *)
Definition G2JacobianAddAssign (p a : G2Jacobian) : Circ G2Jacobian :=
  pZNotZero <- E2NotZero (jZ p) ;;
  let res1 := a in
  aZNotZero <- E2NotZero (jZ a) ;;
  let res2 := p in
  let '((U1, U2, S1, S2), res) := jacAddRaw p a in
  U1NotEqualU2 <- E2NotEqual U1 U2 ;;
  S1NotEqualS2 <- E2NotEqual S1 S2 ;;
  pNotEqualA <- api_Or U1NotEqualU2 S1NotEqualS2 ;;
  let res3 := G2JacobianDouble p in
  res <- J_Select pNotEqualA res res3 ;;
  res <- J_Select aZNotZero res res2 ;;
  J_Select pZNotZero res res1.

(** g2.go:77-90, body of the loop *)
Definition constMulStep (t0 t1 : G2Jacobian) (res : G2Jacobian) (j : nat) : Circ G2Jacobian :=
  let res := G2JacobianDouble res in
  let res := G2JacobianDouble res in
  if Nat.eqb j 1 then G2JacobianAddAssign res t0
  else if Nat.eqb j 3 then G2JacobianAddAssign res t1
  else if Nat.eqb j 7 then G2JacobianAddAssign res t0
  else if Nat.eqb j 23 then G2JacobianAddAssign res t0
  else Ret res.

(** g2.go:69-92 *)
Definition G2JacobianConstScalarMul (a : G2Jacobian) : Circ G2Jacobian :=
  let t0 := a in
  let t1 := G2JacobianDouble t0 in
  res <- G2JacobianAddAssign t1 t0 ;;
  mfold (constMulStep t0 t1) (seq 1 31) res.

(** g2.go:207-215 *)
Definition G2JacobianNeg (p : G2Jacobian) : G2Jacobian := mkJ (jX p) (E2_Neg (jY p)) (jZ p).

(** g2.go:217-227 *)
Definition G2JacobianSubAssign (p p1 : G2Jacobian) : Circ G2Jacobian :=
  G2JacobianAddAssign p (G2JacobianNeg p1).

(** g2.go:236-249 and 410-423 *)
Definition psi_u : E2 := mkE2 (fpZ 0) (fpZ 4002409555221667392624310435006688643935503118305586438271171395842971157480381377015405980053539358417135540939437).
Definition psi_v : E2 := mkE2 (fpZ 2973677408986561043442465346520108879172042883009249989176415018091420807192182638567116318576472649347015917690530) (fpZ 1028732146235106349975324479215795277384839936929757896155643118032610843298655225875571310552543014690878354869257).

(** g2.go:229-261 *)
Definition G2JacobianPsi (a : G2Jacobian) : G2Jacobian :=
  mkJ (E2_Mul (E2_Conjugate (jX a)) psi_u) (E2_Mul (E2_Conjugate (jY a)) psi_v) (E2_Conjugate (jZ a)).

(** g2.go:332-336 (also hashG2.go:670-674) *)
Definition G2AffineNotInfinity (a : G2Affine) : Circ Fr :=
  xNotZero <- E2NotZero (g2X a) ;;
  yNotZero <- E2NotZero (g2Y a) ;;
  api_Or xNotZero yNotZero.

(** g2.go:313-330 (also hashG2.go:588-605) *)
Definition GetG2JacFromG2Affine (Q : G2Affine) : Circ G2Jacobian :=
  g2NotInfinity <- G2AffineNotInfinity Q ;;
  z <- E2_Select g2NotInfinity E2_One E2_Zero ;;
  x <- E2_Select g2NotInfinity (g2X Q) E2_One ;;
  y <- E2_Select g2NotInfinity (g2Y Q) E2_One ;;
  Ret (mkJ x y z).

(** g2.go:338-361 (also hashG2.go:607-630) *)
Definition GetG2AffineFromG2Jac (Q : G2Jacobian) : Circ G2Affine :=
  a <- E2_Inverse (jZ Q) ;;
  let b := E2_Square a in
  let x2 := E2_Mul (jX Q) b in
  let y2 := E2_Mul (jY Q) b in
  let y2 := E2_Mul y2 a in
  jacZNotZero <- E2NotZero (jZ Q) ;;
  x <- E2_Select jacZNotZero x2 E2_Zero ;;
  y <- E2_Select jacZNotZero y2 E2_Zero ;;
  Ret (mkG2 x y).

(** g2.go:375-401 *)
Definition G2AddAssign (p p1 : G2Affine) : Circ G2Affine :=
  let n := E2_Sub (g2Y p1) (g2Y p) in
  let d := E2_Sub (g2X p1) (g2X p) in
  l <- E2_DivUnchecked n d ;;
  let xr := E2_Square l in
  let xr := E2_Sub xr (g2X p1) in
  let xr := E2_Sub xr (g2X p) in
  let yr := E2_Sub (g2X p) xr in
  let yr := E2_Mul l yr in
  let yr := E2_Sub yr (g2Y p) in
  Ret (mkG2 xr yr).

(** g2.go:363-373 *)
Definition G2SubAssign (p p1 : G2Affine) : Circ G2Affine :=
  G2AddAssign p (mkG2 (g2X p1) (E2_Neg (g2Y p1))).

(** g2.go:403-433 *)
Definition G2Psi (a : G2Affine) : G2Affine :=
  mkG2 (E2_Mul (E2_Conjugate (g2X a)) psi_u) (E2_Mul (E2_Conjugate (g2Y a)) psi_v).

(** g2.go:435-466 *)
Definition G2Double (p1 : G2Affine) : Circ G2Affine :=
  let n := E2_Square (g2X p1) in
  let n := E2_MulByElement n (fpZ 3) in
  let d := E2_MulByElement (g2Y p1) (fpZ 2) in
  l <- E2_DivUnchecked n d ;;
  let xr := E2_Square l in
  let xr := E2_Sub xr (g2X p1) in
  let xr := E2_Sub xr (g2X p1) in
  let yr := E2_Sub (g2X p1) xr in
  let yr := E2_Mul l yr in
  let yr := E2_Sub yr (g2Y p1) in
  Ret (mkG2 xr yr).

(** g2.go:303-306 (also hashG2.go:658-660) *)
Definition thirdRootOneG1 : Fp := fpZ 4002409555221667392624310435006688643935503118305586438271171395842971157480381377015405980053539358417135540939436.

(** g2.go:263-311 *)
Definition G2ClearCofactor (a : G2Affine) : Circ G2Affine :=
  _a <- GetG2JacFromG2Affine a ;;
  _xg <- G2JacobianConstScalarMul _a ;;
  let _xg := G2JacobianNeg _xg in
  _xxg <- G2JacobianConstScalarMul _xg ;;
  let _xxg := G2JacobianNeg _xxg in
  xg <- GetG2AffineFromG2Jac _xg ;;
  xxg <- GetG2AffineFromG2Jac _xxg ;;
  res <- G2SubAssign xxg xg ;;
  res <- G2SubAssign res a ;;
  t <- G2SubAssign xg a ;;
  let t := G2Psi t in
  res <- G2AddAssign res t ;;
  t <- G2Double a ;;
  let t := mkG2 (E2_MulByElement (g2X t) thirdRootOneG1) (g2Y t) in
  G2SubAssign res t.
