(** Model of /repo/spark/pairing_bls12381/pairing.go:67-723 (final exponentiation,
    Miller loops, step functions, pairing checks).  g1.go/g2.go point types. *)
From Coq Require Import ZArith List Bool.
From Verif Require Import Params ZMod RingPow Circuit Api Emulated Tower PrecompTable.
Import ListNotations.
Open Scope Z_scope.

(** g1.go:9-11, as values modulo p *)
Record G1Affine : Set := mkG1 { g1X : Fp; g1Y : Fp }.
(** g2.go:12-14 *)
Record G2Affine : Set := mkG2 { g2X : E2; g2Y : E2 }.
(** pairing.go:195-197 *)
Record lineEvaluation : Set := mkLine { R0 : E2; R1 : E2 }.

(** pairing.go:114-188.  Returns the result and the value that *e holds
    afterwards (the safe branch overwrites e.C1, line 133). *)
Definition finalExponentiation (e : E12) (unsafe : bool) : Circ (E12 * E12) :=
  let dummy := E6_One in
  sel1_e <- (if unsafe then Ret (f0 rBN, e)
             else selector1 <- E6_IsZero (C1 e) ;;
                  c1 <- E6_Select selector1 dummy (C1 e) ;;
                  Ret (selector1, mkE12 (C0 e) c1)) ;;
  let '(selector1, e) := sel1_e in
  c <- E6_DivUnchecked (C0 e) (C1 e) ;;
  let c := E6_Neg c in
  let t0 := FrobeniusSquareTorus c in
  c <- MulTorus t0 c ;;
  t0 <- SquareTorus c ;;
  t1 <- ExptHalfTorus t0 ;;
  let t2 := InverseTorus c in
  t1 <- MulTorus t1 t2 ;;
  t2 <- ExptTorus t1 ;;
  let t1 := InverseTorus t1 in
  t1 <- MulTorus t1 t2 ;;
  t2 <- ExptTorus t1 ;;
  let t1 := FrobeniusTorus t1 in
  t1 <- MulTorus t1 t2 ;;
  c <- MulTorus c t0 ;;
  t0 <- ExptTorus t1 ;;
  t2 <- ExptTorus t0 ;;
  let t0 := FrobeniusSquareTorus t1 in
  let t1 := InverseTorus t1 in
  t1 <- MulTorus t1 t2 ;;
  t1 <- MulTorus t1 t0 ;;
  if unsafe then
    m <- MulTorus c t1 ;;
    result <- DecompressTorus m ;;
    Ret (result, e)
  else
    let sum := E6_Add c t1 in
    selector2 <- E6_IsZero sum ;;
    t1 <- E6_Select selector2 dummy t1 ;;
    let selector := fmul (fsub (f1 rBN) selector1) (fsub (f1 rBN) selector2) in
    m <- MulTorus c t1 ;;
    d <- DecompressTorus m ;;
    result <- E12_Select selector d E12_One ;;
    Ret (result, e).

(** pairing.go:82-84 *)
Definition FinalExponentiation (e : E12) : Circ (E12 * E12) := finalExponentiation e false.
(** pairing.go:100-102 *)
Definition FinalExponentiationUnsafe (e : E12) : Circ (E12 * E12) := finalExponentiation e true.

(** pairing.go:235-245 *)
Definition loopCounter : list Z := [
  0; 0; 0; 0; 0; 0; 0; 0; 0; 0; 0;
  0; 0; 0; 0; 0; 1; 0; 0; 0; 0; 0;
  0; 0; 0; 0; 0; 0; 0; 0; 0; 0; 0;
  0; 0; 0; 0; 0; 0; 0; 0; 0; 0; 0;
  0; 0; 0; 0; 1; 0; 0; 0; 0; 0; 0;
  0; 0; 1; 0; 0; 1; 0; 1; 1].

(** pairing.go:370-418 *)
Definition doubleAndAddStep (p1 p2 : G2Affine) : Circ (G2Affine * lineEvaluation * lineEvaluation) :=
  let n := E2_Sub (g2Y p1) (g2Y p2) in
  let d := E2_Sub (g2X p1) (g2X p2) in
  l1 <- E2_DivUnchecked n d ;;
  let x3 := E2_Square l1 in
  let x3 := E2_Sub x3 (g2X p1) in
  let x3 := E2_Sub x3 (g2X p2) in
  let line1R0 := E2_Neg l1 in
  let line1R1 := E2_Mul l1 (g2X p1) in
  let line1R1 := E2_Sub line1R1 (g2Y p1) in
  let n := E2_Double (g2Y p1) in
  let d := E2_Sub x3 (g2X p1) in
  l2 <- E2_DivUnchecked n d ;;
  let l2 := E2_Add l2 l1 in
  let l2 := E2_Neg l2 in
  let x4 := E2_Square l2 in
  let x4 := E2_Sub x4 (g2X p1) in
  let x4 := E2_Sub x4 x3 in
  let y4 := E2_Sub (g2X p1) x4 in
  let y4 := E2_Mul l2 y4 in
  let y4 := E2_Sub y4 (g2Y p1) in
  let line2R0 := E2_Neg l2 in
  let line2R1 := E2_Mul l2 (g2X p1) in
  let line2R1 := E2_Sub line2R1 (g2Y p1) in
  Ret (mkG2 x4 y4, mkLine line1R0 line1R1, mkLine line2R0 line2R1).

(** pairing.go:422-453 *)
Definition doubleStep (p1 : G2Affine) : Circ (G2Affine * lineEvaluation) :=
  let n := E2_Square (g2X p1) in
  let n := E2_MulByConstElement n 3 in
  let d := E2_Double (g2Y p1) in
  l <- E2_DivUnchecked n d ;;
  let xr := E2_Square l in
  let xr := E2_Sub xr (g2X p1) in
  let xr := E2_Sub xr (g2X p1) in
  let yr := E2_Sub (g2X p1) xr in
  let yr := E2_Mul l yr in
  let yr := E2_Sub yr (g2Y p1) in
  let lineR0 := E2_Neg l in
  let lineR1 := E2_Mul l (g2X p1) in
  let lineR1 := E2_Sub lineR1 (g2Y p1) in
  Ret (mkG2 xr yr, mkLine lineR0 lineR1).

(** pairing.go:457-484 *)
Definition addStep (p1 p2 : G2Affine) : Circ (G2Affine * lineEvaluation) :=
  let p2ypy := E2_Sub (g2Y p2) (g2Y p1) in
  let p2xpx := E2_Sub (g2X p2) (g2X p1) in
  l <- E2_DivUnchecked p2ypy p2xpx ;;
  let ll := E2_Square l in
  let p2xpx := E2_Add (g2X p1) (g2X p2) in
  let xr := E2_Sub ll p2xpx in
  let pxrx := E2_Sub (g2X p1) xr in
  let lpxrx := E2_Mul l pxrx in
  let yr := E2_Sub lpxrx (g2Y p1) in
  let lineR0 := E2_Neg l in
  let lineR1 := E2_Mul l (g2X p1) in
  let lineR1 := E2_Sub lineR1 (g2Y p1) in
  Ret (mkG2 xr yr, mkLine lineR0 lineR1).

(** pairing.go:487-534 *)
Definition tripleStep (p1 : G2Affine) : Circ (G2Affine * lineEvaluation * lineEvaluation) :=
  let n := E2_Square (g2X p1) in
  let n := E2_MulByConstElement n 3 in
  let d := E2_Double (g2Y p1) in
  l1 <- E2_DivUnchecked n d ;;
  let line1R0 := E2_Neg l1 in
  let line1R1 := E2_Mul l1 (g2X p1) in
  let line1R1 := E2_Sub line1R1 (g2Y p1) in
  let x2 := E2_Square l1 in
  let x2 := E2_Sub x2 (g2X p1) in
  let x2 := E2_Sub x2 (g2X p1) in
  let x1x2 := E2_Sub (g2X p1) x2 in
  l2 <- E2_DivUnchecked d x1x2 ;;
  let l2 := E2_Sub l2 l1 in
  let line2R0 := E2_Neg l2 in
  let line2R1 := E2_Mul l2 (g2X p1) in
  let line2R1 := E2_Sub line2R1 (g2Y p1) in
  let l2l2 := E2_Mul l2 l2 in
  let qxrx := E2_Add x2 (g2X p1) in
  let xr := E2_Sub l2l2 qxrx in
  let pxrx := E2_Sub (g2X p1) xr in
  let l2pxrx := E2_Mul l2 pxrx in
  let yr := E2_Sub l2pxrx (g2Y p1) in
  Ret (mkG2 xr yr, mkLine line1R0 line1R1, mkLine line2R0 line2R1).

(** pairing.go:537-551 *)
Definition tangentCompute (p1 : G2Affine) : Circ lineEvaluation :=
  let n := E2_Square (g2X p1) in
  let n := E2_MulByConstElement n 3 in
  let d := E2_Double (g2Y p1) in
  l <- E2_DivUnchecked n d ;;
  let lineR0 := E2_Neg l in
  let lineR1 := E2_Mul l (g2X p1) in
  let lineR1 := E2_Sub lineR1 (g2Y p1) in
  Ret (mkLine lineR0 lineR1).

(** line evaluation at P and multiplication into res (pairing.go:317-321 and
    all similar sites): R0 times x/y, R1 times 1/y *)
Definition evalLine (l : lineEvaluation) (xOverY yInv : Fp) : lineEvaluation :=
  mkLine (E2_MulByElement (R0 l) xOverY) (E2_MulByElement (R1 l) yInv).
Definition mulLine (res : E12) (l : lineEvaluation) : E12 := E12_MulBy014 res (R1 l) (R0 l).

(** loop state per pair k: the fixed point Q[k], the accumulator Qacc[k],
    and the P-dependent factors *)
Record pairState : Set := mkPS { psQ : G2Affine; psAcc : G2Affine; psXY : Fp; psYI : Fp }.

(** pairing.go:262-273, for one k *)
Definition initPair (pq : G1Affine * G2Affine) : Circ pairState :=
  let '(P, Q) := pq in
  yInv <- fp_Inverse (g1Y P) ;;
  let xOverY := fmul (g1X P) yInv in
  Ret (mkPS Q Q xOverY yInv).

(** pairing.go:281-306, k = 0 *)
Definition firstPair (s : pairState) : Circ (E12 * pairState) :=
  ' (q, l1, l2) <- tripleStep (psAcc s) ;;
  let l1 := evalLine l1 (psXY s) (psYI s) in
  let l2 := evalLine l2 (psXY s) (psYI s) in
  let prodLines := E12_Mul014By014 (R1 l2) (R0 l2) (R1 l1) (R0 l1) in
  let one := E12_One in
  let res := mkE12 (mkE6 (s0 prodLines) (s1 prodLines) (s2 prodLines))
                   (mkE6 (B0 (C1 one)) (s3 prodLines) (s4 prodLines)) in
  Ret (res, mkPS (psQ s) q (psXY s) (psYI s)).

(** pairing.go:308-324, one k >= 1 *)
Definition tripleOne (st : E12 * list pairState) (s : pairState) : Circ (E12 * list pairState) :=
  let '(res, acc) := st in
  ' (q, l1, l2) <- tripleStep (psAcc s) ;;
  let res := mulLine res (evalLine l1 (psXY s) (psYI s)) in
  let res := mulLine res (evalLine l2 (psXY s) (psYI s)) in
  Ret (res, acc ++ [mkPS (psQ s) q (psXY s) (psYI s)]).

(** pairing.go:333-342, one k *)
Definition doubleOne (st : E12 * list pairState) (s : pairState) : Circ (E12 * list pairState) :=
  let '(res, acc) := st in
  ' (q, l1) <- doubleStep (psAcc s) ;;
  let res := mulLine res (evalLine l1 (psXY s) (psYI s)) in
  Ret (res, acc ++ [mkPS (psQ s) q (psXY s) (psYI s)]).

(** pairing.go:344-359, one k *)
Definition doubleAddOne (st : E12 * list pairState) (s : pairState) : Circ (E12 * list pairState) :=
  let '(res, acc) := st in
  ' (q, l1, l2) <- doubleAndAddStep (psAcc s) (psQ s) ;;
  let l1 := evalLine l1 (psXY s) (psYI s) in
  let l2 := evalLine l2 (psXY s) (psYI s) in
  let res := mulLine res l1 in
  let res := mulLine res l2 in
  Ret (res, acc ++ [mkPS (psQ s) q (psXY s) (psYI s)]).

(** pairing.go:328-361, one iteration i *)
Definition millerIter (st : E12 * list pairState) (i : nat) : Circ (E12 * list pairState) :=
  let '(res, ps) := st in
  let res := E12_Square res in
  if Z.eqb (nth i loopCounter 0) 0
  then mfold doubleOne ps (res, [])
  else mfold doubleAddOne ps (res, []).

(** pairing.go:365-373, one k *)
Definition tangentOne (res : E12) (s : pairState) : Circ E12 :=
  l1 <- tangentCompute (psAcc s) ;;
  Ret (mulLine res (evalLine l1 (psXY s) (psYI s))).

(** i = 61 downto 1 *)
Definition millerRange : list nat := rev (seq 1 61).

(** pairing.go:249-366 ([Fail] also stands for the returned error) *)
Definition MillerLoop (P : list G1Affine) (Q : list G2Affine) : Circ E12 :=
  let n := length P in
  if Nat.eqb n 0 || negb (Nat.eqb n (length Q)) then Fail else
  pairs <- mmap initPair (combine P Q) ;;
  match pairs with
  | [] => Fail
  | p0 :: rest =>
    ' (res, p0) <- firstPair p0 ;;
    ' (res, ps) <- mfold tripleOne rest (res, [p0]) ;;
    ' (res, ps) <- mfold millerIter millerRange (res, ps) ;;
    let res := E12_Square res in
    res <- mfold tangentOne ps res ;;
    Ret (E12_Conjugate res)
  end.

(** pairing.go:203-210 *)
Definition Pair (P : list G1Affine) (Q : list G2Affine) : Circ E12 :=
  res <- MillerLoop P Q ;;
  ' (res, _) <- finalExponentiation res (Nat.eqb (length P) 1) ;;
  Ret res.

(** pairing.go:216-226.  The returned Go error is the [Fail] of [MillerLoop]. *)
Definition PairingCheck (P : list G1Affine) (Q : list G2Affine) : Circ unit :=
  f <- Pair P Q ;;
  let one := E12_One in
  E12_AssertIsEqual f one.

(** ** fixed-argument loops *)

(** reading a table entry; an unassigned entry is a zero-valued Go
    [emulated.Element] with no limbs, modelled as a failure *)
Definition line_at (a i : nat) : Circ E2 :=
  match PrecomputedLines a i with Some l => Ret l | None => Fail end.

(** the repeated MulBy014(res, PrecomputedLines[b][i]*yInv, PrecomputedLines[a][i]*xOverY) *)
Definition mulTable (a b i : nat) (xOverY yInv : Fp) (res : E12) : Circ E12 :=
  rb <- line_at b i ;;
  ra <- line_at a i ;;
  Ret (E12_MulBy014 res (E2_MulByElement rb yInv) (E2_MulByElement ra xOverY)).

(** pairing.go:583-602 *)
Definition fixedIter (xOverY yInv : Fp) (res : E12) (i : nat) : Circ E12 :=
  let res := E12_Square res in
  if Z.eqb (nth i loopCounter 0) 0
  then mulTable 0 1 i xOverY yInv res
  else res <- mulTable 0 1 i xOverY yInv res ;;
       mulTable 2 3 i xOverY yInv res.

(** i = 61 downto 0 *)
Definition fixedRange : list nat := rev (seq 0 62).

(** pairing.go:556-610 *)
Definition MillerLoopFixedQ (P : G1Affine) : Circ E12 :=
  let res := E12_One in
  yInv <- fp_Inverse (g1Y P) ;;
  let xOverY := fmul (g1X P) yInv in
  res <- mulTable 0 1 62 xOverY yInv res ;;
  res <- mulTable 2 3 62 xOverY yInv res ;;
  res <- mfold (fixedIter xOverY yInv) fixedRange res ;;
  Ret (E12_Conjugate res).

(** pairing.go:657-697 *)
Definition doubleFixedIter (Q : G2Affine) (xOverY yInv x2OverY2 y2Inv : Fp)
    (st : E12 * G2Affine) (i : nat) : Circ (E12 * G2Affine) :=
  let '(res, Qacc) := st in
  let res := E12_Square res in
  if Z.eqb (nth i loopCounter 0) 0 then
    res <- mulTable 0 1 i x2OverY2 y2Inv res ;;
    ' (Qacc, l1) <- doubleStep Qacc ;;
    Ret (mulLine res (evalLine l1 xOverY yInv), Qacc)
  else
    res <- mulTable 0 1 i x2OverY2 y2Inv res ;;
    res <- mulTable 2 3 i x2OverY2 y2Inv res ;;
    ' (Qacc, l1, l2) <- doubleAndAddStep Qacc Q ;;
    let l1 := evalLine l1 xOverY yInv in
    let l2 := evalLine l2 xOverY yInv in
    let res := mulLine res l1 in
    let res := mulLine res l2 in
    Ret (res, Qacc).

(** pairing.go:612-703 *)
Definition DoubleMillerLoopFixedQ (P T : G1Affine) (Q : G2Affine) : Circ E12 :=
  yInv <- fp_Inverse (g1Y P) ;;
  let xOverY := fmul (g1X P) yInv in
  y2Inv <- fp_Inverse (g1Y T) ;;
  let x2OverY2 := fmul (g1X T) y2Inv in
  ' (res, ps) <- firstPair (mkPS Q Q xOverY yInv) ;;
  let Qacc := psAcc ps in
  res <- mulTable 0 1 62 x2OverY2 y2Inv res ;;
  res <- mulTable 2 3 62 x2OverY2 y2Inv res ;;
  ' (res, _) <- mfold (doubleFixedIter Q xOverY yInv x2OverY2 y2Inv) fixedRange (res, Qacc) ;;
  Ret (E12_Conjugate res).

(** pairing.go:705-713 *)
Definition PairFixedQ (P : G1Affine) : Circ E12 :=
  res <- MillerLoopFixedQ P ;;
  ' (res, _) <- finalExponentiation res true ;;
  Ret res.

(** pairing.go:715-723 *)
Definition DoublePairFixedQ (P T : G1Affine) (Q : G2Affine) : Circ E12 :=
  res <- DoubleMillerLoopFixedQ P T Q ;;
  ' (res, _) <- finalExponentiation res false ;;
  Ret res.
