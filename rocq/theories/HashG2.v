(** Model of /repo/spark/pairing_bls12381/hashG2.go:19-34, 173-385, 386-524,
    547-553, 581-586, 632-668 and 702-784: simplified SWU map, square root of a
    ratio, isogeny, cofactor clearing, and the four hash/encode functions.
    The methods on *Pairing at lines 526-545, 555-579, 588-630 and 670-674
    duplicate functions of g2.go (see G2.v). *)
From Coq Require Import ZArith List Bool.
From Verif Require Import Params ZMod Circuit Api Emulated Tower Pairing HashField G2.
Import ListNotations.
Open Scope Z_scope.
Local Notation fr0 := (f0 rBN).
Local Notation fr1 := (f1 rBN).

(** [fp.Element] literals are six 64-bit words of the Montgomery form a*2^384;
    [emulated.ValueOf] converts them to the regular form. *)
Definition montRinv : Z := 3231460744492646417066832100176244795738767926513225105051837195607029917124509527734802654356338138714468589979680.
Definition fpMont (l : list Z) : Fp := fpZ (recompose64 l * montRinv).

(** hashG2.go:21-24 *)
Definition SswuIsoCurveCoeffA : E2 := mkE2 (fpMont [0]) (fpMont [16517514583386313282; 74322656156451461; 16683759486841714365; 815493829203396097; 204518332920448171; 1306242806803223655]).
(** hashG2.go:26-29 *)
Definition SswuIsoCurveCoeffB : E2 := mkE2 (fpMont [2515823342057463218; 7982686274772798116; 7934098172177393262; 8484566552980779962; 4455086327883106868; 1323173589274087377]) (fpMont [2515823342057463218; 7982686274772798116; 7934098172177393262; 8484566552980779962; 4455086327883106868; 1323173589274087377]).
(** hashG2.go:31-34 *)
Definition Tv4Z : E2 := mkE2 (fpMont [9794203289623549276; 7309342082925068282; 1139538881605221074; 15659550692327388916; 16008355200866287827; 582484205531694093]) (fpMont [4897101644811774638; 3654671041462534141; 569769440802610537; 17053147383018470266; 17227549637287919721; 291242102765847046]).

(** big.Int.Bytes: minimal big-endian bytes of |k| *)
Fixpoint bytesLE (fuel : nat) (z : Z) : list Z :=
  match fuel with
  | O => []
  | S n => if z =? 0 then [] else z mod 256 :: bytesLE n (z / 256)
  end.
Definition bigBytes (k : Z) : list Z := rev (bytesLE (Z.to_nat (Z.log2 (Z.abs k) / 8 + 1)) (Z.abs k)).

(** hashG2.go:349-354, body of the inner loop: one bit of the byte w *)
Definition expBit (x : E2) (w : Z) (res : E2) (j : nat) : E2 :=
  let res := E2_Square res in
  if Z.testbit w (7 - Z.of_nat j) then E2_Mul res x else res.

(** hashG2.go:346-356 *)
Definition expLoop (x : E2) (b : list Z) (res : E2) : E2 :=
  fold_left (fun res w => fold_left (expBit x w) (seq 0 8) res) b res.

(** hashG2.go:324-358.  (For a negative k the Go code also negates the
    caller's big.Int in place; no call site passes a negative exponent.) *)
Definition E2Exp (x : E2) (k : Z) : Circ E2 :=
  if k =? 0 then Ret E2_One else
  x <- (if k <? 0 then E2_Inverse x else Ret x) ;;
  Ret (expLoop x (bigBytes k) E2_One).

(** hashG2.go:547-553; [ba.One()] is a constant, its bits are those of 1 *)
Definition G1NotEqualOne (x : Fp) : Circ Fr :=
  x <- fp_Reduce x ;;
  notEqualBits x 1.

(** hashG2.go:581-586 *)
Definition E2NotOne (x : E2) : Circ Fr :=
  a0NotOne <- G1NotEqualOne (A0 x) ;;
  a1NotZero <- G1NotZero (A1 x) ;;
  api_Or a0NotOne a1NotZero.

(** hashG2.go:218-253.  The six limbs of a reduced element z are its base-2^64
    digits, so the 6 x 64 bits are the 384 bits of z, least significant first. *)
Definition g2Sgn0 (u : E2) : Circ Fr :=
  a0 <- fp_Reduce (A0 u) ;;
  a1 <- fp_Reduce (A1 u) ;;
  let A0Bits := fp_ToBits a0 in
  let sign := fr0 in
  let zero := fr1 in
  let signI := nth 0 A0Bits fr0 in
  zeroI <- mfold (fun _ b => api_Or signI b) A0Bits fr0 ;;
  zs <- api_And zero signI ;;
  sign <- api_Or sign zs ;;
  zero <- api_And zero zeroI ;;
  let signI := nth 0 (fp_ToBits a1) fr0 in
  zs <- api_And zero signI ;;
  api_Or sign zs.

(** hashG2.go:264-267 *)
Definition sqrtTv1 : E2 := mkE2 (fpMont [8921533702591418330; 15859389534032789116; 3389114680249073393; 15116930867080254631; 3288288975085550621; 1021049300055853010]) (fpMont [8921533702591418330; 15859389534032789116; 3389114680249073393; 15116930867080254631; 3288288975085550621; 1021049300055853010]).
(** hashG2.go:294-297 *)
Definition sqrtC7 : E2 := mkE2 (fpMont [1921729236329761493; 9193968980645934504; 9862280504246317678; 6861748847800817560; 10375788487011937166; 4460107375738415]) (fpMont [16821121318233475459; 10183025025229892778; 1779012082459463630; 3442292649700377418; 1061500799026501234; 1352426537312017168]).
(** hashG2.go:281 *)
Definition sqrtC3 : Z := 0x2a437a4b8c35fc74bd278eaa22f25e9e2dc90e50e7046b466e59e49349e8bd050a62cfd16ddca6ef53149330978ef011d68619c86185c7b292e85a87091a04966bf91ed3e71b743162c338362113cfd7ced6b1d76382eab26aa00001c718e3.

(** hashG2.go:306-316, body of the loop; state (tv1, tv3, tv4, exp) *)
Definition sqrtStep (st : E2 * E2 * E2 * Z) (i : nat) : Circ (E2 * E2 * E2 * Z) :=
  let '(tv1, tv3, tv4, e) := st in
  tv5 <- E2Exp tv4 e ;;
  nE1 <- E2NotOne tv5 ;;
  let tv2 := E2_Mul tv3 tv1 in
  let tv1 := E2_Mul tv1 tv1 in
  let tv5 := E2_Mul tv4 tv1 in
  tv3 <- E2_Select nE1 tv2 tv3 ;;
  tv4 <- E2_Select nE1 tv5 tv4 ;;
  Ret (tv1, tv3, tv4, if Nat.ltb 2 i then Z.shiftr e 1 else e).

(** hashG2.go:255-322 *)
Definition g2SqrtRatio (u v : E2) : Circ (E2 * Fr) :=
  let tv1 := sqrtTv1 in
  tv2 <- E2Exp v 7 ;;
  let tv3 := E2_Square tv2 in
  let tv3 := E2_Mul tv3 v in
  let tv5 := E2_Mul u tv3 in
  tv5 <- E2Exp tv5 sqrtC3 ;;
  let tv5 := E2_Mul tv5 tv2 in
  let tv2 := E2_Mul tv5 v in
  let tv3 := E2_Mul tv5 u in
  let tv4 := E2_Mul tv3 tv2 in
  tv5 <- E2Exp tv4 4 ;;
  isQNr <- E2NotOne tv5 ;;
  let tv2 := E2_Mul tv3 sqrtC7 in
  let tv5 := E2_Mul tv4 tv1 in
  tv3 <- E2_Select isQNr tv2 tv3 ;;
  tv4 <- E2_Select isQNr tv5 tv4 ;;
  let exp := Z.shiftl 1 (3 - 2) in
  ' (_, tv3, _, _) <- mfold sqrtStep [3; 2]%nat (tv1, tv3, tv4, exp) ;;
  Ret (tv3, isQNr).

(** hashG2.go:173-216 *)
Definition MapElementToCurve2 (e2 : E2) : Circ G2Affine :=
  let tv1 := E2_Square e2 in
  let tv1 := E2_Mul tv1 Tv4Z in
  let tv2 := E2_Square tv1 in
  let tv2 := E2_Add tv2 tv1 in
  let tv3 := E2_Add tv2 E2_One in
  let tv3 := E2_Mul tv3 SswuIsoCurveCoeffB in
  let tv2 := E2_Neg tv2 in
  let tv4 := E2_Mul tv2 SswuIsoCurveCoeffA in
  let tv2 := E2_Square tv3 in
  let tv6 := E2_Square tv4 in
  let tv5 := E2_Mul tv6 SswuIsoCurveCoeffA in
  let tv2 := E2_Add tv2 tv5 in
  let tv2 := E2_Mul tv2 tv3 in
  let tv6 := E2_Mul tv6 tv4 in
  let tv5 := E2_Mul tv6 SswuIsoCurveCoeffB in
  let tv2 := E2_Add tv2 tv5 in
  let x := E2_Mul tv1 tv3 in
  ' (y1, gx1NSquare) <- g2SqrtRatio tv2 tv6 ;;
  let y := E2_Mul tv1 e2 in
  let y := E2_Mul y y1 in
  x <- E2_Select gx1NSquare x tv3 ;;
  y <- E2_Select gx1NSquare y y1 ;;
  let y1 := E2_Neg y in
  g2Sgn0U <- g2Sgn0 e2 ;;
  g2Sgn0Y <- g2Sgn0 y ;;
  useY1 <- api_Xor g2Sgn0U g2Sgn0Y ;;
  y <- E2_Select useY1 y1 y ;;
  x <- E2_Div x tv4 ;;
  Ret (mkG2 x y).

(** hashG2.go:393-402 *)
Definition xDenCoeffs : list E2 := [
  mkE2 (fpMont [0]) (fpMont [2250392438786206615; 17463829474098544446; 14571211649711714824; 4495761442775821336; 258811604141191305; 357646605018048850]);
  mkE2 (fpMont [4933130441833534766; 15904462746612662304; 8034115857496836953; 12755092135412849606; 7007796720291435703; 252692002104915169]) (fpMont [8469300574244328829; 4752422838614097887; 17848302789776796362; 12930989898711414520; 16851051131888818207; 1621106615542624696])].
(** hashG2.go:386-411 *)
Definition g2IsogenyXDenominator (x : E2) : E2 :=
  let c i := nth i xDenCoeffs E2_Zero in
  let dst := c 1%nat in
  let dst := E2_Add dst x in
  let dst := E2_Mul dst x in
  E2_Add dst (c 0%nat).

(** hashG2.go:419-436 *)
Definition xNumCoeffs : list E2 := [
  mkE2 (fpMont [5185457120960601698; 494647221959407934; 8971396042087821730; 324544954362548322; 14214792730224113654; 1405280679127738945]) (fpMont [5185457120960601698; 494647221959407934; 8971396042087821730; 324544954362548322; 14214792730224113654; 1405280679127738945]);
  mkE2 (fpMont [0]) (fpMont [6910023028261548496; 9745789443900091043; 7668299866710145304; 2432656849393633605; 2897729527445498821; 776645607375592125]);
  mkE2 (fpMont [724047465092313539; 15783990863276714670; 12824896677063784855; 15246381572572671516; 13186611051602728692; 1485475813959743803]) (fpMont [12678383550985550056; 4872894721950045521; 13057521970209848460; 10439700461551592610; 10672236800577525218; 388322803687796062]);
  mkE2 (fpMont [4659755689450087917; 1804066951354704782; 15570919779568036803; 15592734958806855601; 7597208057374167129; 1841438384006890194]) (fpMont [0])].
(** hashG2.go:413-450 *)
Definition g2IsogenyXNumerator (x : E2) : E2 :=
  let c i := nth i xNumCoeffs E2_Zero in
  let dst := c 3%nat in
  let dst := E2_Mul dst x in
  let dst := E2_Add dst (c 2%nat) in
  let dst := E2_Mul dst x in
  let dst := E2_Add dst (c 1%nat) in
  let dst := E2_Mul dst x in
  E2_Add dst (c 0%nat).

(** hashG2.go:459-472 *)
Definition yDenCoeffs : list E2 := [
  mkE2 (fpMont [99923616639376095; 10339114964526300021; 6204619029868000785; 1288486622530663893; 14587509920085997152; 272081012460753233]) (fpMont [99923616639376095; 10339114964526300021; 6204619029868000785; 1288486622530663893; 14587509920085997152; 272081012460753233]);
  mkE2 (fpMont [0]) (fpMont [6751177316358619845; 15498000274876530106; 6820146801716041242; 13487284328327464010; 776434812423573915; 1072939815054146550]);
  mkE2 (fpMont [7399695662750302149; 14633322083064217648; 12051173786245255430; 9909266166264498601; 1288323043582377747; 379038003157372754]) (fpMont [6002735353327561446; 6023563502162542543; 13831244861028377885; 15776815867859765525; 4123780734888324547; 1494760614490167112])].
(** hashG2.go:452-484 *)
Definition g2IsogenyYDenominator (x : E2) : E2 :=
  let c i := nth i yDenCoeffs E2_Zero in
  let dst := c 2%nat in
  let dst := E2_Add dst x in
  let dst := E2_Mul dst x in
  let dst := E2_Add dst (c 1%nat) in
  let dst := E2_Mul dst x in
  E2_Add dst (c 0%nat).

(** hashG2.go:492-509 *)
Definition yNumCoeffs : list E2 := [
  mkE2 (fpMont [10869708750642247614; 13056187057366814946; 1750362034917495549; 6326189602300757217; 1140223926335695785; 632761649765668291]) (fpMont [10869708750642247614; 13056187057366814946; 1750362034917495549; 6326189602300757217; 1140223926335695785; 632761649765668291]);
  mkE2 (fpMont [0]) (fpMont [13765940311003083782; 5579209876153186557; 11349908400803699438; 11707848830955952341; 199199289641242246; 899896674917908607]);
  mkE2 (fpMont [15562563812347550836; 2436447360975022760; 6528760985104924230; 5219850230775796305; 5336118400288762609; 194161401843898031]) (fpMont [16286611277439864375; 18220438224251737430; 906913588459157469; 2019487729638916206; 75985378181939686; 1679637215803641835]);
  mkE2 (fpMont [11849179119594500956; 13906615243538674725; 14543197362847770509; 2041759640812427310; 2879701092679313252; 1259985822978576468]) (fpMont [0])].
(** hashG2.go:486-524 *)
Definition g2IsogenyYNumerator (x y : E2) : E2 :=
  let c i := nth i yNumCoeffs E2_Zero in
  let dst := c 3%nat in
  let dst := E2_Mul dst x in
  let dst := E2_Add dst (c 2%nat) in
  let dst := E2_Mul dst x in
  let dst := E2_Add dst (c 1%nat) in
  let dst := E2_Mul dst x in
  let dst := E2_Add dst (c 0%nat) in
  E2_Mul dst y.

(** hashG2.go:360-384 *)
Definition G2Isogeny (p : G2Affine) : Circ G2Affine :=
  let den1 := g2IsogenyYDenominator (g2X p) in
  let den0 := g2IsogenyXDenominator (g2X p) in
  let newPy := g2IsogenyYNumerator (g2X p) (g2Y p) in
  let newPx := g2IsogenyXNumerator (g2X p) in
  den1 <- E2_Inverse den1 ;;
  den0 <- E2_Inverse den0 ;;
  Ret (mkG2 (E2_Mul newPx den0) (E2_Mul newPy den1)).

(** hashG2.go:632-668 *)
Definition ClearCofactor (a : G2Jacobian) : Circ G2Jacobian :=
  xg <- G2JacobianConstScalarMul a ;;
  let xg := G2JacobianNeg xg in
  xxg <- G2JacobianConstScalarMul xg ;;
  let xxg := G2JacobianNeg xxg in
  res <- G2JacobianSubAssign xxg xg ;;
  res <- G2JacobianSubAssign res a ;;
  t <- G2JacobianSubAssign xg a ;;
  let t := G2JacobianPsi t in
  res <- G2JacobianAddAssign res t ;;
  let t := G2JacobianDouble a in
  let t := mkJ (E2_MulByElement (jX t) thirdRootOneG1) (jY t) (jZ t) in
  G2JacobianSubAssign res t.

(** hashG2.go:702-714 *)
Definition EncodeToG2OnJac (msg : list Fr) : Circ G2Affine :=
  e2 <- HashToField msg 2 ;;
  p <- MapElementToCurve2 (nth 0 e2 E2_Zero) ;;
  q <- G2Isogeny p ;;
  j <- GetG2JacFromG2Affine q ;;
  j <- ClearCofactor j ;;
  GetG2AffineFromG2Jac j.

(** hashG2.go:716-723 *)
Definition EncodeToG2 (msg : list Fr) : Circ G2Affine :=
  e2 <- HashToField msg 2 ;;
  p <- MapElementToCurve2 (nth 0 e2 E2_Zero) ;;
  q <- G2Isogeny p ;;
  G2ClearCofactor q.

(** hashG2.go:725-750 *)
Definition HashToG2OnJac (msg : list Fr) : Circ G2Affine :=
  e2 <- HashToField msg 4 ;;
  P0 <- MapElementToCurve2 (nth 0 e2 E2_Zero) ;;
  P1 <- MapElementToCurve2 (nth 1 e2 E2_Zero) ;;
  Q0 <- G2Isogeny P0 ;;
  Q1 <- G2Isogeny P1 ;;
  j0 <- GetG2JacFromG2Affine Q0 ;;
  j1 <- GetG2JacFromG2Affine Q1 ;;
  sum <- G2JacobianAddAssign j0 j1 ;;
  sum <- ClearCofactor sum ;;
  GetG2AffineFromG2Jac sum.

(** hashG2.go:752-784, after HashToField: the part that does not see the message *)
Definition hashTail (u0 u1 : E2) : Circ G2Affine :=
  P0 <- MapElementToCurve2 u0 ;;
  P1 <- MapElementToCurve2 u1 ;;
  Q0 <- G2Isogeny P0 ;;
  Q1 <- G2Isogeny P1 ;;
  sum <- G2AddAssign Q0 Q1 ;;
  sum <- G2ClearCofactor sum ;;
  xa0 <- fp_Reduce (A0 (g2X sum)) ;;
  xa1 <- fp_Reduce (A1 (g2X sum)) ;;
  ya0 <- fp_Reduce (A0 (g2Y sum)) ;;
  ya1 <- fp_Reduce (A1 (g2Y sum)) ;;
  Ret (mkG2 (mkE2 (fpZ xa0) (fpZ xa1)) (mkE2 (fpZ ya0) (fpZ ya1))).
Definition HashToG2 (msg : list Fr) : Circ G2Affine :=
  e2 <- HashToField msg 4 ;;
  hashTail (nth 0 e2 E2_Zero) (nth 1 e2 E2_Zero).
