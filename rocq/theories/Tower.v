(** Model of /repo/spark/pairing_bls12381/tower.go (all of it) and of the hint
    functions of hints.go. Pure functions for hint-free code, [Circ] for code
    that calls hints or asserts.  In-place writes of the Go code go to fresh
    locals only and are modelled by let-binding. *)
From Coq Require Import ZArith List Bool.
From Verif Require Import Params ZMod RingPow Circuit Api Emulated.
Import ListNotations.
Open Scope Z_scope.

(** tower.go:18-20 *)
Record E2 : Set := mkE2 { A0 : Fp; A1 : Fp }.
(** tower.go:431-433 *)
Record E6 : Set := mkE6 { B0 : E2; B1 : E2; B2 : E2 }.
(** tower.go:740-742 *)
Record E12 : Set := mkE12 { C0 : E6; C1 : E6 }.

(** structural equality of values, used for the assertions *)
Definition E2_eqb (x y : E2) : bool := feqb (A0 x) (A0 y) && feqb (A1 x) (A1 y).
Definition E6_eqb (x y : E6) : bool :=
  E2_eqb (B0 x) (B0 y) && E2_eqb (B1 x) (B1 y) && E2_eqb (B2 x) (B2 y).
Definition E12_eqb (x y : E12) : bool := E6_eqb (C0 x) (C0 y) && E6_eqb (C1 x) (C1 y).

(** [emulated.Field.MulConst(x, 2)] etc. *)
Definition fp_MulConst (x : Fp) (c : Z) : Fp := fmul x (fpZ c).

(** * Ext2 *)

(** tower.go:271-284 (and the identical ext2.Mul, tower.go:48-62) *)
Definition E2_Mul (x y : E2) : E2 :=
  let a := fadd (A0 x) (A1 x) in
  let b := fadd (A0 y) (A1 y) in
  let a := fmul a b in
  let b := fmul (A0 x) (A0 y) in
  let c := fmul (A1 x) (A1 y) in
  let z1 := fsub a b in
  let z1 := fsub z1 c in
  let z0 := fsub b c in
  mkE2 z0 z1.

(** tower.go:286-293 *)
Definition E2_Add (x y : E2) : E2 := mkE2 (fadd (A0 x) (A0 y)) (fadd (A1 x) (A1 y)).
(** tower.go:295-302 *)
Definition E2_Sub (x y : E2) : E2 := mkE2 (fsub (A0 x) (A0 y)) (fsub (A1 x) (A1 y)).
(** tower.go:304-311 *)
Definition E2_Neg (x : E2) : E2 := mkE2 (fopp (A0 x)) (fopp (A1 x)).
(** tower.go:313-320 *)
Definition E2_One : E2 := mkE2 fp1 fp0.
(** tower.go:322-329 *)
Definition E2_Zero : E2 := mkE2 fp0 fp0.
(** tower.go:336-343 *)
Definition E2_NonResidue : E2 := mkE2 fp1 fp1.
(** tower.go:345-355 *)
Definition E2_Square (x : E2) : E2 :=
  let a := fadd (A0 x) (A1 x) in
  let b := fsub (A0 x) (A1 x) in
  let a := fmul a b in
  let b := fmul (A0 x) (A1 x) in
  let b := fp_MulConst b 2 in
  mkE2 a b.
(** tower.go:357-365 *)
Definition E2_Double (x : E2) : E2 := mkE2 (fp_MulConst (A0 x) 2) (fp_MulConst (A1 x) 2).
(** tower.go:146-153 *)
Definition E2_MulByElement (x : E2) (y : Fp) : E2 := mkE2 (fmul (A0 x) y) (fmul (A1 x) y).
(** tower.go:155-162 *)
Definition E2_MulByConstElement (x : E2) (y : Z) : E2 :=
  mkE2 (fp_MulConst (A0 x) y) (fp_MulConst (A1 x) y).
(** tower.go:164-171 *)
Definition E2_Conjugate (x : E2) : E2 := mkE2 (A0 x) (fopp (A1 x)).
(** tower.go:179-188 *)
Definition E2_MulByNonResidue (x : E2) : E2 :=
  mkE2 (fsub (A0 x) (A1 x)) (fadd (A0 x) (A1 x)).

(** table of NewExt2, tower.go:114-132 (same entries as NewExt2_, tower.go:73-95,
    rows 1 and 2); [None]: key absent, the Go map returns a nil *E2 and the
    following Mul panics *)
Definition E2_nonResidues (power coef : Z) : option E2 :=
  match power, coef with
  | 1, 1 => Some (mkE2 (fpZ 3850754370037169011952147076051364057158807420970682438676050522613628423219637725072182697113062777891589506424760) (fpZ 151655185184498381465642749684540099398075398968325446656007613510403227271200139370504932015952886146304766135027))
  | 1, 2 => Some (mkE2 (fpZ 0) (fpZ 4002409555221667392624310435006688643935503118305586438271171395842971157480381377015405980053539358417135540939436))
  | 1, 3 => Some (mkE2 (fpZ 1028732146235106349975324479215795277384839936929757896155643118032610843298655225875571310552543014690878354869257) (fpZ 1028732146235106349975324479215795277384839936929757896155643118032610843298655225875571310552543014690878354869257))
  | 1, 4 => Some (mkE2 (fpZ 4002409555221667392624310435006688643935503118305586438271171395842971157480381377015405980053539358417135540939437) (fpZ 0))
  | 1, 5 => Some (mkE2 (fpZ 877076961050607968509681729531255177986764537961432449499635504522207616027455086505066378536590128544573588734230) (fpZ 3125332594171059424908108096204648978570118281977575435832422631601824034463382777937621250592425535493320683825557))
  | 2, 1 => Some (mkE2 (fpZ 793479390729215512621379701633421447060886740281060493010456487427281649075476305620758731620351) (fpZ 0))
  | 2, 2 => Some (mkE2 (fpZ 793479390729215512621379701633421447060886740281060493010456487427281649075476305620758731620350) (fpZ 0))
  | 2, 3 => Some (mkE2 (fpZ 4002409555221667393417789825735904156556882819939007885332058136124031650490837864442687629129015664037894272559786) (fpZ 0))
  | 2, 4 => Some (mkE2 (fpZ 4002409555221667392624310435006688643935503118305586438271171395842971157480381377015405980053539358417135540939436) (fpZ 0))
  | 2, 5 => Some (mkE2 (fpZ 4002409555221667392624310435006688643935503118305586438271171395842971157480381377015405980053539358417135540939437) (fpZ 0))
  | _, _ => None
  end.

(** tower.go:173-177, for keys present in the table *)
Definition E2_MulByNonResidueGeneric (x : E2) (power coef : Z) : E2 :=
  match E2_nonResidues power coef with Some y => E2_Mul x y | None => x end.

(** tower.go:190-193 *)
Definition E2_MulByNonResidue1Power1 (x : E2) : E2 := E2_MulByNonResidueGeneric x 1 1.
(** tower.go:195-205 *)
Definition E2_MulByNonResidue1Power2 (x : E2) : E2 :=
  let element := fpZ 4002409555221667392624310435006688643935503118305586438271171395842971157480381377015405980053539358417135540939436 in
  let a := fmul (A1 x) element in
  let a := fopp a in
  let b := fmul (A0 x) element in
  mkE2 a b.
(** tower.go:207-210 *)
Definition E2_MulByNonResidue1Power3 (x : E2) : E2 := E2_MulByNonResidueGeneric x 1 3.
(** tower.go:212-219 *)
Definition E2_MulByNonResidue1Power4 (x : E2) : E2 :=
  E2_MulByElement x (fpZ 4002409555221667392624310435006688643935503118305586438271171395842971157480381377015405980053539358417135540939437).
(** tower.go:221-224 *)
Definition E2_MulByNonResidue1Power5 (x : E2) : E2 := E2_MulByNonResidueGeneric x 1 5.
(** tower.go:226-233 *)
Definition E2_MulByNonResidue2Power1 (x : E2) : E2 :=
  E2_MulByElement x (fpZ 793479390729215512621379701633421447060886740281060493010456487427281649075476305620758731620351).
(** tower.go:235-242 *)
Definition E2_MulByNonResidue2Power2 (x : E2) : E2 :=
  E2_MulByElement x (fpZ 793479390729215512621379701633421447060886740281060493010456487427281649075476305620758731620350).
(** tower.go:244-251 *)
Definition E2_MulByNonResidue2Power3 (x : E2) : E2 :=
  E2_MulByElement x (fpZ 4002409555221667393417789825735904156556882819939007885332058136124031650490837864442687629129015664037894272559786).
(** tower.go:253-260 *)
Definition E2_MulByNonResidue2Power4 (x : E2) : E2 :=
  E2_MulByElement x (fpZ 4002409555221667392624310435006688643935503118305586438271171395842971157480381377015405980053539358417135540939436).
(** tower.go:262-269 *)
Definition E2_MulByNonResidue2Power5 (x : E2) : E2 :=
  E2_MulByElement x (fpZ 4002409555221667392624310435006688643935503118305586438271171395842971157480381377015405980053539358417135540939437).

(** gnark-crypto E2.Inverse, called by inverseE2Hint/divE2Hint (hints.go:33-67):
    conjugate times the inverse of the norm; 0 maps to 0 *)
Definition E2_inv (x : E2) : E2 :=
  let t := finv (fadd (fmul (A0 x) (A0 x)) (fmul (A1 x) (A1 x))) in
  mkE2 (fmul (A0 x) t) (fopp (fmul (A1 x) t)).

(** tower.go:367-370 *)
Definition E2_AssertIsEqual (x y : E2) : Circ unit := assert (E2_eqb x y).

(** tower.go:379-398, hint hints.go:33-48 *)
Definition E2_Inverse (x : E2) : Circ E2 :=
  Ask E2 (Some (E2_inv x)) (fun inv =>
    E2_AssertIsEqual E2_One (E2_Mul inv x) ;;; Ret inv).

(** tower.go:400-417, hint hints.go:50-67 *)
Definition E2_DivUnchecked (x y : E2) : Circ E2 :=
  Ask E2 (Some (E2_Mul (E2_inv y) x)) (fun div =>
    E2_AssertIsEqual x (E2_Mul div y) ;;; Ret div).

(** tower.go:64-70 *)
Definition E2_Div (x y : E2) : Circ E2 :=
  r <- E2_Inverse y ;; Ret (E2_Mul x r).

(** tower.go:33-46, ext2.Inverse of the unexported ext2 type *)
Definition e2_Inverse (x : E2) : Circ E2 :=
  let t0 := fmul (A0 x) (A0 x) in
  let t1 := fmul (A1 x) (A1 x) in
  let t0 := fadd t0 t1 in
  t1 <- fp_Inverse t0 ;;
  let z0 := fmul (A0 x) t1 in
  let z1 := fmul (A1 x) t1 in
  let z1 := fopp z1 in
  Ret (mkE2 z0 z1).

(** tower.go:330-334 *)
Definition E2_IsZero (z : E2) : Circ Fr := api_And (fp_IsZero (A0 z)) (fp_IsZero (A1 z)).

(** tower.go:419-423 *)
Definition E2_Select (s : Fr) (z1 z0 : E2) : Circ E2 :=
  a0 <- fp_Select s (A0 z1) (A0 z0) ;;
  a1 <- fp_Select s (A1 z1) (A1 z0) ;;
  Ret (mkE2 a0 a1).

(** tower.go:425-429 *)
Definition E2_Lookup2 (s1 s2 : Fr) (a b c d : E2) : Circ E2 :=
  a0 <- fp_Lookup2 s1 s2 (A0 a) (A0 b) (A0 c) (A0 d) ;;
  a1 <- fp_Lookup2 s1 s2 (A1 a) (A1 b) (A1 c) (A1 d) ;;
  Ret (mkE2 a0 a1).

(** * Ext6 *)

(** tower.go:443-452 *)
Definition E6_One : E6 := mkE6 E2_One E2_Zero E2_Zero.
(** tower.go:454-463 *)
Definition E6_Zero : E6 := mkE6 E2_Zero E2_Zero E2_Zero.
(** tower.go:472-481 *)
Definition E6_Add (x y : E6) : E6 :=
  mkE6 (E2_Add (B0 x) (B0 y)) (E2_Add (B1 x) (B1 y)) (E2_Add (B2 x) (B2 y)).
(** tower.go:483-492 *)
Definition E6_Neg (x : E6) : E6 := mkE6 (E2_Neg (B0 x)) (E2_Neg (B1 x)) (E2_Neg (B2 x)).
(** tower.go:494-503 *)
Definition E6_Sub (x y : E6) : E6 :=
  mkE6 (E2_Sub (B0 x) (B0 y)) (E2_Sub (B1 x) (B1 y)) (E2_Sub (B2 x) (B2 y)).
(** tower.go:505-534 *)
Definition E6_Mul (x y : E6) : E6 :=
  let t0 := E2_Mul (B0 x) (B0 y) in
  let t1 := E2_Mul (B1 x) (B1 y) in
  let t2 := E2_Mul (B2 x) (B2 y) in
  let c0 := E2_Add (B1 x) (B2 x) in
  let tmp := E2_Add (B1 y) (B2 y) in
  let c0 := E2_Mul c0 tmp in
  let c0 := E2_Sub c0 t1 in
  let c0 := E2_Sub c0 t2 in
  let c0 := E2_MulByNonResidue c0 in
  let c0 := E2_Add c0 t0 in
  let c1 := E2_Add (B0 x) (B1 x) in
  let tmp := E2_Add (B0 y) (B1 y) in
  let c1 := E2_Mul c1 tmp in
  let c1 := E2_Sub c1 t0 in
  let c1 := E2_Sub c1 t1 in
  let tmp := E2_MulByNonResidue t2 in
  let c1 := E2_Add c1 tmp in
  let tmp := E2_Add (B0 x) (B2 x) in
  let c2 := E2_Add (B0 y) (B2 y) in
  let c2 := E2_Mul c2 tmp in
  let c2 := E2_Sub c2 t0 in
  let c2 := E2_Sub c2 t2 in
  let c2 := E2_Add c2 t1 in
  mkE6 c0 c1 c2.
(** tower.go:536-545 *)
Definition E6_Double (x : E6) : E6 :=
  mkE6 (E2_Double (B0 x)) (E2_Double (B1 x)) (E2_Double (B2 x)).
(** tower.go:547-572 *)
Definition E6_Square (x : E6) : E6 :=
  let c4 := E2_Mul (B0 x) (B1 x) in
  let c4 := E2_Double c4 in
  let c5 := E2_Square (B2 x) in
  let c1 := E2_MulByNonResidue c5 in
  let c1 := E2_Add c1 c4 in
  let c2 := E2_Sub c4 c5 in
  let c3 := E2_Square (B0 x) in
  let c4 := E2_Sub (B0 x) (B1 x) in
  let c4 := E2_Add c4 (B2 x) in
  let c5 := E2_Mul (B1 x) (B2 x) in
  let c5 := E2_Double c5 in
  let c4 := E2_Square c4 in
  let c0 := E2_MulByNonResidue c5 in
  let c0 := E2_Add c0 c3 in
  let z2 := E2_Add c2 c4 in
  let z2 := E2_Add z2 c5 in
  let z2 := E2_Sub z2 c3 in
  mkE6 c0 c1 z2.
(** tower.go:574-583 *)
Definition E6_MulByE2 (x : E6) (y : E2) : E6 :=
  mkE6 (E2_Mul (B0 x) y) (E2_Mul (B1 x) y) (E2_Mul (B2 x) y).
(** tower.go:585-609 *)
Definition E6_MulBy12 (x : E6) (b1 b2 : E2) : E6 :=
  let t1 := E2_Mul (B1 x) b1 in
  let t2 := E2_Mul (B2 x) b2 in
  let c0 := E2_Add (B1 x) (B2 x) in
  let tmp := E2_Add b1 b2 in
  let c0 := E2_Mul c0 tmp in
  let c0 := E2_Sub c0 t1 in
  let c0 := E2_Sub c0 t2 in
  let c0 := E2_MulByNonResidue c0 in
  let c1 := E2_Add (B0 x) (B1 x) in
  let c1 := E2_Mul c1 b1 in
  let c1 := E2_Sub c1 t1 in
  let tmp := E2_MulByNonResidue t2 in
  let c1 := E2_Add c1 tmp in
  let tmp := E2_Add (B0 x) (B2 x) in
  let c2 := E2_Mul b2 tmp in
  let c2 := E2_Sub c2 t2 in
  let c2 := E2_Add c2 t1 in
  mkE6 c0 c1 c2.
(** tower.go:611-631 *)
Definition E6_MulBy0 (z : E6) (c0 : E2) : E6 :=
  let a := E2_Mul (B0 z) c0 in
  let tmp := E2_Add (B0 z) (B2 z) in
  let t2 := E2_Mul c0 tmp in
  let t2 := E2_Sub t2 a in
  let tmp := E2_Add (B0 z) (B1 z) in
  let t1 := E2_Mul c0 tmp in
  let t1 := E2_Sub t1 a in
  mkE6 a t1 t2.
(** tower.go:633-656 *)
Definition E6_MulBy01 (z : E6) (c0 c1 : E2) : E6 :=
  let a := E2_Mul (B0 z) c0 in
  let b := E2_Mul (B1 z) c1 in
  let tmp := E2_Add (B1 z) (B2 z) in
  let t0 := E2_Mul c1 tmp in
  let t0 := E2_Sub t0 b in
  let t0 := E2_MulByNonResidue t0 in
  let t0 := E2_Add t0 a in
  let tmp := E2_Add (B0 z) (B2 z) in
  let t2 := E2_Mul c0 tmp in
  let t2 := E2_Sub t2 a in
  let t2 := E2_Add t2 b in
  let t1 := E2_Add c0 c1 in
  let tmp := E2_Add (B0 z) (B1 z) in
  let t1 := E2_Mul t1 tmp in
  let t1 := E2_Sub t1 a in
  let t1 := E2_Sub t1 b in
  mkE6 t0 t1 t2.
(** tower.go:658-666 *)
Definition E6_MulByNonResidue (x : E6) : E6 :=
  let z2 := B1 x in let z1 := B0 x in let z0 := B2 x in
  let z0 := E2_MulByNonResidue z0 in
  mkE6 z0 z1 z2.

(** gnark-crypto E6.Inverse, called by the hints (hints.go:89-145) *)
Definition E6_inv (x : E6) : E6 :=
  let t0 := E2_Square (B0 x) in
  let t1 := E2_Square (B1 x) in
  let t2 := E2_Square (B2 x) in
  let t3 := E2_Mul (B0 x) (B1 x) in
  let t4 := E2_Mul (B0 x) (B2 x) in
  let t5 := E2_Mul (B1 x) (B2 x) in
  let c0 := E2_Sub t0 (E2_MulByNonResidue t5) in
  let c1 := E2_Sub (E2_MulByNonResidue t2) t3 in
  let c2 := E2_Sub t1 t4 in
  let t6 := E2_Mul (B0 x) c0 in
  let d1 := E2_Mul (B2 x) c1 in
  let d2 := E2_Mul (B1 x) c2 in
  let d1 := E2_MulByNonResidue (E2_Add d1 d2) in
  let t6 := E2_inv (E2_Add t6 d1) in
  mkE6 (E2_Mul c0 t6) (E2_Mul c1 t6) (E2_Mul c2 t6).

(** tower.go:668-672 *)
Definition E6_AssertIsEqual (x y : E6) : Circ unit := assert (E6_eqb x y).

(** tower.go:683-704 *)
Definition E6_Inverse (x : E6) : Circ E6 :=
  Ask E6 (Some (E6_inv x)) (fun inv =>
    E6_AssertIsEqual E6_One (E6_Mul inv x) ;;; Ret inv).

(** tower.go:706-724 *)
Definition E6_DivUnchecked (x y : E6) : Circ E6 :=
  Ask E6 (Some (E6_Mul (E6_inv y) x)) (fun div =>
    E6_AssertIsEqual x (E6_Mul div y) ;;; Ret div).

(** tower.go:465-470 *)
Definition E6_IsZero (z : E6) : Circ Fr :=
  b0 <- E2_IsZero (B0 z) ;;
  b1 <- E2_IsZero (B1 z) ;;
  b2 <- E2_IsZero (B2 z) ;;
  t <- api_And b0 b1 ;;
  api_And t b2.

(** tower.go:726-731 *)
Definition E6_Select (s : Fr) (z1 z0 : E6) : Circ E6 :=
  b0 <- E2_Select s (B0 z1) (B0 z0) ;;
  b1 <- E2_Select s (B1 z1) (B1 z0) ;;
  b2 <- E2_Select s (B2 z1) (B2 z0) ;;
  Ret (mkE6 b0 b1 b2).

(** tower.go:733-738 *)
Definition E6_Lookup2 (s1 s2 : Fr) (a b c d : E6) : Circ E6 :=
  b0 <- E2_Lookup2 s1 s2 (B0 a) (B0 b) (B0 c) (B0 d) ;;
  b1 <- E2_Lookup2 s1 s2 (B1 a) (B1 b) (B1 c) (B1 d) ;;
  b2 <- E2_Lookup2 s1 s2 (B2 a) (B2 b) (B2 c) (B2 d) ;;
  Ret (mkE6 b0 b1 b2).

(** * Ext12 *)

(** tower.go:810-825 *)
Definition E12_One : E12 := mkE12 E6_One E6_Zero.
(** tower.go:794-808 *)
Definition E12_Zero : E12 := mkE12 E6_Zero E6_Zero.
(** tower.go:752-759 *)
Definition E12_Add (x y : E12) : E12 := mkE12 (E6_Add (C0 x) (C0 y)) (E6_Add (C1 x) (C1 y)).
(** tower.go:761-768 *)
Definition E12_Sub (x y : E12) : E12 := mkE12 (E6_Sub (C0 x) (C0 y)) (E6_Sub (C1 x) (C1 y)).
(** tower.go:770-776 *)
Definition E12_Conjugate (x : E12) : E12 := mkE12 (C0 x) (E6_Neg (C1 x)).
(** not in the Go code: negation, needed only to state that Ext12 is a ring *)
Definition E12_Neg (x : E12) : E12 := mkE12 (E6_Neg (C0 x)) (E6_Neg (C1 x)).
(** tower.go:778-792 *)
Definition E12_Mul (x y : E12) : E12 :=
  let a := E6_Add (C0 x) (C1 x) in
  let b := E6_Add (C0 y) (C1 y) in
  let a := E6_Mul a b in
  let b := E6_Mul (C0 x) (C0 y) in
  let c := E6_Mul (C1 x) (C1 y) in
  let z1 := E6_Sub a b in
  let z1 := E6_Sub z1 c in
  let z0 := E6_MulByNonResidue c in
  let z0 := E6_Add z0 b in
  mkE12 z0 z1.
(** tower.go:833-848 *)
Definition E12_Square (x : E12) : E12 :=
  let c0 := E6_Sub (C0 x) (C1 x) in
  let c3 := E6_MulByNonResidue (C1 x) in
  let c3 := E6_Neg c3 in
  let c3 := E6_Add (C0 x) c3 in
  let c2 := E6_Mul (C0 x) (C1 x) in
  let c0 := E6_Mul c0 c3 in
  let c0 := E6_Add c0 c2 in
  let z1 := E6_Double c2 in
  let c2 := E6_MulByNonResidue c2 in
  let z0 := E6_Add c0 c2 in
  mkE12 z0 z1.
(** tower.go:850-853 *)
Definition E12_AssertIsEqual (x y : E12) : Circ unit := assert (E12_eqb x y).

(** gnark-crypto E12.Inverse, called by the hints (hints.go:174-260) *)
Definition E12_inv (x : E12) : E12 :=
  let t0 := E6_Square (C0 x) in
  let t1 := E6_Square (C1 x) in
  let tmp := E6_MulByNonResidue t1 in
  let t0 := E6_Sub t0 tmp in
  let t1 := E6_inv t0 in
  mkE12 (E6_Mul (C0 x) t1) (E6_Neg (E6_Mul (C1 x) t1)).

(** tower.go:863-891 *)
Definition E12_Inverse (x : E12) : Circ E12 :=
  Ask E12 (Some (E12_inv x)) (fun inv =>
    E12_AssertIsEqual E12_One (E12_Mul inv x) ;;; Ret inv).
(** tower.go:893-919 *)
Definition E12_DivUnchecked (x y : E12) : Circ E12 :=
  Ask E12 (Some (E12_Mul (E12_inv y) x)) (fun div =>
    E12_AssertIsEqual x (E12_Mul div y) ;;; Ret div).
(** tower.go:827-831 *)
Definition E12_IsZero (z : E12) : Circ Fr :=
  c0 <- E6_IsZero (C0 z) ;; c1 <- E6_IsZero (C1 z) ;; api_And c0 c1.
(** tower.go:921-925 *)
Definition E12_Select (s : Fr) (z1 z0 : E12) : Circ E12 :=
  c0 <- E6_Select s (C0 z1) (C0 z0) ;;
  c1 <- E6_Select s (C1 z1) (C1 z0) ;;
  Ret (mkE12 c0 c1).
(** tower.go:927-931 *)
Definition E12_Lookup2 (s1 s2 : Fr) (a b c d : E12) : Circ E12 :=
  c0 <- E6_Lookup2 s1 s2 (C0 a) (C0 b) (C0 c) (C0 d) ;;
  c1 <- E6_Lookup2 s1 s2 (C1 a) (C1 b) (C1 c) (C1 d) ;;
  Ret (mkE12 c0 c1).

(** tower.go:1003-1034 *)
Definition E12_MulBy014 (z : E12) (c0 c1 : E2) : E12 :=
  let a := C0 z in
  let a := E6_MulBy01 a c0 c1 in
  let b := mkE6 (E2_MulByNonResidue (B2 (C1 z))) (B0 (C1 z)) (B1 (C1 z)) in
  let one := E2_One in
  let d := E2_Add c1 one in
  let zC1 := E6_Add (C1 z) (C0 z) in
  let zC1 := E6_MulBy01 zC1 c0 d in
  let zC1 := E6_Sub zC1 a in
  let zC1 := E6_Sub zC1 b in
  let zC0 := E6_MulByNonResidue b in
  let zC0 := E6_Add zC0 a in
  mkE12 zC0 zC1.

(** result type of Mul014By014: the Go [5]E2 *)
Record E2x5 : Set := mk5 { s0 : E2; s1 : E2; s2 : E2; s3 : E2; s4 : E2 }.

(** tower.go:1036-1073 *)
Definition E12_Mul014By014 (d0 d1 c0 c1 : E2) : E2x5 :=
  let one := E2_One in
  let x0 := E2_Mul c0 d0 in
  let x1 := E2_Mul c1 d1 in
  let tmp := E2_Add c0 one in
  let x04 := E2_Add d0 one in
  let x04 := E2_Mul x04 tmp in
  let x04 := E2_Sub x04 x0 in
  let x04 := E2_Sub x04 one in
  let tmp := E2_Add c0 c1 in
  let x01 := E2_Add d0 d1 in
  let x01 := E2_Mul x01 tmp in
  let x01 := E2_Sub x01 x0 in
  let x01 := E2_Sub x01 x1 in
  let tmp := E2_Add c1 one in
  let x14 := E2_Add d1 one in
  let x14 := E2_Mul x14 tmp in
  let x14 := E2_Sub x14 x1 in
  let x14 := E2_Sub x14 one in
  let zC0B0 := E2_NonResidue in
  let zC0B0 := E2_Add zC0B0 x0 in
  mk5 zC0B0 x01 x1 x04 x14.

(** tower.go:1075-1097 *)
Definition E12_MulBy01245 (z : E12) (x : E2x5) : E12 :=
  let c0 := mkE6 (s0 x) (s1 x) (s2 x) in
  let c1 := mkE6 E2_Zero (s3 x) (s4 x) in
  let a := E6_Add (C0 z) (C1 z) in
  let b := E6_Add c0 c1 in
  let a := E6_Mul a b in
  let b := E6_Mul (C0 z) c0 in
  let c := E6_MulBy12 (C1 z) (s3 x) (s4 x) in
  let z1 := E6_Sub a b in
  let z1 := E6_Sub z1 c in
  let z0 := E6_MulByNonResidue c in
  let z0 := E6_Add z0 b in
  mkE12 z0 z1.

(** * Torus arithmetic *)

(** tower.go:1114-1120 *)
Definition CompressTorus (x : E12) : Circ E6 :=
  let y := E6_Add (C0 x) E6_One in
  E6_DivUnchecked y (C1 x).
(** tower.go:1122-1133 *)
Definition DecompressTorus (y : E6) : Circ E12 :=
  let one := E6_One in
  let n := mkE12 y one in
  let d := mkE12 y (E6_Neg one) in
  E12_DivUnchecked n d.
(** tower.go:1135-1144 *)
Definition MulTorus (y1 y2 : E6) : Circ E6 :=
  let n := E6_Mul y1 y2 in
  let n := mkE6 (B0 n) (E2_Add (B1 n) E2_One) (B2 n) in
  let d := E6_Add y1 y2 in
  E6_DivUnchecked n d.
(** tower.go:1146-1150 *)
Definition InverseTorus (y : E6) : E6 := E6_Neg y.

(** gnark-crypto E12.CyclotomicSquare (Granger-Scott), called by
    squareTorusHint (hints.go:147-172) *)
Definition E12_CyclotomicSquare (x : E12) : E12 :=
  let t0 := E2_Square (B1 (C1 x)) in
  let t1 := E2_Square (B0 (C0 x)) in
  let t6 := E2_Sub (E2_Sub (E2_Square (E2_Add (B1 (C1 x)) (B0 (C0 x)))) t0) t1 in
  let t2 := E2_Square (B2 (C0 x)) in
  let t3 := E2_Square (B0 (C1 x)) in
  let t7 := E2_Sub (E2_Sub (E2_Square (E2_Add (B2 (C0 x)) (B0 (C1 x)))) t2) t3 in
  let t4 := E2_Square (B2 (C1 x)) in
  let t5 := E2_Square (B1 (C0 x)) in
  let t8 := E2_MulByNonResidue
              (E2_Sub (E2_Sub (E2_Square (E2_Add (B2 (C1 x)) (B1 (C0 x)))) t4) t5) in
  let t0 := E2_Add (E2_MulByNonResidue t0) t1 in
  let t2 := E2_Add (E2_MulByNonResidue t2) t3 in
  let t4 := E2_Add (E2_MulByNonResidue t4) t5 in
  let m3 t x := E2_Add (E2_Double (E2_Sub t x)) t in
  let p3 t x := E2_Add (E2_Double (E2_Add t x)) t in
  mkE12 (mkE6 (m3 t0 (B0 (C0 x))) (m3 t2 (B1 (C0 x))) (m3 t4 (B2 (C0 x))))
        (mkE6 (p3 t8 (B0 (C1 x))) (p3 t6 (B1 (C1 x))) (p3 t7 (B2 (C1 x)))).
(** gnark-crypto E6.DecompressTorus / E12.CompressTorus; the latter returns an
    error (ignored by the hint) and the zero element when x.C1 = 0 *)
Definition hint_DecompressTorus (y : E6) : E12 :=
  E12_Mul (mkE12 y E6_One) (E12_inv (mkE12 y (E6_Neg E6_One))).
Definition hint_CompressTorus (x : E12) : E6 :=
  if E6_eqb (C1 x) E6_Zero then E6_Zero
  else E6_Mul (E6_Add (C0 x) E6_One) (E6_inv (C1 x)).
(** hints.go:147-172 *)
Definition squareTorusHint (y : E6) : E6 :=
  hint_CompressTorus (E12_CyclotomicSquare (hint_DecompressTorus y)).

(** tower.go:1152-1179 *)
Definition SquareTorus (y : E6) : Circ E6 :=
  Ask E6 (Some (squareTorusHint y)) (fun sq =>
    let v := E6_Double sq in
    let v := E6_Sub v y in
    let v := E6_Mul v y in
    let v_ := mkE6 E2_Zero E2_One E2_Zero in
    E6_AssertIsEqual v v_ ;;;
    Ret sq).
(** tower.go:1181-1195 *)
Definition FrobeniusTorus (y : E6) : E6 :=
  let t0 := E2_Conjugate (B0 y) in
  let t1 := E2_Conjugate (B1 y) in
  let t2 := E2_Conjugate (B2 y) in
  let t1 := E2_MulByNonResidue1Power2 t1 in
  let t2 := E2_MulByNonResidue1Power4 t2 in
  let v0 := mkE2 (fpZ 877076961050607968509681729531255177986764537961432449499635504522207616027455086505066378536590128544573588734230)
                 (fpZ 877076961050607968509681729531255177986764537961432449499635504522207616027455086505066378536590128544573588734230) in
  let res := mkE6 t0 t1 t2 in
  E6_MulBy0 res v0.
(** tower.go:1197-1208 *)
Definition FrobeniusSquareTorus (y : E6) : E6 :=
  let v0 := fpZ 4002409555221667392624310435006688643935503118305586438271171395842971157480381377015405980053539358417135540939437 in
  let t0 := E2_MulByElement (B0 y) v0 in
  let t1 := E2_MulByNonResidue2Power2 (B1 y) in
  let t1 := E2_MulByElement t1 v0 in
  let t2 := E2_MulByNonResidue2Power4 (B2 y) in
  let t2 := E2_MulByElement t2 v0 in
  mkE6 t0 t1 t2.

(** tower.go:933-938 *)
Fixpoint nSquareTorus (z : E6) (n : nat) : Circ E6 :=
  match n with
  | O => Ret z
  | S k => z' <- SquareTorus z ;; nSquareTorus z' k
  end.

(** tower.go:940-993 *)
Definition ExptHalfTorus (x : E6) : Circ E6 :=
  z <- SquareTorus x ;;
  z <- MulTorus x z ;;
  z <- SquareTorus z ;;
  z <- SquareTorus z ;;
  z <- MulTorus x z ;;
  z <- nSquareTorus z 3 ;;
  z <- MulTorus x z ;;
  z <- nSquareTorus z 9 ;;
  z <- MulTorus x z ;;
  z <- nSquareTorus z 32 ;;
  z <- MulTorus x z ;;
  z <- nSquareTorus z 15 ;;
  Ret (InverseTorus z).
(** tower.go:995-1001 *)
Definition ExptTorus (x : E6) : Circ E6 :=
  z <- ExptHalfTorus x ;; SquareTorus z.
