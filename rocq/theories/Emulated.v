(** Contract of gnark v0.9.1 [std/math/emulated] for [emulated.Field[BLS12381Fp]]
    at the level of values modulo p ([curveF], /repo/spark/pairing_bls12381/tower.go:15-16).
    External dependency: trusted base.

    Add, Sub, Neg, MulMod, MulConst, One, Zero, NewElement of the package are
    the ring operations of [Fp] (fadd, fsub, fopp, fmul, ...).  An
    [emulated.Element] may hold any integer representative of the residue class;
    where code looks at the representative (ToBits / Limbs after Reduce) the
    model makes the representative prover-chosen ([fp_Reduce] below). *)
From Coq Require Import ZArith List Bool.
From Verif Require Import Params ZMod RingPow Circuit Api.
Import ListNotations.
Open Scope Z_scope.

(** candidate inverse by the extended Euclidean algorithm (only for speed);
    [finv] checks it and otherwise falls back to a^(n-2). *)
Fixpoint egcd (fuel : nat) (r0 r1 s0 s1 : Z) : Z :=
  match fuel with
  | O => s0
  | S k => if r1 =? 0 then s0
           else let '(q, r) := Z.div_eucl r0 r1 in egcd k r1 r s1 (s0 - q * s1)
  end.
Definition finv {n} (a : Fm n) : Fm n :=
  let c := ofZ n (egcd 800 (fval a) n 1 0) in
  if feqb (fmul a c) (f1 n) then c else fpow a (Z.to_N (n - 2)).

Notation fp0 := (f0 pBLS).
Notation fp1 := (f1 pBLS).
(** [emulated.ValueOf[BLS12381Fp](...)] *)
Definition fpZ (z : Z) : Fp := ofZ pBLS z.

(** [Field.Inverse]: the hint errors on 0, the product is asserted to be 1 *)
Definition fp_Inverse (x : Fp) : Circ Fp :=
  Ask Fp (if feqb x fp0 then None else Some (finv x)) (fun i =>
    assert (feqb (fmul i x) fp1) ;;; Ret i).

(** [Field.Div(a,b)]: q prover-chosen with q*b = a asserted; the hint errors on b = 0 *)
Definition fp_Div (a b : Fp) : Circ Fp :=
  Ask Fp (if feqb b fp0 then None else Some (fmul a (finv b))) (fun q =>
    assert (feqb (fmul q b) a) ;;; Ret q).

(** [Field.AssertIsEqual] *)
Definition fp_AssertIsEqual (x y : Fp) : Circ unit := assert (feqb x y).

(** [Field.Select(sel, a, b)] *)
Definition fp_Select (s : Fr) (a b : Fp) : Circ Fp :=
  api_AssertIsBoolean s ;;; Ret (if feqb s (f1 rBN) then a else b).

(** [Field.Lookup2(b0, b1, a, b, c, d)] *)
Definition fp_Lookup2 (s0 s1 : Fr) (a b c d : Fp) : Circ Fp :=
  api_AssertIsBoolean s0 ;;; api_AssertIsBoolean s1 ;;;
  Ret (if feqb s1 (f1 rBN) then (if feqb s0 (f1 rBN) then d else c)
       else (if feqb s0 (f1 rBN) then b else a)).

(** [Field.IsZero] (asserts the canonical representative, so it is exact) *)
Definition fp_IsZero (x : Fp) : Fr := if feqb x fp0 then f1 rBN else f0 rBN.

(** [Field.Reduce]: a new element, prover-chosen, of at most 381 bits, equal to
    the input modulo p.  It is NOT asserted to be smaller than p. *)
Definition fp_Reduce (x : Fp) : Circ Z :=
  Ask Z (Some (fval x)) (fun z =>
    assert ((0 <=? z) && (z <? 2 ^ 381)) ;;;
    assert (feqb (ofZ pBLS z) x) ;;;
    Ret z).

(** bits (little endian, 384 of them) of a reduced element: [Field.ToBits] *)
Definition fp_ToBits (z : Z) : list Fr := bitsF 384 z.
