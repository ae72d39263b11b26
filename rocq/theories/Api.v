(** Contract of the gnark v0.9.1 [frontend.API] calls used in /repo/spark, on
    values of the native field.  gnark is an external dependency: this file is
    part of the trusted base.  Call sites are cited at each definition. *)
From Coq Require Import ZArith List Bool.
From Verif Require Import Params ZMod Circuit.
Import ListNotations.
Open Scope Z_scope.

(** a frontend.Variable that is 0 or 1 *)
Definition isbool (x : Fr) : bool := feqb x (f0 rBN) || feqb x (f1 rBN).

(** [api.AssertIsBoolean] (implied by api.Select/And/Or/Xor and bits.ToBinary) *)
Definition api_AssertIsBoolean (x : Fr) : Circ unit := assert (isbool x).

(** [api.AssertIsEqual] (pairing.go:858-866 and the sha256 gadgets) *)
Definition api_AssertIsEqual (x y : Fr) : Circ unit := assert (feqb x y).

(** [api.And] (sha256/uint32api.go, tower.go:333, hashG2.go:218-253, g2.go) *)
Definition api_And (x y : Fr) : Circ Fr :=
  api_AssertIsBoolean x ;;; api_AssertIsBoolean y ;;; Ret (fmul x y).

(** [api.Or]: a + b - ab *)
Definition api_Or (x y : Fr) : Circ Fr :=
  api_AssertIsBoolean x ;;; api_AssertIsBoolean y ;;; Ret (fsub (fadd x y) (fmul x y)).

(** [api.Xor]: a + b - 2ab *)
Definition api_Xor (x y : Fr) : Circ Fr :=
  api_AssertIsBoolean x ;;; api_AssertIsBoolean y ;;;
  Ret (fsub (fadd x y) (fadd (fmul x y) (fmul x y))).

(** [api.Select(b, x, y)]: b(x - y) + y with b asserted boolean *)
Definition api_Select (b x y : Fr) : Circ Fr :=
  api_AssertIsBoolean b ;;; Ret (fadd (fmul b (fsub x y)) y).

(** [api.IsZero] *)
Definition api_IsZero (x : Fr) : Fr := if feqb x (f0 rBN) then f1 rBN else f0 rBN.

(** [api.Cmp(x, y)]: 1, 0 or -1 by comparing the canonical integers in
    [0, r) (v0.9.1 decomposes strictly) *)
Definition api_Cmp (x y : Fr) : Fr :=
  match Z.compare (fval x) (fval y) with
  | Gt => f1 rBN
  | Eq => f0 rBN
  | Lt => ofZ rBN (-1)
  end.

(** value of little-endian bits: [bits.FromBinary] *)
Fixpoint api_FromBinary (bs : list Fr) : Fr :=
  match bs with
  | nil => f0 rBN
  | b :: t => fadd b (fmul (ofZ rBN 2) (api_FromBinary t))
  end.

(** bits 0 .. n-1 of an integer, as computed by gnark's [nBits] hint *)
Definition bitF (z : Z) (i : nat) : Fr := if Z.testbit z (Z.of_nat i) then f1 rBN else f0 rBN.
Definition bitsF (n : nat) (z : Z) : list Fr := map (bitF z) (seq 0 n).

(** [bits.ToBinary(api, x, WithNbDigits(n))]: the bits are prover-chosen wires,
    each asserted boolean, and their weighted sum is asserted equal to [x]
    (in the field).  Only used with n well below 254 in /repo. *)
Definition api_ToBinary (n : nat) (x : Fr) : Circ (list Fr) :=
  Ask (list Fr) (Some (bitsF n (fval x))) (fun bs =>
    assert (Nat.eqb (length bs) n) ;;;
    assert (forallb isbool bs) ;;;
    api_AssertIsEqual (api_FromBinary bs) x ;;;
    Ret bs).

(** native-field encoding of a boolean *)
Definition bF (b : bool) : Fr := if b then f1 rBN else f0 rBN.
