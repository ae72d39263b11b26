(** Specification of the tower fields, independent of the model: quotient rings
    R[X]/(X^n - c) with schoolbook multiplication on coefficient lists.
      Fp2  = Fp [u]/(u^2 - (-1)),  Fp6 = Fp2[v]/(v^3 - (1+u)),  Fp12 = Fp6[w]/(w^2 - v). *)
From Coq Require Import ZArith List Arith.
From Verif Require Import Params ZMod RingPow.
Import ListNotations.

Section Quotient.
Context {R : Type} (zero : R) (add sub mul : R -> R -> R).
Definition coef (l : list R) (i : nat) : R := nth i l zero.
Definition sumR (l : list R) : R := fold_right add zero l.
(** sum over i,j < n with i+j = k of a_i b_j, plus c times the sum over i+j = k+n *)
Definition quot_mul (n : nat) (c : R) (a b : list R) : list R :=
  map (fun k =>
    sumR (flat_map (fun i => map (fun j =>
      if Nat.eqb (i + j) k then mul (coef a i) (coef b j)
      else if Nat.eqb (i + j) (k + n) then mul c (mul (coef a i) (coef b j))
      else zero) (seq 0 n)) (seq 0 n))) (seq 0 n).
Definition quot_add (n : nat) (a b : list R) : list R :=
  map (fun k => add (coef a k) (coef b k)) (seq 0 n).
Definition quot_sub (n : nat) (a b : list R) : list R :=
  map (fun k => sub (coef a k) (coef b k)) (seq 0 n).
End Quotient.

(** Fp2: lists [a0; a1] meaning a0 + a1 u *)
Definition S2zero : list Fp := [f0 _; f0 _].
Definition S2one : list Fp := [f1 _; f0 _].
Definition S2add := quot_add (f0 pBLS) fadd 2.
Definition S2sub := quot_sub (f0 pBLS) fsub 2.
Definition S2mul := quot_mul (f0 pBLS) fadd fmul 2 (fopp (f1 _)).
(** 1 + u *)
Definition S2xi : list Fp := [f1 _; f1 _].

(** Fp6: lists [b0; b1; b2] of Fp2 elements *)
Definition S6zero : list (list Fp) := [S2zero; S2zero; S2zero].
Definition S6one : list (list Fp) := [S2one; S2zero; S2zero].
Definition S6v : list (list Fp) := [S2zero; S2one; S2zero].
Definition S6add := quot_add S2zero S2add 3.
Definition S6sub := quot_sub S2zero S2sub 3.
Definition S6mul := quot_mul S2zero S2add S2mul 3 S2xi.

(** Fp12: lists [c0; c1] of Fp6 elements *)
Definition S12zero : list (list (list Fp)) := [S6zero; S6zero].
Definition S12one : list (list (list Fp)) := [S6one; S6zero].
Definition S12add := quot_add S6zero S6add 2.
Definition S12sub := quot_sub S6zero S6sub 2.
Definition S12mul := quot_mul S6zero S6add S6mul 2 S6v.

(** Fp12 as Fp2[w]/(w^6 - (1+u)): lists of six Fp2 coefficients *)
Definition S12wmul := quot_mul S2zero S2add S2mul 6 S2xi.

(** (1+u)^(Y (p^X - 1)/6) *)
Definition Snr (X Y : Z) : list Fp := npow S2one S2mul S2xi (Z.to_N (Y * ((pBLS ^ X - 1) / 6))).

(** sparse elements (c0 + c1 v) + v w of Fp12 *)
Definition S014 (c0 c1 : list Fp) : list (list (list Fp)) :=
  [[c0; c1; S2zero]; [S2zero; S2one; S2zero]].
(** (b0 + b1 v + b2 v^2) + (b3 v + b4 v^2) w *)
Definition S01245 (b0 b1 b2 b3 b4 : list Fp) : list (list (list Fp)) :=
  [[b0; b1; b2]; [S2zero; b3; b4]].

(** [y] is a torus coordinate of [m]: m = (y + w)/(y - w), written without
    division (y - w is never 0) *)
Definition Storus (y : list (list Fp)) (m : list (list (list Fp))) : Prop :=
  S12mul m [y; S6sub S6zero S6one] = [y; S6one].
Definition S12pow (m : list (list (list Fp))) (k : N) := npow S12one S12mul m k.
