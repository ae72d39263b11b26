(** What selection, lookup and a zero test mean, for the honest prover ([run])
    and for every other ([sat]). *)
From Coq Require Import ZArith List Bool.
From Verif Require Import Params ZMod Circuit Api.
Import ListNotations.

(** entry number [b0 + 2 b1] *)
Definition entry4 {A} (b0 b1 : bool) (a b c d : A) : A :=
  nth (Nat.b2n b0 + 2 * Nat.b2n b1) [a; b; c; d] a.

(** what every prover can make of a lookup *)
Definition looks_up {A} (L : Fr -> Fr -> A -> A -> A -> A -> Circ A) : Prop :=
  forall a b c d,
  (forall b0 b1, run (L (bF b0) (bF b1) a b c d) = Some (entry4 b0 b1 a b c d)) /\
  (forall s0 s1 z, sat (L s0 s1 a b c d) z <->
     exists b0 b1, s0 = bF b0 /\ s1 = bF b1 /\ z = entry4 b0 b1 a b c d).

(** the same for two entries *)
Definition selects {A} (S : Fr -> A -> A -> Circ A) : Prop :=
  forall x y,
  (forall b : bool, run (S (bF b) x y) = Some (if b then x else y)) /\
  (forall s z, sat (S s x y) z <-> exists b : bool, s = bF b /\ z = if b then x else y).

(** the answer is the bit of the question, for every prover *)
Definition decides (c : Circ Fr) (P : Prop) : Prop :=
  (P -> determ c (f1 rBN)) /\ (~ P -> determ c (f0 rBN)).
