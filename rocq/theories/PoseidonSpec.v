(** Textbook Poseidon over the BN254 scalar field (Grassi, Khovratovich,
    Rechberger, Roy, Schofnegger, "Poseidon: A New Hash Function for
    Zero-Knowledge Proof Systems", USENIX Security 2021): the permutation with
    a dense MDS matrix in every round, and the Grain LFSR that generates its
    parameters (Appendix E/F).  Specification only. *)
From Coq Require Import ZArith List Bool.
From Verif Require Import Params ZMod.
Import ListNotations.
Open Scope Z_scope.

(** ** the permutation *)
Fixpoint vadd (u v : list Fr) : list Fr :=
  match u, v with x :: u', y :: v' => fadd x y :: vadd u' v' | _, _ => [] end.
Fixpoint inner (u v : list Fr) : Fr :=
  match u, v with x :: u', y :: v' => fadd (fmul x y) (inner u' v') | _, _ => f0 rBN end.
Definition mv (M : list (list Fr)) (v : list Fr) : list Fr := map (fun row => inner row v) M.
Definition pow5 (x : Fr) : Fr := fmul x (fmul x (fmul x (fmul x x))).
Definition slice {A} (l : list A) (i n : nat) : list A := firstn n (skipn i l).

(** S-box layer: on every word in a full round, on word 0 in a partial round *)
Definition sboxes (full : bool) (st : list Fr) : list Fr :=
  if full then map pow5 st else match st with [] => [] | x :: xs => pow5 x :: xs end.

(** number of partial rounds for width t (alpha = 5, 128 bits, 8 full rounds) *)
Definition partial_rounds (t : nat) : nat :=
  nth (t - 2) [56; 57; 56; 60; 60; 63; 64; 63; 60; 66; 60; 65; 70; 60; 64; 68]%nat 0%nat.

(** round r: add its t constants, S-boxes, multiply by the MDS matrix *)
Definition p_round (rc : list Fr) (M : list (list Fr)) (t nP : nat) (st : list Fr) (r : nat) : list Fr :=
  mv M (sboxes ((r <? 4)%nat || (4 + nP <=? r)%nat) (vadd st (slice rc (r * t) t))).
Definition permutation (rc : list Fr) (M : list (list Fr)) (t nP : nat) (st : list Fr) : list Fr :=
  fold_left (p_round rc M t nP) (seq 0 (8 + nP)) st.

(** hash of 1..16 words: capacity word 0 first, output word 0 *)
Definition textbook_hash (rc : list Fr) (M : list (list Fr)) (inputs : list Fr) : Fr :=
  let t := S (length inputs) in
  hd (f0 rBN) (permutation rc M t (partial_rounds t) (f0 rBN :: inputs)).

(** ** the parameters *)
(** n bits, most significant first *)
Definition bits_msb (n : nat) (z : Z) : list bool :=
  map (fun i => Z.testbit z (Z.of_nat (n - 1 - i))) (seq 0 n).
(** initial state: field type 1 (2 bits), S-box x^alpha 0 (4), field size 254
    (12), t (12), R_F = 8 (10), R_P (10), and thirty ones *)
Definition grain_init (t nP : nat) : list bool :=
  bits_msb 2 1 ++ bits_msb 4 0 ++ bits_msb 12 254 ++ bits_msb 12 (Z.of_nat t) ++
  bits_msb 10 8 ++ bits_msb 10 (Z.of_nat nP) ++ repeat true 30.
(** the sequence of the LFSR *)
Definition grain_seq (t nP : nat) (b : nat -> bool) : Prop :=
  (forall i, (i < 80)%nat -> b i = nth i (grain_init t nP) false) /\
  (forall i, b (i + 80)%nat =
     xorb (b (i + 62)%nat) (xorb (b (i + 51)%nat) (xorb (b (i + 38)%nat)
       (xorb (b (i + 23)%nat) (xorb (b (i + 13)%nat) (b i)))))).
(** self-shrinking: read pairs from position i; output the second bit of a
    pair whose first bit is 1 *)
Inductive shrunk (b : nat -> bool) : nat -> list bool -> nat -> Prop :=
| sh_nil i : shrunk b i [] i
| sh_skip i l j : b i = false -> shrunk b (i + 2) l j -> shrunk b i l j
| sh_take i l j : b i = true -> shrunk b (i + 2) l j -> shrunk b i (b (i + 1)%nat :: l) j.
(** consecutive 254-bit numbers after the first 160 generated bits are discarded *)
Definition grain_numbers (t nP : nat) (vs : list Z) : Prop :=
  Forall (fun v => 0 <= v < 2 ^ 254) vs /\
  exists b j, grain_seq t nP b /\ shrunk b 240 (concat (map (bits_msb 254) vs)) j.
(** the first (8+nP)*t numbers below the modulus are the round constants; the
    2t numbers after them (reduced, distinct) give the Cauchy matrix 1/(x_i+y_j) *)
Definition grain_params (t nP : nat) (rc : list Fr) (M : list (list Fr)) : Prop :=
  exists vs v us xs ys,
    grain_numbers t nP (vs ++ [v] ++ us) /\ v < rBN /\
    rc = map (ofZ rBN) (filter (fun z => z <? rBN) (vs ++ [v])) /\ length rc = ((8 + nP) * t)%nat /\
    length us = (t + t)%nat /\ map (ofZ rBN) us = xs ++ ys /\ length xs = t /\ NoDup (xs ++ ys) /\
    length M = t /\ Forall (fun row => length row = t) M /\
    forall i j, (i < t)%nat -> (j < t)%nat ->
      fmul (nth j (nth i M []) (f0 rBN)) (fadd (nth i xs (f0 rBN)) (nth j ys (f0 rBN))) = f1 rBN.
