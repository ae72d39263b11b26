(** FIPS 180-4 SHA-256 on byte strings, over Z.  Written from the standard;
    does not refer to the model. *)
From Coq Require Import ZArith List Bool.
Import ListNotations.
Open Scope Z_scope.

Definition M32 : Z := 2 ^ 32.
Definition wadd (x y : Z) : Z := (x + y) mod M32.
(** 2.2.2, 3.2: operations on 32-bit words *)
Definition ROTR (n x : Z) : Z := Z.lor (Z.shiftr x n) (Z.shiftl x (32 - n) mod M32).
Definition SHR (n x : Z) : Z := Z.shiftr x n.
Definition Wnot (x : Z) : Z := M32 - 1 - x.
(** 4.1.2 *)
Definition Ch (x y z : Z) : Z := Z.lxor (Z.land x y) (Z.land (Wnot x) z).
Definition Maj (x y z : Z) : Z := Z.lxor (Z.lxor (Z.land x y) (Z.land x z)) (Z.land y z).
Definition Sigma0 (x : Z) : Z := Z.lxor (Z.lxor (ROTR 2 x) (ROTR 13 x)) (ROTR 22 x).
Definition Sigma1 (x : Z) : Z := Z.lxor (Z.lxor (ROTR 6 x) (ROTR 11 x)) (ROTR 25 x).
Definition sigma0 (x : Z) : Z := Z.lxor (Z.lxor (ROTR 7 x) (ROTR 18 x)) (SHR 3 x).
Definition sigma1 (x : Z) : Z := Z.lxor (Z.lxor (ROTR 17 x) (ROTR 19 x)) (SHR 10 x).

(** 4.2.2, 5.3.3: K and H(0) are the first 32 bits of the fractional parts of
    the cube (square) roots of the first 64 (8) primes *)
Definition primes64 : list Z :=
  [2;3;5;7;11;13;17;19;23;29;31;37;41;43;47;53;59;61;67;71;73;79;83;89;97;101;103;107;109;113;127;131;
   137;139;149;151;157;163;167;173;179;181;191;193;197;199;211;223;227;229;233;239;241;251;257;263;269;
   271;277;281;283;293;307;311].
(** integer k-th root by bisection on [lo, hi) *)
Fixpoint root_bis (fuel : nat) (k lo hi n : Z) : Z :=
  match fuel with
  | O => lo
  | S f => let m := (lo + hi) / 2 in
           if m ^ k <=? n then root_bis f k m hi n else root_bis f k lo m n
  end.
(** floor(2^32 * n^(1/k)) for n < 2^9, reduced mod 2^32 *)
Definition frac_root (k n : Z) : Z := root_bis 41 k 0 (2 ^ 41) (n * 2 ^ (32 * k)) mod M32.
Definition K256 : list Z := map (frac_root 3) primes64.
Definition H256 : list Z := map (frac_root 2) (firstn 8 primes64).

(** 5.1.1: padding, for a whole number of bytes *)
Definition be_bytes (n : nat) (x : Z) : list Z :=
  map (fun i => (x / 2 ^ (8 * Z.of_nat (n - 1 - i))) mod 256) (seq 0 n).
Definition pad (m : list Z) : list Z :=
  let l := Z.of_nat (length m) in
  m ++ [128] ++ repeat 0 (Z.to_nat ((55 - l) mod 64)) ++ be_bytes 8 (8 * l).

(** 6.2.2: message schedule *)
Definition blockWord (b : list Z) (t : nat) : Z :=
  nth (4 * t) b 0 * 2 ^ 24 + nth (4 * t + 1) b 0 * 2 ^ 16 + nth (4 * t + 2) b 0 * 2 ^ 8 + nth (4 * t + 3) b 0.
Definition nextW (ws : list Z) (t : nat) : list Z :=
  ws ++ [wadd (wadd (wadd (sigma1 (nth (t - 2) ws 0)) (nth (t - 7) ws 0)) (sigma0 (nth (t - 15) ws 0))) (nth (t - 16) ws 0)].
Definition schedule (b : list Z) : list Z := fold_left nextW (seq 16 48) (map (blockWord b) (seq 0 16)).

(** working variables a, b, c, d, e, f, g, h as a list *)
Definition sround (ws : list Z) (s : list Z) (t : nat) : list Z :=
  match s with
  | [a; b; c; d; e; f; g; h] =>
    let T1 := wadd (wadd (wadd (wadd h (Sigma1 e)) (Ch e f g)) (nth t K256 0)) (nth t ws 0) in
    let T2 := wadd (Sigma0 a) (Maj a b c) in
    [wadd T1 T2; a; b; c; wadd d T1; e; f; g]
  | _ => s
  end.
Definition compress (H : list Z) (b : list Z) : list Z :=
  map (fun p => wadd (fst p) (snd p)) (combine H (fold_left (sround (schedule b)) (seq 0 64) H)).

(** 6.2: blocks of 64 bytes *)
Fixpoint blocks (n : nat) (m : list Z) : list (list Z) :=
  match n with O => [] | S k => firstn 64 m :: blocks k (skipn 64 m) end.
Definition sha256 (m : list Z) : list Z :=
  let p := pad m in
  flat_map (be_bytes 4) (fold_left compress (blocks (length p / 64) p) H256).
Definition is_byte (b : Z) : Prop := 0 <= b < 256.
