(** RFC 9380 sections 4, 5.2 and 5.3.1: expand_message_xmd with SHA-256 and
    hash_to_field, over byte strings.  Written from the RFC; independent of the
    model. *)
From Coq Require Import ZArith List Bool.
From Verif Require Import Sha256Spec.
Import ListNotations.
Open Scope Z_scope.

(** RFC 8017: I2OSP and OS2IP *)
Definition I2OSP (x : Z) (n : nat) : list Z := be_bytes n x.
Definition OS2IP (l : list Z) : Z := fold_left (fun a b => 256 * a + b) l 0.
Definition strxor (a b : list Z) : list Z := map (fun p => Z.lxor (fst p) (snd p)) (combine a b).

Definition b_in_bytes : Z := 32.
Definition s_in_bytes : nat := 64.

(** b_i || b_(i+1) || ... ([n] blocks), given b_0 and b_(i-1) *)
Fixpoint xmd_blocks (n : nat) (i : Z) (b0 prev dstp : list Z) : list Z :=
  match n with
  | O => []
  | S k => let bi := sha256 (strxor b0 prev ++ I2OSP i 1 ++ dstp) in bi ++ xmd_blocks k (i + 1) b0 bi dstp
  end.
Definition expand_message_xmd (msg dst : list Z) (len : Z) : option (list Z) :=
  let ell := (len + b_in_bytes - 1) / b_in_bytes in
  if (255 <? ell) || (65535 <? len) || (255 <? Z.of_nat (length dst)) then None else
  let dstp := dst ++ I2OSP (Z.of_nat (length dst)) 1 in
  let msgp := I2OSP 0 s_in_bytes ++ msg ++ I2OSP len 2 ++ I2OSP 0 1 ++ dstp in
  let b0 := sha256 msgp in
  let b1 := sha256 (b0 ++ I2OSP 1 1 ++ dstp) in
  Some (firstn (Z.to_nat len) (b1 ++ xmd_blocks (Z.to_nat (ell - 1)) 2 b0 b1 dstp)).

(** 5.2 with m = 2, L = 64: [n] elements of the quadratic extension, each the
    pair of its two coordinates modulo [p] *)
Definition hash_to_field (p : Z) (msg dst : list Z) (n : nat) : option (list (Z * Z)) :=
  match expand_message_xmd msg dst (Z.of_nat n * 2 * 64) with
  | None => None
  | Some u =>
    let coord k := OS2IP (firstn 64 (skipn (64 * k) u)) mod p in
    Some (map (fun i => (coord (2 * i)%nat, coord (2 * i + 1)%nat)) (seq 0 n))
  end.
