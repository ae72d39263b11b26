(** Model of /repo/spark/pairing_bls12381/hashG2.go:19, 36-140, 154-171 and 676-700:
    expand_message_xmd and hash_to_field gadgets. *)
From Coq Require Import ZArith List Bool String Ascii.
From Coq Require Import List.
From Verif Require Import Params ZMod Circuit Api Emulated Tower Sha256.
Import ListNotations.
Open Scope Z_scope.

(** hashG2.go:19 and 36: the bytes of DOMAIN_SEPERATOR *)
Definition DOMAIN_SEPERATOR : string := "BLS_SIG_BLS12381G2_XMD:SHA-256_SSWU_RO_POP_".
Definition bytesOf (s : string) : list Z := map (fun c => Z.of_N (N_of_ascii c)) (list_ascii_of_string s).
Definition DST : list Fr := map (ofZ rBN) (bytesOf DOMAIN_SEPERATOR).

(** hashG2.go:39-44 (fp.Bits = 381) *)
Definition L : nat := 64.
Definition Sha256BlockSize : nat := 64.
Definition SizeDomain : Z := 43.
Definition Sha256Size : nat := 32.
Definition SignRootSize : nat := 32.

(** a Go uint8 constant used as a variable; the conversion truncates *)
Definition u8 (z : Z) : Fr := ofZ rBN (z mod 256).

(** the sequence sha256.New, Write, Sum of hashG2.go:69-71, 84-86 and 111-113 *)
Definition shaOf (p : list Fr) : Circ (list Fr) := d <- Write New p ;; Sum d.

(** the 43 entries copied from DST (hashG2.go:63-65, 79-81, 106-108) *)
Definition dstBytes : list Fr := map (fun i => nth i DST fr0) (seq 0 43).

(** hashG2.go:50-67: the array b0Preimage, written front to back *)
Definition b0Preimage (msg : list Fr) (lenInBytes : nat) : list Fr :=
  map (fun _ => u8 0) (seq 0 Sha256BlockSize)
  ++ map (fun i => nth i msg fr0) (seq 0 SignRootSize)
  ++ [u8 (Z.shiftr (Z.of_nat lenInBytes) 8); u8 (Z.of_nat lenInBytes); u8 0]
  ++ dstBytes ++ [u8 SizeDomain].

(** hashG2.go:74-82 and 99-109: the array b1Preimage *)
Definition b1Preimage (head : list Fr) (i : nat) : list Fr :=
  map (fun j => nth j head fr0) (seq 0 Sha256Size) ++ [u8 (Z.of_nat i)] ++ dstBytes ++ [u8 SizeDomain].

(** hashG2.go:99-103 *)
Definition xorBytes (b0 b1 : list Fr) : Circ (list Fr) :=
  mmap (fun j =>
    bb0 <- asUint 8 (nth j b0 fr0) ;;
    bb1 <- asUint 8 (nth j b1 fr0) ;;
    x <- u_xor 8 [bb0; bb1] ;;
    Ret (fromUint x)) (seq 0 Sha256Size).

(** Go [copy(l[at:to], src)] with len src >= to - at *)
Definition copySlice (l : list Fr) (at_ to : nat) (src : list Fr) : list Fr :=
  firstn at_ l ++ firstn (to - at_) src ++ skipn to l.

(** hashG2.go:98-116, body; state (b1, pseudoRandomBytes) *)
Definition xmdStep (b0 : list Fr) (lenInBytes : nat) (st : list Fr * list Fr) (i : nat) : Circ (list Fr * list Fr) :=
  let '(b1, prb) := st in
  h <- xorBytes b0 b1 ;;
  b1 <- shaOf (b1Preimage h i) ;;
  Ret (b1, copySlice prb (Sha256Size * (i - 1)) (Nat.min (Sha256Size * i) lenInBytes) b1).

(** hashG2.go:46-119; count = 0 makes an empty slice and indexing it panics *)
Definition ExpandMsgXmd (msg : list Fr) (count : nat) : Circ (list Fr) :=
  let lenInBytes := (count * L)%nat in
  let ell := ((lenInBytes + Sha256Size - 1) / Sha256Size)%nat in
  b0 <- shaOf (b0Preimage msg lenInBytes) ;;
  b1 <- shaOf (b1Preimage b0 1) ;;
  assert (Nat.leb Sha256Size lenInBytes) ;;;
  let prb := map (fun i => nth i b1 fr0) (seq 0 Sha256Size) ++ map (fun _ => u8 0) (seq Sha256Size (lenInBytes - Sha256Size)) in
  ' (_, prb) <- mfold (xmdStep b0 lenInBytes) (seq 2 (ell - 1)) (b1, prb) ;;
  Ret prb.

(** hashG2.go:130-140: byte j goes to bits 64-8(j+1) .. 64-8j-1 *)
Definition GetUint64From8Bytes (v : list Fr) : Circ Fr :=
  bs <- mmap (api_ToBinary 8) v ;;
  Ret (fromUint (List.concat (rev bs))).

(** integer with the given 64-bit limbs, least significant first *)
Fixpoint recompose64 (l : list Z) : Z :=
  match l with [] => 0 | x :: t => x + 2 ^ 64 * recompose64 t end.

(** hashG2.go:156-171: emulated.RemHint returns the remainder of the recomposed
    input by the modulus; NewElement only range-checks the six limbs (64 bits,
    the last one 61 bits).  Nothing relates the limbs to the inputs. *)
Definition GetRawLimbsBy8Uint64 (v : list Fr) : Circ Fp :=
  Ask Z (Some (recompose64 (map fval v) mod pBLS)) (fun z =>
    assert ((0 <=? z) && (z <? 2 ^ 381)) ;;;
    Ret (fpZ z)).

(** hashG2.go:679-687, body of the loop on i *)
Definition fieldElement (emx : list Fr) (i : nat) : Circ Fp :=
  limbs <- mmap (fun j =>
    GetUint64From8Bytes (firstn 8 (skipn (64 * (i + 1) - 8 * (j + 1)) emx))) (seq 0 8) ;;
  GetRawLimbsBy8Uint64 limbs.

(** hashG2.go:676-700 *)
Definition HashToField (msg : list Fr) (count : nat) : Circ (list E2) :=
  emx <- ExpandMsgXmd msg count ;;
  u <- mmap (fieldElement emx) (seq 0 count) ;;
  Ret (map (fun n => mkE2 (nth (n * 2) u fp0) (nth (n * 2 + 1) u fp0)) (seq 0 (count / 2))).
