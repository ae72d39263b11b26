(** Property theorems C05-C07: expand_message_xmd and hash_to_field. *)
From Coq Require Import ZArith List Bool String.
From Coq Require Import List.
From Verif Require Import Params ZMod Circuit Api Tower Sha256Proofs HashField HashFieldSpec HashFieldProofs.
Import ListNotations.
Open Scope Z_scope.

(** C05, honest prover *)
Theorem C05_expand_message (msg : list Fr) (count : nat) :
  length msg = 32%nat -> Forall (fun x => fval x < 256) msg -> (1 <= count <= 127)%nat ->
  exists out,
    expand_message_xmd (map fval msg) (bytesOf "BLS_SIG_BLS12381G2_XMD:SHA-256_SSWU_RO_POP_") (64 * Z.of_nat count) = Some out /\
    run (ExpandMsgXmd msg count) = Some (map (ofZ rBN) out).
Proof. exact (xmd_run msg count). Qed.
Print Assumptions C05_expand_message.

(** C05, any prover: the message entries are bytes and the output is forced *)
Theorem C05_expand_message_sound (msg : list Fr) (count : nat) (o : list Fr) :
  length msg = 32%nat -> (1 <= count <= 127)%nat -> sat (ExpandMsgXmd msg count) o ->
  Forall (fun x => fval x < 256) msg /\
  exists out,
    expand_message_xmd (map fval msg) (bytesOf "BLS_SIG_BLS12381G2_XMD:SHA-256_SSWU_RO_POP_") (64 * Z.of_nat count) = Some out /\
    o = map (ofZ rBN) out.
Proof. exact (xmd_sat msg count o). Qed.
Print Assumptions C05_expand_message_sound.

(** the specification side always has a value in this range *)
Example C05_spec_defined : forall m count, (1 <= count <= 127)%nat ->
  exists out, expand_message_xmd m (bytesOf "BLS_SIG_BLS12381G2_XMD:SHA-256_SSWU_RO_POP_") (64 * Z.of_nat count) = Some out
   /\ length out = (64 * count)%nat /\ Forall Sha256Spec.is_byte out.
Proof. exact xmd_total. Qed.

(** the specification reproduces the vector of RFC 9380 K.1 for "abc" *)
Example C05_rfc_vector : expand_message_xmd [97; 98; 99] (bytesOf "QUUX-V01-CS02-with-expander-SHA256-128") 32 = Some
  [0xd8;0xcc;0xab;0x23;0xb5;0x98;0x5c;0xce;0xa8;0x65;0xc6;0xc9;0x7b;0x6e;0x5b;0x83;
   0x50;0xe7;0x94;0xe6;0x03;0xb4;0xb9;0x79;0x02;0xf5;0x3a;0x8a;0x0d;0x60;0x56;0x15].
Proof. exact rfc_vector. Qed.

(** C06: n elements of Fp2 from count = 2n *)
Theorem C06_hash_to_field (msg : list Fr) (n : nat) :
  length msg = 32%nat -> Forall (fun x => fval x < 256) msg -> (1 <= n <= 63)%nat ->
  exists cs,
    hash_to_field pBLS (map fval msg) (bytesOf "BLS_SIG_BLS12381G2_XMD:SHA-256_SSWU_RO_POP_") n = Some cs /\
    run (HashToField msg (2 * n)) = Some (map (fun c => mkE2 (ofZ pBLS (fst c)) (ofZ pBLS (snd c))) cs).
Proof. exact (htf_run msg n). Qed.
Print Assumptions C06_hash_to_field.

Example C06_message : length (repeat (ofZ rBN 7) 32) = 32%nat /\ Forall (fun x => fval x < 256) (repeat (ofZ rBN 7) 32).
Proof. split; [reflexivity|]. repeat first [apply Forall_nil | apply Forall_cons; [reflexivity|]]. Qed.

(** C07 is false: whatever the message, a prover can have any list of field
    elements of the right length accepted as its hash *)
Theorem C07_output_bound_refuted (msg : list Fr) (n : nat) (es : list E2) :
  length msg = 32%nat -> Forall (fun x => fval x < 256) msg -> (1 <= n <= 63)%nat -> length es = n ->
  sat (HashToField msg (2 * n)) es.
Proof. exact (htf_free msg n es). Qed.
Print Assumptions C07_output_bound_refuted.

Theorem C07_wrong_hash_refuted (msg : list Fr) (n : nat) :
  length msg = 32%nat -> Forall (fun x => fval x < 256) msg -> (1 <= n <= 63)%nat ->
  exists es, sat (HashToField msg (2 * n)) es /\
    (forall cs, hash_to_field pBLS (map fval msg) (bytesOf "BLS_SIG_BLS12381G2_XMD:SHA-256_SSWU_RO_POP_") n = Some cs ->
     es <> map (fun c => mkE2 (ofZ pBLS (fst c)) (ofZ pBLS (snd c))) cs).
Proof. exact (htf_bound_refuted msg n). Qed.
Print Assumptions C07_wrong_hash_refuted.

(** what remains true: the message entries are bytes and the number of elements is fixed *)
Theorem C07_shape_partial (msg : list Fr) (count : nat) (es : list E2) :
  length msg = 32%nat -> sat (HashToField msg count) es ->
  Forall (fun x => fval x < 256) msg /\ length es = (count / 2)%nat.
Proof. exact (htf_sat_bytes msg count es). Qed.
Print Assumptions C07_shape_partial.
