(** Property theorems C01-C04: the SHA-256 gadget. *)
From Coq Require Import ZArith List Bool.
From Verif Require Import Params ZMod Circuit Api Sha256 Sha256Spec Sha256Words Sha256Proofs Sha256Session.
Import ListNotations.
Open Scope Z_scope.

(** C01: New, one Write and Sum give the FIPS 180-4 hash *)
Theorem C01_sha256_fips (p : list Fr) :
  Forall (fun x => fval x < 256) p -> 8 * Z.of_nat (length p) < 2 ^ 64 ->
  run (d <- Write New p ;; Sum d) = Some (map (ofZ rBN) (sha256 (map fval p))).
Proof. exact (sha_run p). Qed.
Print Assumptions C01_sha256_fips.

(** the round constants and the initial state are the root expansions of FIPS 180-4 *)
Theorem C01_constants :
  shaK = map (frac_root 3) primes64 /\
  map fromUint [wa shaInit; wb shaInit; wc shaInit; wd shaInit; we shaInit; wf shaInit; wg shaInit; wh shaInit]
  = map (ofZ rBN) (map (frac_root 2) (firstn 8 primes64)).
Proof. exact sha_constants. Qed.
Print Assumptions C01_constants.

(** "abc": hypotheses hold and the digest is the one printed in FIPS 180-4 *)
Example C01_abc :
  run (d <- Write New (map (ofZ rBN) [97; 98; 99]) ;; Sum d)
  = Some (map (ofZ rBN)
     [0xba;0x78;0x16;0xbf;0x8f;0x01;0xcf;0xea;0x41;0x41;0x40;0xde;0x5d;0xae;0x22;0x23;
      0xb0;0x03;0x61;0xa3;0x96;0x17;0x7a;0x9c;0xb4;0x10;0xff;0x61;0xf2;0x00;0x15;0xad]).
Proof. exact abc_run. Qed.

(** C02: any program of Write, Sum and Reset calls on one hasher: every Sum
    returns the hash of what was written since the last Reset, however it was
    cut into chunks and whatever Sums were taken in between *)
Theorem C02_sessions (cs : list call) :
  Forall (fun x => fval x < 256) (written cs) -> 8 * Z.of_nat (length (written cs)) < 2 ^ 64 ->
  run (session cs New) = Some (map (fun m => map (ofZ rBN) (sha256 (map fval m))) (absorbed cs [])).
Proof. exact (session_run cs). Qed.
Print Assumptions C02_sessions.

Example C02_session_example :
  let a := map (ofZ rBN) [97] in let b := map (ofZ rBN) [98; 99] in
  absorbed [CWrite a; CSum; CWrite []; CWrite b; CSum; CSum; CReset; CWrite b; CSum] [] = [a; a ++ b; a ++ b; b] /\
  written [CWrite a; CSum; CWrite []; CWrite b; CSum; CSum; CReset; CWrite b; CSum] = a ++ b ++ b.
Proof. split; reflexivity. Qed.

(** C03: whatever the prover assigns, an accepted session was fed bytes only
    and returned the true digests *)
Theorem C03_sound (cs : list call) (outs : list (list Fr)) :
  sat (session cs New) outs -> 8 * Z.of_nat (length (written cs)) < 2 ^ 64 ->
  Forall (fun x => fval x < 256) (written cs) /\
  outs = map (fun m => map (ofZ rBN) (sha256 (map fval m))) (absorbed cs []).
Proof. exact (session_sat cs outs). Qed.
Print Assumptions C03_sound.

Example C03_not_a_byte : forall outs, ~ sat (session [CWrite [ofZ rBN 256]; CSum] New) outs.
Proof. exact not_a_byte. Qed.

(** C04: the word gadgets, on the little-endian bit encoding [bitsF n] *)
Theorem C04_bitwise (n : nat) (zs : list Z) (o : word) :
  (sat (u_xor n (map (bitsF n) zs)) o <-> o = bitsF n (fold_left Z.lxor zs 0)) /\
  (sat (u_or n (map (bitsF n) zs)) o <-> o = bitsF n (fold_left Z.lor zs 0)) /\
  (sat (u_and n (map (bitsF n) zs)) o <-> o = bitsF n (fold_left Z.land zs (-1))).
Proof. exact (bitwise_sat n zs o). Qed.
Print Assumptions C04_bitwise.

Theorem C04_not (n : nat) (z : Z) (o : word) :
  sat (u_not n (bitsF n z)) o <-> o = bitsF n (2 ^ Z.of_nat n - 1 - z).
Proof. exact (determ_sat _ _ (u_not_det n z) o). Qed.
Print Assumptions C04_not.

Theorem C04_shifts (n s : nat) (z : Z) : (s <= n)%nat -> 0 <= z < 2 ^ Z.of_nat n ->
  u_rshift n (bitsF n z) s = bitsF n (z / 2 ^ Z.of_nat s) /\
  u_lshift n (bitsF n z) s = bitsF n ((z * 2 ^ Z.of_nat s) mod 2 ^ Z.of_nat n).
Proof. exact (shifts_spec n s z). Qed.
Print Assumptions C04_shifts.

Theorem C04_rotate (n : nat) (r z : Z) : 0 < r < Z.of_nat n -> 0 <= z < 2 ^ Z.of_nat n ->
  u_lrot n (bitsF n z) (- r) = bitsF n (z / 2 ^ r + (z mod 2 ^ r) * 2 ^ (Z.of_nat n - r)).
Proof. exact (rotate_spec n r z). Qed.
Print Assumptions C04_rotate.

Theorem C04_add (a b : Z) (zs : list Z) (o : word) :
  0 <= a < 2 ^ 32 -> 0 <= b < 2 ^ 32 -> Forall (fun z => 0 <= z < 2 ^ 32) zs -> (length zs <= 200)%nat ->
  sat (u_add (bitsF 32 a) (bitsF 32 b) (map (bitsF 32) zs)) o <-> o = bitsF 32 (fold_left Z.add zs (a + b) mod 2 ^ 32).
Proof. exact (fun Ha Hb Hz Hl => determ_sat _ _ (u_add_det a b zs Ha Hb Hz Hl) o). Qed.
Print Assumptions C04_add.

Theorem C04_range (n : nat) (x : Fr) (o : word) : 2 ^ Z.of_nat n <= rBN ->
  sat (asUint n x) o <-> fval x < 2 ^ Z.of_nat n /\ o = bitsF n (fval x).
Proof. exact (asUint_sat n x o). Qed.
Print Assumptions C04_range.

Theorem C04_assert_eq (n : nat) (a b : Z) : 0 <= a < 2 ^ Z.of_nat n -> 0 <= b < 2 ^ Z.of_nat n ->
  forall u, sat (u_assertEq n (bitsF n a) (bitsF n b)) u <-> a = b.
Proof. exact (assertEq_sat n a b). Qed.
Print Assumptions C04_assert_eq.

Example C04_add_example :
  determ (u_add (bitsF 32 0xffffffff) (bitsF 32 0xffffffff) [bitsF 32 0xffffffff; bitsF 32 5]) (bitsF 32 2).
Proof. exact add_example. Qed.
