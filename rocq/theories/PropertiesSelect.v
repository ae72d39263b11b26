(** C70: selection, lookup and zero tests over the tower, the unexported
    inverse, and the unused mixing function. *)
From Coq Require Import ZArith List Bool.
From Verif Require Import Params ZMod Circuit Api Emulated Tower TowerSpec TowerFacts Poseidon PoseidonSpec SelectSpec SelectProofs.
Import ListNotations.
Open Scope Z_scope.

Theorem C70_select : selects E2_Select /\ selects E6_Select /\ selects E12_Select.
Proof. exact (conj select_2 (conj select_6 select_12)). Qed.
Print Assumptions C70_select.

(** the entry whose number is s1 + 2 s2; no prover can use a selector that is
    not a bit *)
Theorem C70_lookup : looks_up fp_Lookup2 /\ looks_up E2_Lookup2 /\ looks_up E6_Lookup2 /\ looks_up E12_Lookup2.
Proof. exact (conj lookup_fp (conj lookup_2 (conj lookup_6 lookup_12))). Qed.
Print Assumptions C70_lookup.

Theorem C70_is_zero : (forall x, decides (E2_IsZero x) (x = E2_Zero)) /\
  (forall x, decides (E6_IsZero x) (x = E6_Zero)) /\ (forall x, decides (E12_IsZero x) (x = E12_Zero)).
Proof. exact (conj iszero_2 (conj iszero_6 iszero_12)). Qed.
Print Assumptions C70_is_zero.

(** ext2.Inverse: one output for every prover, and it is the inverse; zero has
    none *)
Theorem C70_small_inverse : (forall x, x <> E2_Zero ->
    exists y, determ (e2_Inverse x) y /\ S2mul (rep2 x) (rep2 y) = S2one) /\
  unsat (e2_Inverse E2_Zero).
Proof. exact (conj small_inverse small_inverse_0). Qed.
Print Assumptions C70_small_inverse.

(** MixS on a state of t elements multiplies by the r-th sparse matrix: first
    row from position (2t-1)r of the table, first column after it, the identity
    elsewhere *)
Theorem C70_mixS (x0 : Fr) (rest : list Fr) (s : list Z) (r : nat) :
  ((2 * S (length rest) - 1) * S r <= length s)%nat ->
  MixS (x0 :: rest) s r =
    Some (inner (slice (map (ofZ rBN) s) ((2 * S (length rest) - 1) * r) (S (length rest))) (x0 :: rest) ::
          vadd rest (map (fmul x0) (slice (map (ofZ rBN) s) ((2 * S (length rest) - 1) * r + S (length rest)) (length rest)))).
Proof. exact (mixS_eq x0 rest s r). Qed.
Print Assumptions C70_mixS.

Example C70_lookup_ex :
  run (E2_Lookup2 (f1 rBN) (f0 rBN) E2_Zero E2_One E2_NonResidue E2_NonResidue) = Some E2_One /\
  ~ exists z, sat (E2_Lookup2 (ofZ rBN 2) (f0 rBN) E2_Zero E2_One E2_NonResidue E2_NonResidue) z.
Proof. exact lookup_example. Qed.
Example C70_select_ex : run (E2_Select (f1 rBN) E2_One E2_Zero) = Some E2_One /\ run (E2_Select (f0 rBN) E2_One E2_Zero) = Some E2_Zero.
Proof. split; reflexivity. Qed.
Example C70_is_zero_ex : run (E12_IsZero E12_Zero) = Some (f1 rBN) /\ run (E12_IsZero E12_One) = Some (f0 rBN).
Proof. split; vm_compute; reflexivity. Qed.
Example C70_small_inverse_ex : E2_One <> E2_Zero /\ run (e2_Inverse E2_One) = Some E2_One.
Proof. exact inverse_example. Qed.
Example C70_mixS_ex : MixS [ofZ rBN 2; ofZ rBN 3] [5; 7; 11] 0 = Some [ofZ rBN 31; ofZ rBN 25].
Proof. vm_compute. reflexivity. Qed.
