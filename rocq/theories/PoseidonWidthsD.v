(** The Poseidon tables of widths 16, 17 pass the checks of PoseidonProofs
    (which are proved sound there); evaluated by the kernel. *)
From Coq Require Import ZArith List.
From Verif Require Import PoseidonTables PoseidonProofs.
Lemma width_16 : width_ok 16 64 1528 99208 tabC_16 tabS_16 tabM_16 tabP_16 = true.
Proof. vm_cast_no_check (eq_refl true). Qed.
Lemma width_17 : width_ok 17 68 1689 109360 tabC_17 tabS_17 tabM_17 tabP_17 = true.
Proof. vm_cast_no_check (eq_refl true). Qed.
