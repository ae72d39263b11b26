(** The Poseidon tables of widths 5, 6, 8, 9, 10, 12 pass the checks of PoseidonProofs
    (which are proved sound there); evaluated by the kernel. *)
From Coq Require Import ZArith List.
From Verif Require Import PoseidonTables PoseidonProofs.
Lemma width_5 : width_ok 5 60 472 30698 tabC_5 tabS_5 tabM_5 tabP_5 = true.
Proof. vm_cast_no_check (eq_refl true). Qed.
Lemma width_6 : width_ok 6 60 507 32957 tabC_6 tabS_6 tabM_6 tabP_6 = true.
Proof. vm_cast_no_check (eq_refl true). Qed.
Lemma width_8 : width_ok 8 64 754 48965 tabC_8 tabS_8 tabM_8 tabP_8 = true.
Proof. vm_cast_no_check (eq_refl true). Qed.
Lemma width_9 : width_ok 9 63 837 54347 tabC_9 tabS_9 tabM_9 tabP_9 = true.
Proof. vm_cast_no_check (eq_refl true). Qed.
Lemma width_10 : width_ok 10 60 886 57611 tabC_10 tabS_10 tabM_10 tabP_10 = true.
Proof. vm_cast_no_check (eq_refl true). Qed.
Lemma width_12 : width_ok 12 60 1072 69523 tabC_12 tabS_12 tabM_12 tabP_12 = true.
Proof. vm_cast_no_check (eq_refl true). Qed.
