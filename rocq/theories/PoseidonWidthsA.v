(** The Poseidon tables of widths 2, 3, 4, 7, 11 pass the checks of PoseidonProofs
    (which are proved sound there); evaluated by the kernel. *)
From Coq Require Import ZArith List.
From Verif Require Import PoseidonTables PoseidonProofs.
Lemma width_2 : width_ok 2 56 177 11569 tabC_2 tabS_2 tabM_2 tabP_2 = true.
Proof. vm_cast_no_check (eq_refl true). Qed.
Lemma width_3 : width_ok 3 57 264 17266 tabC_3 tabS_3 tabM_3 tabP_3 = true.
Proof. vm_cast_no_check (eq_refl true). Qed.
Lemma width_4 : width_ok 4 56 333 21639 tabC_4 tabS_4 tabM_4 tabP_4 = true.
Proof. vm_cast_no_check (eq_refl true). Qed.
Lemma width_7 : width_ok 7 63 648 42011 tabC_7 tabS_7 tabM_7 tabP_7 = true.
Proof. vm_cast_no_check (eq_refl true). Qed.
Lemma width_11 : width_ok 11 66 1086 70495 tabC_11 tabS_11 tabM_11 tabP_11 = true.
Proof. vm_cast_no_check (eq_refl true). Qed.
