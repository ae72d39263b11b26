(** The Poseidon tables of widths 13, 14, 15 pass the checks of PoseidonProofs
    (which are proved sound there); evaluated by the kernel. *)
From Coq Require Import ZArith List.
From Verif Require Import PoseidonTables PoseidonProofs.
Lemma width_13 : width_ok 13 65 1245 80709 tabC_13 tabS_13 tabM_13 tabP_13 = true.
Proof. vm_cast_no_check (eq_refl true). Qed.
Lemma width_14 : width_ok 14 70 1442 93454 tabC_14 tabS_14 tabM_14 tabP_14 = true.
Proof. vm_cast_no_check (eq_refl true). Qed.
Lemma width_15 : width_ok 15 60 1325 86151 tabC_15 tabS_15 tabM_15 tabP_15 = true.
Proof. vm_cast_no_check (eq_refl true). Qed.
