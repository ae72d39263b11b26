(** The parsers applied to the texts give the tables of the model. *)
From Coq Require Import ZArith Ascii String List.
From Verif Require Import PoseidonTables Parse ParseText.
Import ListNotations.

Lemma parC_2 : parseOneDimensionArray (lit txtC_2) = Some tabC_2.
Proof. vm_cast_no_check (eq_refl (Some tabC_2)). Qed.
Lemma parC_3 : parseOneDimensionArray (lit txtC_3) = Some tabC_3.
Proof. vm_cast_no_check (eq_refl (Some tabC_3)). Qed.
Lemma parC_4 : parseOneDimensionArray (lit txtC_4) = Some tabC_4.
Proof. vm_cast_no_check (eq_refl (Some tabC_4)). Qed.
Lemma parC_5 : parseOneDimensionArray (lit txtC_5) = Some tabC_5.
Proof. vm_cast_no_check (eq_refl (Some tabC_5)). Qed.
Lemma parC_6 : parseOneDimensionArray (lit txtC_6) = Some tabC_6.
Proof. vm_cast_no_check (eq_refl (Some tabC_6)). Qed.
Lemma parC_7 : parseOneDimensionArray (lit txtC_7) = Some tabC_7.
Proof. vm_cast_no_check (eq_refl (Some tabC_7)). Qed.
Lemma parC_8 : parseOneDimensionArray (lit txtC_8) = Some tabC_8.
Proof. vm_cast_no_check (eq_refl (Some tabC_8)). Qed.
Lemma parC_9 : parseOneDimensionArray (lit txtC_9) = Some tabC_9.
Proof. vm_cast_no_check (eq_refl (Some tabC_9)). Qed.
Lemma parC_10 : parseOneDimensionArray (lit txtC_10) = Some tabC_10.
Proof. vm_cast_no_check (eq_refl (Some tabC_10)). Qed.
Lemma parC_11 : parseOneDimensionArray (lit txtC_11) = Some tabC_11.
Proof. vm_cast_no_check (eq_refl (Some tabC_11)). Qed.
Lemma parC_12 : parseOneDimensionArray (lit txtC_12) = Some tabC_12.
Proof. vm_cast_no_check (eq_refl (Some tabC_12)). Qed.
Lemma parC_13 : parseOneDimensionArray (lit txtC_13) = Some tabC_13.
Proof. vm_cast_no_check (eq_refl (Some tabC_13)). Qed.
Lemma parC_14 : parseOneDimensionArray (lit txtC_14) = Some tabC_14.
Proof. vm_cast_no_check (eq_refl (Some tabC_14)). Qed.
Lemma parC_15 : parseOneDimensionArray (lit txtC_15) = Some tabC_15.
Proof. vm_cast_no_check (eq_refl (Some tabC_15)). Qed.
Lemma parC_16 : parseOneDimensionArray (lit txtC_16) = Some tabC_16.
Proof. vm_cast_no_check (eq_refl (Some tabC_16)). Qed.
Lemma parC_17 : parseOneDimensionArray (lit txtC_17) = Some tabC_17.
Proof. vm_cast_no_check (eq_refl (Some tabC_17)). Qed.
Lemma parM_2 : parseTwoDimensionArray (lit txtM_2) = Some tabM_2.
Proof. vm_cast_no_check (eq_refl (Some tabM_2)). Qed.
Lemma parM_3 : parseTwoDimensionArray (lit txtM_3) = Some tabM_3.
Proof. vm_cast_no_check (eq_refl (Some tabM_3)). Qed.
Lemma parM_4 : parseTwoDimensionArray (lit txtM_4) = Some tabM_4.
Proof. vm_cast_no_check (eq_refl (Some tabM_4)). Qed.
Lemma parM_5 : parseTwoDimensionArray (lit txtM_5) = Some tabM_5.
Proof. vm_cast_no_check (eq_refl (Some tabM_5)). Qed.
Lemma parM_6 : parseTwoDimensionArray (lit txtM_6) = Some tabM_6.
Proof. vm_cast_no_check (eq_refl (Some tabM_6)). Qed.
Lemma parM_7 : parseTwoDimensionArray (lit txtM_7) = Some tabM_7.
Proof. vm_cast_no_check (eq_refl (Some tabM_7)). Qed.
Lemma parM_8 : parseTwoDimensionArray (lit txtM_8) = Some tabM_8.
Proof. vm_cast_no_check (eq_refl (Some tabM_8)). Qed.
Lemma parM_9 : parseTwoDimensionArray (lit txtM_9) = Some tabM_9.
Proof. vm_cast_no_check (eq_refl (Some tabM_9)). Qed.
Lemma parM_10 : parseTwoDimensionArray (lit txtM_10) = Some tabM_10.
Proof. vm_cast_no_check (eq_refl (Some tabM_10)). Qed.
Lemma parM_11 : parseTwoDimensionArray (lit txtM_11) = Some tabM_11.
Proof. vm_cast_no_check (eq_refl (Some tabM_11)). Qed.
Lemma parM_12 : parseTwoDimensionArray (lit txtM_12) = Some tabM_12.
Proof. vm_cast_no_check (eq_refl (Some tabM_12)). Qed.
Lemma parM_13 : parseTwoDimensionArray (lit txtM_13) = Some tabM_13.
Proof. vm_cast_no_check (eq_refl (Some tabM_13)). Qed.
Lemma parM_14 : parseTwoDimensionArray (lit txtM_14) = Some tabM_14.
Proof. vm_cast_no_check (eq_refl (Some tabM_14)). Qed.
Lemma parM_15 : parseTwoDimensionArray (lit txtM_15) = Some tabM_15.
Proof. vm_cast_no_check (eq_refl (Some tabM_15)). Qed.
Lemma parM_16 : parseTwoDimensionArray (lit txtM_16) = Some tabM_16.
Proof. vm_cast_no_check (eq_refl (Some tabM_16)). Qed.
Lemma parM_17 : parseTwoDimensionArray (lit txtM_17) = Some tabM_17.
Proof. vm_cast_no_check (eq_refl (Some tabM_17)). Qed.
Lemma parP_2 : parseTwoDimensionArray (lit txtP_2) = Some tabP_2.
Proof. vm_cast_no_check (eq_refl (Some tabP_2)). Qed.
Lemma parP_3 : parseTwoDimensionArray (lit txtP_3) = Some tabP_3.
Proof. vm_cast_no_check (eq_refl (Some tabP_3)). Qed.
Lemma parP_4 : parseTwoDimensionArray (lit txtP_4) = Some tabP_4.
Proof. vm_cast_no_check (eq_refl (Some tabP_4)). Qed.
Lemma parP_5 : parseTwoDimensionArray (lit txtP_5) = Some tabP_5.
Proof. vm_cast_no_check (eq_refl (Some tabP_5)). Qed.
Lemma parP_6 : parseTwoDimensionArray (lit txtP_6) = Some tabP_6.
Proof. vm_cast_no_check (eq_refl (Some tabP_6)). Qed.
Lemma parP_7 : parseTwoDimensionArray (lit txtP_7) = Some tabP_7.
Proof. vm_cast_no_check (eq_refl (Some tabP_7)). Qed.
Lemma parP_8 : parseTwoDimensionArray (lit txtP_8) = Some tabP_8.
Proof. vm_cast_no_check (eq_refl (Some tabP_8)). Qed.
Lemma parP_9 : parseTwoDimensionArray (lit txtP_9) = Some tabP_9.
Proof. vm_cast_no_check (eq_refl (Some tabP_9)). Qed.
Lemma parP_10 : parseTwoDimensionArray (lit txtP_10) = Some tabP_10.
Proof. vm_cast_no_check (eq_refl (Some tabP_10)). Qed.
Lemma parP_11 : parseTwoDimensionArray (lit txtP_11) = Some tabP_11.
Proof. vm_cast_no_check (eq_refl (Some tabP_11)). Qed.
Lemma parP_12 : parseTwoDimensionArray (lit txtP_12) = Some tabP_12.
Proof. vm_cast_no_check (eq_refl (Some tabP_12)). Qed.
Lemma parP_13 : parseTwoDimensionArray (lit txtP_13) = Some tabP_13.
Proof. vm_cast_no_check (eq_refl (Some tabP_13)). Qed.
Lemma parP_14 : parseTwoDimensionArray (lit txtP_14) = Some tabP_14.
Proof. vm_cast_no_check (eq_refl (Some tabP_14)). Qed.
Lemma parP_15 : parseTwoDimensionArray (lit txtP_15) = Some tabP_15.
Proof. vm_cast_no_check (eq_refl (Some tabP_15)). Qed.
Lemma parP_16 : parseTwoDimensionArray (lit txtP_16) = Some tabP_16.
Proof. vm_cast_no_check (eq_refl (Some tabP_16)). Qed.
Lemma parP_17 : parseTwoDimensionArray (lit txtP_17) = Some tabP_17.
Proof. vm_cast_no_check (eq_refl (Some tabP_17)). Qed.
Lemma parS_2 : parseOneDimensionArray (lit txtS_2) = Some tabS_2.
Proof. vm_cast_no_check (eq_refl (Some tabS_2)). Qed.
Lemma parS_3 : parseOneDimensionArray (lit txtS_3) = Some tabS_3.
Proof. vm_cast_no_check (eq_refl (Some tabS_3)). Qed.

Lemma parC t : parseOneDimensionArray (lit (strPOSEIDON_C t)) = POSEIDON_C t.
Proof.
  do 2 (destruct t as [|t]; [reflexivity|]).
  destruct t as [|t]; [exact parC_2|].
  destruct t as [|t]; [exact parC_3|].
  destruct t as [|t]; [exact parC_4|].
  destruct t as [|t]; [exact parC_5|].
  destruct t as [|t]; [exact parC_6|].
  destruct t as [|t]; [exact parC_7|].
  destruct t as [|t]; [exact parC_8|].
  destruct t as [|t]; [exact parC_9|].
  destruct t as [|t]; [exact parC_10|].
  destruct t as [|t]; [exact parC_11|].
  destruct t as [|t]; [exact parC_12|].
  destruct t as [|t]; [exact parC_13|].
  destruct t as [|t]; [exact parC_14|].
  destruct t as [|t]; [exact parC_15|].
  destruct t as [|t]; [exact parC_16|].
  destruct t as [|t]; [exact parC_17|].
  reflexivity.
Qed.

Lemma parM t : parseTwoDimensionArray (lit (strPOSEIDON_M t)) = POSEIDON_M t.
Proof.
  do 2 (destruct t as [|t]; [reflexivity|]).
  destruct t as [|t]; [exact parM_2|].
  destruct t as [|t]; [exact parM_3|].
  destruct t as [|t]; [exact parM_4|].
  destruct t as [|t]; [exact parM_5|].
  destruct t as [|t]; [exact parM_6|].
  destruct t as [|t]; [exact parM_7|].
  destruct t as [|t]; [exact parM_8|].
  destruct t as [|t]; [exact parM_9|].
  destruct t as [|t]; [exact parM_10|].
  destruct t as [|t]; [exact parM_11|].
  destruct t as [|t]; [exact parM_12|].
  destruct t as [|t]; [exact parM_13|].
  destruct t as [|t]; [exact parM_14|].
  destruct t as [|t]; [exact parM_15|].
  destruct t as [|t]; [exact parM_16|].
  destruct t as [|t]; [exact parM_17|].
  reflexivity.
Qed.

Lemma parP t : parseTwoDimensionArray (lit (strPOSEIDON_P t)) = POSEIDON_P t.
Proof.
  do 2 (destruct t as [|t]; [reflexivity|]).
  destruct t as [|t]; [exact parP_2|].
  destruct t as [|t]; [exact parP_3|].
  destruct t as [|t]; [exact parP_4|].
  destruct t as [|t]; [exact parP_5|].
  destruct t as [|t]; [exact parP_6|].
  destruct t as [|t]; [exact parP_7|].
  destruct t as [|t]; [exact parP_8|].
  destruct t as [|t]; [exact parP_9|].
  destruct t as [|t]; [exact parP_10|].
  destruct t as [|t]; [exact parP_11|].
  destruct t as [|t]; [exact parP_12|].
  destruct t as [|t]; [exact parP_13|].
  destruct t as [|t]; [exact parP_14|].
  destruct t as [|t]; [exact parP_15|].
  destruct t as [|t]; [exact parP_16|].
  destruct t as [|t]; [exact parP_17|].
  reflexivity.
Qed.
