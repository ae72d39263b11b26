(** The circomlib test vector Poseidon(1, 2), evaluated on the fast residues. *)
From Coq Require Import ZArith List Bool Lia.
From Verif Require Import Params ZMod FastMod FastParams Fast10 PoseidonTables Poseidon PoseidonSpec PoseidonLin PoseidonFast PoseidonCode PoseidonGrain PoseidonProofs.
Import ListNotations.
Open Scope Z_scope.
Local Notation fr0 := (f0 rBN).

Definition Lpow5 (x : V10) : V10 := mulV x (mulV x (mulV x (mulV x x))).
Definition Lsboxes (full : bool) (st : FV) : FV :=
  if full then map Lpow5 st else match st with [] => [] | x :: xs => Lpow5 x :: xs end.
Definition Lround (rc : FV) (M : list FV) (t nP : nat) (st : FV) (r : nat) : FV :=
  Lmv M (Lsboxes ((r <? 4)%nat || (4 + nP <=? r)%nat) (Lvadd st (slice rc (r * t) t))).
Definition Lperm (rc : FV) (M : list FV) (t nP : nat) (st : FV) : FV := fold_left (Lround rc M t nP) (seq 0 (8 + nP)) st.
Lemma SV_pow5 x y : stR x y -> stR (Lpow5 x) (pow5 y).
Proof. intros H. unfold Lpow5, pow5. repeat (apply stR_mul; [exact H|]). exact H. Qed.
Lemma SV_sboxes full a u : SV a u -> SV (Lsboxes full a) (sboxes full u).
Proof.
  intros H. destruct full; cbn [Lsboxes sboxes].
  - induction H; cbn [map]; constructor; [now apply SV_pow5 | assumption].
  - destruct H; constructor; [now apply SV_pow5 | assumption].
Qed.
Lemma SV_perm lrc rc lM M t nP a u : SV lrc rc -> SM lM M -> SV a u -> SV (Lperm lrc lM t nP a) (permutation rc M t nP u).
Proof.
  intros Hr HM. unfold Lperm, permutation. generalize (seq 0 (8 + nP)). intros l. revert a u.
  induction l as [|r l IH]; intros a u Ha; [exact Ha|]. cbn [fold_left]. apply IH. apply SV_mv; [exact HM|].
  apply SV_sboxes. apply SV_vadd; [exact Ha|]. now apply SV_slice.
Qed.
Definition vec_check (nP : nat) (rc c s : list Z) (m p : list (list Z)) (zs : list Z) (v : Z) : bool :=
  let t := S (length zs) in
  tables_ok t nP rc c s m p && forallb inR rc && forallb (forallb inR) (transp t m) && forallb inR zs && inR v &&
  meq (hd zL (Lperm (Lin rc) (map Lin (transp t m)) t nP (zL :: Lin zs))) (inV v).
Lemma vec_ok nP rc c s m p zs v : vec_check nP rc c s m p zs v = true -> (1 <= length zs)%nat ->
  nth_error nRoundsPC (length zs - 1) = Some nP ->
  POSEIDON_C (S (length zs)) = Some c -> POSEIDON_S (S (length zs)) = Some s ->
  POSEIDON_M (S (length zs)) = Some m -> POSEIDON_P (S (length zs)) = Some p ->
  Poseidon (map (ofZ rBN) zs) = Some (ofZ rBN v).
Proof.
  intros H L En E1 E2 E3 E4. unfold vec_check in H. cbv zeta in H. rewrite !andb_true_iff in H. destruct H as (((((H1 & H2) & H3) & H4) & H5) & H6).
  unfold Poseidon. rewrite (PoseidonEx_core (map (ofZ rBN) zs) fr0 1 nP c s m p) by (rewrite map_length; assumption).
  rewrite map_length. rewrite (tables_sound _ _ _ _ _ _ _ H1) by (cbn [length]; now rewrite map_length). cbn [obind nth_error]. refine (f_equal Some _).
  assert (Sh : forall a u, SV a u -> stR (hd zL a) (hd fr0 u)) by (intros a u K; destruct K; [apply stR_0 | assumption]).
  refine (meq_ok _ _ _ _ (Sh _ _ (SV_perm _ _ _ _ _ nP _ _ (SV_in _ H2) (SM_in _ H3) (Forall2_cons _ _ stR_0 (SV_in _ H4)))) (stR_in v H5) H6).
Qed.
Definition rc3 : list Z := filter (fun z => z <? rBN) (firstn 265 (gnums 3 57 17266)).
Definition vec12 : Z := 0x115cc0f5e7d690413df64c6b9662e9cf2a3617f2743245519e19607a4417189a.
Lemma vec_checked : vec_check 57 rc3 tabC_3 tabS_3 tabM_3 tabP_3 [1; 2] vec12 = true.
Proof. vm_cast_no_check (eq_refl true). Qed.
Lemma vector12 : Poseidon (map (ofZ rBN) [1; 2]) = Some (ofZ rBN vec12).
Proof. exact (vec_ok _ _ _ _ _ _ _ _ vec_checked (le_S _ _ (le_n 1)) eq_refl eq_refl eq_refl eq_refl eq_refl). Qed.
