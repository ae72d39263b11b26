(** Poseidon: the three properties of the hash gadget (C37-C39). *)
From Coq Require Import ZArith List Bool Lia Ring.
From Verif Require Import Params ZMod PoseidonTables Poseidon PoseidonSpec PoseidonLin PoseidonCode PoseidonProofs
  PoseidonWidthsA PoseidonWidthsB PoseidonWidthsC PoseidonWidthsD.
Import ListNotations.
Open Scope Z_scope.
Local Notation fr0 := (f0 rBN).

Definition hash_is (inputs : list Fr) (rc : list Fr) (M : list (list Fr)) : Prop :=
  grain_params (S (length inputs)) (partial_rounds (S (length inputs))) rc M /\
  Poseidon inputs = Some (textbook_hash rc M inputs).
Lemma width_hash t nP k N c s m p : width_ok t nP k N c s m p = true -> (2 <= t)%nat ->
  nth_error nRoundsPC (t - 2) = Some nP -> partial_rounds t = nP ->
  POSEIDON_C t = Some c -> POSEIDON_S t = Some s -> POSEIDON_M t = Some m -> POSEIDON_P t = Some p ->
  forall inputs, S (length inputs) = t -> exists rc M, hash_is inputs rc M.
Proof.
  intros W Ht En Ep E1 E2 E3 E4 inputs L. destruct (width_sound _ _ _ _ _ _ _ _ W) as (rc & M & G & H).
  exists rc, M. unfold hash_is. rewrite L, Ep. split; [exact G|].
  unfold Poseidon. rewrite (PoseidonEx_core inputs fr0 1 nP c s m p); rewrite ?L; try assumption; try lia.
  - rewrite H by (cbn [length]; exact L). cbn [obind nth_error]. unfold textbook_hash. cbv zeta. rewrite L, Ep. reflexivity.
  - replace (length inputs - 1)%nat with (t - 2)%nat by lia. exact En.
Qed.
Lemma hash_exists inputs : (1 <= length inputs <= 16)%nat -> exists rc M, hash_is inputs rc M.
Proof.
  intros [L1 L2]. remember (S (length inputs)) as t eqn:Et. symmetry in Et.
  assert (Ht : (2 <= t <= 17)%nat) by lia. clear L1 L2.
  destruct t as [|[|t]]; [lia|lia|].
  destruct t as [|t]; [exact (width_hash _ _ _ _ _ _ _ _ width_2 ltac:(lia) eq_refl eq_refl eq_refl eq_refl eq_refl eq_refl inputs Et)|].
  destruct t as [|t]; [exact (width_hash _ _ _ _ _ _ _ _ width_3 ltac:(lia) eq_refl eq_refl eq_refl eq_refl eq_refl eq_refl inputs Et)|].
  destruct t as [|t]; [exact (width_hash _ _ _ _ _ _ _ _ width_4 ltac:(lia) eq_refl eq_refl eq_refl eq_refl eq_refl eq_refl inputs Et)|].
  destruct t as [|t]; [exact (width_hash _ _ _ _ _ _ _ _ width_5 ltac:(lia) eq_refl eq_refl eq_refl eq_refl eq_refl eq_refl inputs Et)|].
  destruct t as [|t]; [exact (width_hash _ _ _ _ _ _ _ _ width_6 ltac:(lia) eq_refl eq_refl eq_refl eq_refl eq_refl eq_refl inputs Et)|].
  destruct t as [|t]; [exact (width_hash _ _ _ _ _ _ _ _ width_7 ltac:(lia) eq_refl eq_refl eq_refl eq_refl eq_refl eq_refl inputs Et)|].
  destruct t as [|t]; [exact (width_hash _ _ _ _ _ _ _ _ width_8 ltac:(lia) eq_refl eq_refl eq_refl eq_refl eq_refl eq_refl inputs Et)|].
  destruct t as [|t]; [exact (width_hash _ _ _ _ _ _ _ _ width_9 ltac:(lia) eq_refl eq_refl eq_refl eq_refl eq_refl eq_refl inputs Et)|].
  destruct t as [|t]; [exact (width_hash _ _ _ _ _ _ _ _ width_10 ltac:(lia) eq_refl eq_refl eq_refl eq_refl eq_refl eq_refl inputs Et)|].
  destruct t as [|t]; [exact (width_hash _ _ _ _ _ _ _ _ width_11 ltac:(lia) eq_refl eq_refl eq_refl eq_refl eq_refl eq_refl inputs Et)|].
  destruct t as [|t]; [exact (width_hash _ _ _ _ _ _ _ _ width_12 ltac:(lia) eq_refl eq_refl eq_refl eq_refl eq_refl eq_refl inputs Et)|].
  destruct t as [|t]; [exact (width_hash _ _ _ _ _ _ _ _ width_13 ltac:(lia) eq_refl eq_refl eq_refl eq_refl eq_refl eq_refl inputs Et)|].
  destruct t as [|t]; [exact (width_hash _ _ _ _ _ _ _ _ width_14 ltac:(lia) eq_refl eq_refl eq_refl eq_refl eq_refl eq_refl inputs Et)|].
  destruct t as [|t]; [exact (width_hash _ _ _ _ _ _ _ _ width_15 ltac:(lia) eq_refl eq_refl eq_refl eq_refl eq_refl eq_refl inputs Et)|].
  destruct t as [|t]; [exact (width_hash _ _ _ _ _ _ _ _ width_16 ltac:(lia) eq_refl eq_refl eq_refl eq_refl eq_refl eq_refl inputs Et)|].
  destruct t as [|t]; [exact (width_hash _ _ _ _ _ _ _ _ width_17 ltac:(lia) eq_refl eq_refl eq_refl eq_refl eq_refl eq_refl inputs Et)|].
  exfalso. lia.
Qed.
Lemma hash_textbook inputs : (1 <= length inputs <= 16)%nat ->
  (exists rc M, grain_params (S (length inputs)) (partial_rounds (S (length inputs))) rc M) /\
  forall rc M, grain_params (S (length inputs)) (partial_rounds (S (length inputs))) rc M ->
    Poseidon inputs = Some (textbook_hash rc M inputs).
Proof.
  intros L. destruct (hash_exists inputs L) as (rc & M & G & H). split; [now exists rc, M|].
  intros rc' M' G'. destruct (grain_params_unique _ _ _ _ _ _ G G') as [<- <-]. exact H.
Qed.
Lemma hash_arity inputs : Poseidon inputs <> None <-> (1 <= length inputs <= 16)%nat.
Proof.
  split.
  - intros H. destruct (Nat.le_gt_cases 1 (length inputs)) as [L|L]; [destruct (Nat.le_gt_cases (length inputs) 16) as [L'|L']; [lia|]|];
    exfalso; apply H; unfold Poseidon, PoseidonEx; cbv zeta; rewrite Nat.add_1_r.
    + replace (S (length inputs) <? 2)%nat with false by (symmetry; apply Nat.ltb_ge; lia).
      replace (nth_error nRoundsPC (S (length inputs) - 2)) with (@None nat); [reflexivity|].
      symmetry. apply nth_error_None. cbn [length nRoundsPC]. lia.
    + replace (S (length inputs) <? 2)%nat with true by (symmetry; apply Nat.ltb_lt; lia). reflexivity.
  - intros L. destruct (hash_exists inputs L) as (rc & M & G & H). rewrite H. discriminate.
Qed.

(** ** histories of the hasher *)
Inductive hop : Set := HWrite (d : list Fr) | HSum | HReset.
(** the data written since the last reset, read off the history *)
Fixpoint since_reset (acc : list Fr) (h : list hop) : list Fr :=
  match h with
  | [] => acc
  | HWrite d :: h' => since_reset (acc ++ d) h'
  | HSum :: h' => since_reset acc h'
  | HReset :: h' => since_reset [] h'
  end.
(** run a history; the values returned by Sum, in order; None = a Sum panics *)
Fixpoint replay (m : PHasher) (h : list hop) : option (PHasher * list Fr) :=
  match h with
  | [] => Some (m, [])
  | HWrite d :: h' => replay (PWrite m d) h'
  | HReset :: h' => replay (PReset m) h'
  | HSum :: h' => match PSum m with
                  | Some (v, m') => match replay m' h' with Some (m'', vs) => Some (m'', v :: vs) | None => None end
                  | None => None end
  end.
Lemma replay_data h : forall m m' vs, replay m h = Some (m', vs) -> ph_data m' = since_reset (ph_data m) h.
Proof.
  induction h as [|[d| |] h IH]; intros m m' vs H; cbn [replay since_reset] in *.
  - injection H as <- _. reflexivity.
  - exact (IH _ _ _ H).
  - unfold PSum in H. destruct (Poseidon (ph_data m)); cbn [obind] in H; [|discriminate].
    destruct (replay _ h) as [[m1 vs1]|] eqn:E; [|discriminate]. injection H as <- _. exact (IH _ _ _ E).
  - exact (IH _ _ _ H).
Qed.
Lemma replay_app h1 : forall m h2, replay m (h1 ++ h2) =
  match replay m h1 with Some (m', vs) => match replay m' h2 with Some (m'', ws) => Some (m'', vs ++ ws) | None => None end | None => None end.
Proof.
  induction h1 as [|[d| |] h1 IH]; intros m h2; cbn [app replay].
  - destruct (replay m h2) as [[? ?]|]; reflexivity.
  - apply IH.
  - destruct (PSum m) as [[v m']|]; [|reflexivity]. rewrite IH. destruct (replay m' h1) as [[m1 vs]|]; [|reflexivity].
    destruct (replay m1 h2) as [[? ?]|]; reflexivity.
  - apply IH.
Qed.
Lemma session_sum h m vs : replay NewPoseidonHash h = Some (m, vs) ->
  forall v m', PSum m = Some (v, m') ->
    Poseidon (since_reset [] h) = Some v /\ ph_data m' = since_reset [] h /\
    replay NewPoseidonHash (h ++ [HSum]) = Some (m', vs ++ [v]).
Proof.
  intros H v m' S. pose proof (replay_data _ _ _ _ H) as D. cbn [NewPoseidonHash ph_data] in D.
  rewrite replay_app, H. cbn [replay]. rewrite S. unfold PSum in S. rewrite D in S.
  destruct (Poseidon (since_reset [] h)) as [w|]; cbn [obind] in S; [|discriminate]. injection S as <- <-. now repeat split.
Qed.
Lemma session_defined h m vs : replay NewPoseidonHash h = Some (m, vs) ->
  (PSum m <> None <-> (1 <= length (since_reset [] h) <= 16)%nat).
Proof.
  intros H. pose proof (replay_data _ _ _ _ H) as D. cbn [NewPoseidonHash ph_data] in D. unfold PSum. rewrite D.
  rewrite <- hash_arity. destruct (Poseidon (since_reset [] h)); cbn [obind]; split; congruence || discriminate.
Qed.
