(** Evaluation of the hash on literals, for widths whose tables have been
    checked, and the commitment to ten equal validators used by the examples. *)
From Coq Require Import ZArith List Bool Lia.
From Verif Require Import Params ZMod FastMod FastParams Fast10 PoseidonTables Poseidon PoseidonSpec PoseidonLin PoseidonFast PoseidonCode
  PoseidonGrain PoseidonProofs PoseidonWidthsA PoseidonExample.
Import ListNotations.
Open Scope Z_scope.
Local Notation fr0 := (f0 rBN).

Definition evals (t nP k : nat) (N : positive) (m : list (list Z)) (l : list (list Z * Z)) : bool :=
  let rc := filter (fun z => z <? rBN) (firstn (S k) (gnums t nP N)) in
  let lrc := Lin rc in
  let lM := map Lin (transp t m) in
  forallb inR rc && forallb (forallb inR) (transp t m) &&
  forallb (fun zv => Nat.eqb (S (length (fst zv))) t && forallb inR (fst zv) && inR (snd zv) &&
    meq (hd zL (Lperm lrc lM t nP (zL :: Lin (fst zv)))) (inV (snd zv))) l.
Lemma firstn_S_skipn {A} (l : list A) k v r : skipn k l = v :: r -> firstn (S k) l = firstn k l ++ [v].
Proof.
  revert l. induction k as [|k IH]; intros [|x l] H; cbn [skipn] in H; try discriminate.
  - now injection H as -> _.
  - cbn [firstn app]. f_equal. now apply IH.
Qed.
Lemma evals_ok t nP k N c s m p l : width_ok t nP k N c s m p = true -> evals t nP k N m l = true -> (2 <= t)%nat ->
  nth_error nRoundsPC (t - 2) = Some nP ->
  POSEIDON_C t = Some c -> POSEIDON_S t = Some s -> POSEIDON_M t = Some m -> POSEIDON_P t = Some p ->
  forall zs v, In (zs, v) l -> Poseidon (map (ofZ rBN) zs) = Some (ofZ rBN v).
Proof.
  intros W H Ht En E1 E2 E3 E4 zs v I. unfold evals in H. cbv zeta in H. rewrite !andb_true_iff in H. destruct H as ((H2 & H3) & H).
  rewrite forallb_forall in H. apply H in I. cbn [fst snd] in I. rewrite !andb_true_iff, Nat.eqb_eq in I. destruct I as (((L & H4) & H5) & H6).
  unfold width_ok in W. cbv zeta in W. destruct (skipn k (gnums t nP N)) as [|x rest] eqn:Es; [discriminate|].
  rewrite (firstn_S_skipn _ _ _ _ Es) in H2, H6. rewrite !andb_true_iff in W. destruct W as ((((((_ & _) & _) & _) & _) & H1) & _).
  subst t. unfold Poseidon. rewrite (PoseidonEx_core (map (ofZ rBN) zs) fr0 1 nP c s m p); rewrite ?map_length; try assumption; try lia.
  rewrite (tables_sound _ _ _ _ _ _ _ H1) by (cbn [length]; now rewrite map_length). cbn [obind nth_error]. refine (f_equal Some _).
  assert (Sh : forall a u, SV a u -> stR (hd zL a) (hd fr0 u)) by (intros a u K; destruct K; [apply stR_0 | assumption]).
  refine (meq_ok _ _ _ _ (Sh _ _ (SV_perm _ _ _ _ _ nP _ _ (SV_in _ H2) (SM_in _ H3) (Forall2_cons _ _ stR_0 (SV_in _ H4)))) (stR_in v H5) H6).
Qed.

(** limbs of the generator of G1, its two hashes, the commitment to it with
    weight 5, and the commitment to ten copies *)
Definition gXl : list Z := [18103045581585958587; 7806400890582735599; 11623291730934869080; 14080658508445169925; 2780237799254240271; 1725392847304644500].
Definition gYl : list Z := [912580534683953121; 15005087156090211044; 61670280795567085; 18227722000993880822; 11573741888802228964; 627113611842199793].
Definition gcx : Z := 0x2354d52fdba72ce2edd9526bf6ce7e7d236c98517f91243a62fa0fb9f7db9edf.
Definition gcy : Z := 0x173869680a157f3f000bb2c3d68a8f80542f07d097486900e9dc0993f6362757.
Definition gk5 : Z := 0x109b9ddc79284c19855884a8f6654553d7fc254e3091ce9ed5746a18c1eee8a5.
Definition gc5 : Z := 0x5753ef998c186d65ad80917d30a49492c6a7790163ddcbee29a1255e0d2355.
(** the same for twice the generator, and the commitment to ten validators of
    which the fourth has that key *)
Definition dXl : list Z := [14094732281209884494; 16325396622661680194; 4868440721437795882; 10890226375598801189; 9802305501968024844; 392600325838432070].
Definition dYl : list Z := [13440579780927069480; 5500823502876753179; 17815036169728022378; 2502381586812560481; 2521354381255609912; 1615276643868636067].
Definition dcx : Z := 0x14b87955f939651f8e41236224f3c53b0e7d2e11d950c0f1d7bdfbd294166b4.
Definition dcy : Z := 0x1e1ce1f2ac5da7d7732b6c8e7bfd15713a1442d90c89b1b2920d32a09ce4f812.
Definition dk5 : Z := 0x2e609c27ff90542063225a18a0d36a85f92530a01c35e5d41b0d7ce60b5ae1b0.
Definition dc5 : Z := 0x2268e9079d0f3c2645a8e68463a121c21e01cef200f4351deec4c1bc65da525b.
Definition dks : list Z := [gk5; gk5; gk5; dk5; gk5; gk5; gk5; gk5; gk5; gk5].
Lemma ev7 : evals 7 63 648 42011 tabM_7 [(gXl, gcx); (gYl, gcy); (dXl, dcx); (dYl, dcy)] = true.
Proof. vm_cast_no_check (eq_refl true). Qed.
Lemma ev4 : evals 4 56 333 21639 tabM_4 [([gcx; gcy; 5], gk5); ([dcx; dcy; 5], dk5)] = true.
Proof. vm_cast_no_check (eq_refl true). Qed.
Lemma ev11 : evals 11 66 1086 70495 tabM_11 [(repeat gk5 10, gc5); (dks, dc5)] = true.
Proof. vm_cast_no_check (eq_refl true). Qed.
Lemma hash_gX : Poseidon (map (ofZ rBN) gXl) = Some (ofZ rBN gcx).
Proof. exact (evals_ok _ _ _ _ _ _ _ _ _ width_7 ev7 ltac:(lia) eq_refl eq_refl eq_refl eq_refl eq_refl _ _ (or_introl eq_refl)). Qed.
Lemma hash_gY : Poseidon (map (ofZ rBN) gYl) = Some (ofZ rBN gcy).
Proof. exact (evals_ok _ _ _ _ _ _ _ _ _ width_7 ev7 ltac:(lia) eq_refl eq_refl eq_refl eq_refl eq_refl _ _ (or_intror (or_introl eq_refl))). Qed.
Lemma hash_gk : Poseidon (map (ofZ rBN) [gcx; gcy; 5]) = Some (ofZ rBN gk5).
Proof. exact (evals_ok _ _ _ _ _ _ _ _ _ width_4 ev4 ltac:(lia) eq_refl eq_refl eq_refl eq_refl eq_refl _ _ (or_introl eq_refl)). Qed.
Lemma hash_gc : Poseidon (map (ofZ rBN) (repeat gk5 10)) = Some (ofZ rBN gc5).
Proof. exact (evals_ok _ _ _ _ _ _ _ _ _ width_11 ev11 ltac:(lia) eq_refl eq_refl eq_refl eq_refl eq_refl _ _ (or_introl eq_refl)). Qed.
Lemma hash_dX : Poseidon (map (ofZ rBN) dXl) = Some (ofZ rBN dcx).
Proof. exact (evals_ok _ _ _ _ _ _ _ _ _ width_7 ev7 ltac:(lia) eq_refl eq_refl eq_refl eq_refl eq_refl _ _ (or_intror (or_intror (or_introl eq_refl)))). Qed.
Lemma hash_dY : Poseidon (map (ofZ rBN) dYl) = Some (ofZ rBN dcy).
Proof. exact (evals_ok _ _ _ _ _ _ _ _ _ width_7 ev7 ltac:(lia) eq_refl eq_refl eq_refl eq_refl eq_refl _ _ (or_intror (or_intror (or_intror (or_introl eq_refl))))). Qed.
Lemma hash_dk : Poseidon (map (ofZ rBN) [dcx; dcy; 5]) = Some (ofZ rBN dk5).
Proof. exact (evals_ok _ _ _ _ _ _ _ _ _ width_4 ev4 ltac:(lia) eq_refl eq_refl eq_refl eq_refl eq_refl _ _ (or_intror (or_introl eq_refl))). Qed.
Lemma hash_dc : Poseidon (map (ofZ rBN) dks) = Some (ofZ rBN dc5).
Proof. exact (evals_ok _ _ _ _ _ _ _ _ _ width_11 ev11 ltac:(lia) eq_refl eq_refl eq_refl eq_refl eq_refl _ _ (or_intror (or_introl eq_refl))). Qed.
