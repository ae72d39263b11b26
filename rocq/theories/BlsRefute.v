(** Concrete witnesses: examples and negative results for C40-C46. *)
From Coq Require Import ZArith List Bool Lia Ring Field Permutation.
From Verif Require Import Params ZMod RingPow Primes Circuit Api Emulated FastMod FastParams Tower FieldFacts FastTower TowerFacts ApiFacts Pairing CurveSpec
  HashField HashG2 Poseidon Bls BlsSpec BlsProofs BlsExamples.
Import ListNotations.
Open Scope Z_scope.
Local Notation fr0 := (f0 rBN).
Local Notation fr1 := (f1 rBN).

Definition ones10 : list Fr := repeat fr1 10.
Definition first10 : list Fr := fr1 :: repeat fr0 9.
Lemma ones10_1 : Forall (fun b : Fr => fval b = 1) ones10.
Proof. unfold ones10. apply Forall_forall. intros x Hx. apply repeat_spec in Hx. subst. apply fval_fr1. Qed.
Lemma first10_only : first_only first10.
Proof.
  exists fr1, (repeat fr0 9). split; [reflexivity|]. split; [apply fval_fr1|].
  apply Forall_forall. intros x Hx. apply repeat_spec in Hx. subst. apply fval_fr0.
Qed.

(** ** one signer in the compiled circuit *)
Definition ex0 : exkey := hd (mkEx 0 0 [] []) exs.
Lemma ex0_in : In ex0 exs. Proof. left. reflexivity. Qed.
Lemma exKeys_cons : exKeys = keyE ex0 :: map keyE (tl exs). Proof. reflexivity. Qed.
Lemma ex0_x : key_x (keyE ex0) = fpZ (exX ex0). Proof. exact (proj1 (proj2 (exKeys_facts ex0 ex0_in))). Qed.
Lemma ex0_neq0 : key_x (keyE ex0) <> fp0.
Proof.
  rewrite ex0_x. change fp0 with (fpZ 0). apply (l1neq_ok _ _ _ _ (st_lit _) (st_lit _)). vm_cast_no_check (eq_refl false).
Qed.
Lemma ex0_cube : fmul (fmul (key_x (keyE ex0)) (key_x (keyE ex0))) (key_x (keyE ex0)) <> fpZ 4.
Proof.
  rewrite ex0_x. pose proof (st_lit (exX ex0)) as X.
  apply (l1neq_ok _ _ _ _ (stP_mul _ _ _ _ (stP_mul _ _ _ _ X X) X) (st_lit 4)). vm_cast_no_check (eq_refl false).
Qed.
Theorem agg_compiled_refuted : exists keys bits k, length keys = 10%nat /\ length bits = 10%nat /\
  Forall key_wf keys /\ Forall (fun k => oncurve1 (key_point k)) keys /\ is_bits bits /\ signers bits keys = [k] /\
  exists P, determ (AggregatePublicKeys_Rotate Compiled keys bits) P /\
    Aff (g1X P) (g1Y P) <> key_point k /\ ~ oncurve1 (Aff (g1X P) (g1Y P)).
Proof.
  exists exKeys, first10, (keyE ex0). split; [reflexivity|]. split; [reflexivity|]. split; [exact exKeys_wf|]. split; [exact exKeys_curve|].
  split. { destruct first10_only as (b & rest & E & B & F). rewrite E. constructor; [tauto|]. revert F. apply Forall_impl. tauto. }
  split; [rewrite exKeys_cons; exact (one_signer _ _ _ first10_only)|].
  assert (C : oncurve1 (key_point (keyE ex0))).
  { apply (proj1 (Forall_forall _ _) exKeys_curve). rewrite exKeys_cons. left. reflexivity. }
  pose proof exKeys_wf as W. rewrite exKeys_cons in W.
  destruct (aggRot_comp_one (keyE ex0) (map keyE (tl exs)) first10 eq_refl eq_refl first10_only W C ex0_neq0) as (P & D & _ & O).
  exists P. specialize (O ex0_cube). rewrite exKeys_cons. split; [exact D|]. split; [|exact O]. intros E. rewrite E in O. exact (O C).
Qed.

(** ** AddG1Points on equal operands *)
Theorem addG1_refuted : exists p R1 R2, oncurve1 (Aff (g1X p) (g1Y p)) /\ R1 <> R2 /\
  sat (AddG1Points (mkGV p false) (mkGV p false)) R1 /\ sat (AddG1Points (mkGV p false) (mkGV p false)) R2 /\
  ~ oncurve1 (Aff (g1X (gvP R1)) (g1Y (gvP R1))).
Proof.
  set (p := mkG1 fp0 (fpZ 2)).
  exists p, (nz (chordR fp1 p p)), (nz (chordR fp0 p p)). split; [|split; [|split; [|split]]].
  - unfold oncurve1, on_curve, p. cbn [g1X g1Y]. apply fval_inj. vm_compute. reflexivity.
  - intros E. apply (f_equal (fun v => fval (g1X (gvP v)))) in E. vm_compute in E. discriminate E.
  - exact (AddG1_double_free p fp1).
  - exact (AddG1_double_free p fp0).
  - unfold oncurve1, on_curve, p. intros E. apply (f_equal fval) in E. vm_compute in E. discriminate E.
Qed.

(** ** trusted weight *)
Definition exW : list Fr := frs [1; 2; 3; 4; 5; 6; 7; 8; 9; 10].
Definition zeros10 : list Fr := repeat fr0 10.
Theorem trusted_nonsigner_refuted : exists old new bits ws t,
  length old = 10%nat /\ length new = 10%nat /\ length bits = 10%nat /\ length ws = 10%nat /\
  Forall key6 old /\ Forall key6 new /\ Forall (fun b => fval b = 0) bits /\
  sat (CalculateTrustedWeight old new bits ws) t /\ fval t = 1.
Proof.
  exists (zero_key :: tl exKeys), exKeys, zeros10, exW, (ofZ rBN 1). do 4 (split; [reflexivity|]).
  assert (K : Forall key6 exKeys) by (refine (Forall_impl _ _ exKeys_wf); intros k [[H1 _] [H2 _]]; split; assumption).
  split; [constructor; [split; reflexivity|]; rewrite exKeys_cons in K |- *; now inversion K|].
  split; [exact K|]. split; [apply Forall_forall; intros x Hx; apply repeat_spec in Hx; subst; apply fval_fr0|].
  split; [|reflexivity]. apply run_sat. vm_compute. reflexivity.
Qed.
Theorem trusted_moved_refuted : exists old new bits ws t,
  length old = 10%nat /\ length new = 10%nat /\ length bits = 10%nat /\ length ws = 10%nat /\
  Forall key_wf old /\ Permutation old new /\ Forall (fun b => fval b = 1) bits /\
  sat (CalculateTrustedWeight old new bits ws) t /\ fval t = 0 /\ signed_weight bits ws = 55.
Proof.
  exists exKeys, (tl exKeys ++ [keyE ex0]), ones10, exW, fr0. do 4 (split; [reflexivity|]).
  split; [exact exKeys_wf|]. split; [rewrite exKeys_cons; cbn [tl]; apply Permutation_cons_append|].
  split; [exact ones10_1|]. split; [apply run_sat; vm_compute; reflexivity|]. split; [reflexivity|]. vm_compute. reflexivity.
Qed.
(** all ten sign, nobody moves: everything is counted *)
Lemma trusted_example : Forall (fun k => k <> zero_key) exKeys /\
  sat (CalculateTrustedWeight exKeys exKeys ones10 exW) (ofZ rBN 55).
Proof.
  split.
  - apply Forall_forall. intros k Hk E. apply in_map_iff in Hk. destruct Hk as (e & <- & He).
    assert (N : forallb (fun e => negb (hd 0 (exLX e) mod rBN =? 0)) exs = true) by (vm_compute; reflexivity).
    pose proof (proj1 (forallb_forall _ _) N e He) as Z. cbv beta in Z. apply negb_true_iff, Z.eqb_neq in Z. apply Z.
    apply (f_equal (fun k => fval (hd fr0 (kX k)))) in E. unfold keyE, zero_key, frs in E. cbn [kX repeat hd] in E.
    destruct (exLX e) as [|d l]; [reflexivity|]. cbn [map hd] in E |- *. rewrite fval_ofZ in E. rewrite E. apply fval_fr0.
  - apply run_sat. vm_compute. reflexivity.
Qed.

(** ** examples for the aggregation theorems *)
Definition bits13 : list Fr := frs [1; 0; 1; 0; 0; 0; 0; 0; 0; 0].
Lemma agg_test_example : run (AggregatePublicKeys TestEngine exKeys bits13 exW (ofZ rBN 4)) =
  Some (mkG1 (fpZ (fst (last_sum 0 0 ex13))) (fpZ (snd (last_sum 0 0 ex13)))).
Proof.
  apply agg_test; try reflexivity. split.
  - unfold bits13, frs. apply Forall_forall. intros x Hx. apply in_map_iff in Hx. destruct Hx as (z & <- & Hz). cbn [In] in Hz.
    rewrite fval_ofZ. repeat (destruct Hz as [<-|Hz]; [vm_compute; tauto|]). destruct Hz.
  - split; [exact exKeys_wf|]. split; [vm_compute; reflexivity|]. right. cbn [g1X g1Y].
    replace (signers bits13 exKeys) with [nth 0 exKeys zero_key; nth 2 exKeys zero_key]; [exact ex13_sum|]. 
    unfold signers, bits13, frs. rewrite exKeys_cons. cbn [map combine filter fst]. rewrite !fval_ofZ. reflexivity.
Qed.
Lemma agg_comp_example : determ (AggregatePublicKeys Compiled witKeys ones10 exW (ofZ rBN 55)) (mkG1 (fpZ (fst g1genZ)) (fpZ (snd g1genZ))).
Proof.
  apply agg_comp_ones; try reflexivity; [exact ones10_1 | exact witKeys_wf | exact wit_sum].
Qed.
