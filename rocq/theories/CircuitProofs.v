(** Commitments (C47, C48) and acceptance of the two circuits (C49-C53). *)
From Coq Require Import ZArith List Bool Lia Ring.
From Verif Require Import Params ZMod Circuit Api Emulated FieldFacts ApiFacts Tower TowerFacts Pairing CurveSpec PairProofs
  HashField HashFieldProofs HashG2 Poseidon PoseidonSpec PoseidonProofs PoseidonHash Bls BlsSpec BlsProofs CircuitSpec.
Import ListNotations.
Open Scope Z_scope.
Local Notation fr0 := (f0 rBN).
Opaque Poseidon.

(** ** Commitments *)
Lemma poseidon_iff inputs h : Poseidon inputs = Some h <-> poseidon_is inputs h.
Proof.
  split.
  - intros H. assert (L : (1 <= length inputs <= 16)%nat) by (apply hash_arity; congruence).
    split; [exact L|]. destruct (hash_exists inputs L) as (rc & M & G & E). exists rc, M. split; [exact G | congruence].
  - intros (L & rc & M & G & ->). exact (proj2 (hash_textbook inputs L) rc M G).
Qed.
Lemma F2len {A B} (R : A -> B -> Prop) l m : Forall2 R l m -> length l = length m.
Proof. induction 1; cbn; congruence. Qed.
Lemma F2impl {A B} (R S : A -> B -> Prop) l m : (forall a b, R a b -> S a b) -> Forall2 R l m -> Forall2 S l m.
Proof. induction 2; constructor; auto. Qed.
Lemma oC_ceq o : forall h, sat (@oC Fr o) h <-> o = Some h.
Proof. intros h. destruct o; cbn; split; congruence || tauto. Qed.
Lemma oC_det (o : option Fr) h : o = Some h -> determ (oC o) h.
Proof. intros ->. apply determ_ret. Qed.
Lemma keyCommitment_sat keys ws i c : sat (keyCommitment keys ws i) c <-> key_commit (keyAt keys i, at_ ws i) c.
Proof.
  unfold keyCommitment, key_commit. cbn [fst snd]. rewrite sat_bind. split.
  - intros (cx & Hx & H). apply sat_bind in H. destruct H as (cy & Hy & H). rewrite !oC_ceq, !poseidon_iff in *.
    now exists cx, cy.
  - intros (cx & cy & Hx & Hy & H). exists cx. split; [exact (proj2 (oC_ceq _ _) (proj2 (poseidon_iff _ _) Hx))|].
    apply sat_bind. exists cy. split; [exact (proj2 (oC_ceq _ _) (proj2 (poseidon_iff _ _) Hy))|].
    exact (proj2 (oC_ceq _ _) (proj2 (poseidon_iff _ _) H)).
Qed.
Lemma poseidon_fun u a b : poseidon_is u a -> poseidon_is u b -> a = b.
Proof. rewrite <- !poseidon_iff. congruence. Qed.
Lemma keyCommitment_det keys ws i c : key_commit (keyAt keys i, at_ ws i) c -> determ (keyCommitment keys ws i) c.
Proof.
  intros (cx & cy & Hx & Hy & H). cbn [fst snd] in *. unfold keyCommitment.
  eapply determ_bind; [exact (oC_det _ _ (proj2 (poseidon_iff _ _) Hx))|]. eapply determ_bind; [exact (oC_det _ _ (proj2 (poseidon_iff _ _) Hy))|].
  exact (oC_det _ _ (proj2 (poseidon_iff _ _) H)).
Qed.
Lemma sat_mmap_iff {A B} (f : A -> Circ B) l : forall ys, sat (mmap f l) ys <-> Forall2 (fun x y => sat (f x) y) l ys.
Proof.
  induction l as [|x l IH]; intros ys; cbn [mmap].
  - split; [intros H; cbn in H; subst; constructor | intros H; inversion H; reflexivity].
  - rewrite sat_bind. split.
    + intros (y & Hy & H). apply sat_bind in H. destruct H as (zs & Hz & E). cbn [sat] in E. subst ys.
      constructor; [exact Hy | now apply IH].
    + intros H. inversion H as [|? y ? zs Hy Hz]; subst. exists y. split; [exact Hy|].
      apply sat_bind. exists zs. split; [now apply IH | reflexivity].
Qed.
Lemma Forall2_map_l {A B C} (f : A -> B) (R : B -> C -> Prop) l : forall m, Forall2 R (map f l) m <-> Forall2 (fun x => R (f x)) l m.
Proof.
  induction l as [|x l IH]; intros m; cbn [map]; split; intros H; inversion H; subst; constructor; try assumption; now apply IH.
Qed.
Lemma seq_pairs {A B} (a : list A) (b : list B) da db n : length a = n -> length b = n ->
  map (fun i => (nth i a da, nth i b db)) (seq 0 n) = combine a b.
Proof.
  intros La Lb. transitivity (map (fun i => nth i (combine a b) (da, db)) (seq 0 (length (combine a b)))).
  - rewrite combine_length, La, Lb, Nat.min_id. apply map_ext. intros i. rewrite combine_nth by lia. reflexivity.
  - apply seq_nth_map.
Qed.
Theorem commit_sat keys ws c : length keys = 10%nat -> length ws = 10%nat ->
  (sat (ComputeAPKCommitment keys ws) c <-> set_commit keys ws c).
Proof.
  intros Lk Lw. unfold ComputeAPKCommitment, set_commit. rewrite sat_bind.
  assert (E : forall cs, sat (mmap (keyCommitment keys ws) (seq 0 10)) cs <-> Forall2 key_commit (combine keys ws) cs).
  { intros cs. rewrite sat_mmap_iff, <- (seq_pairs keys ws (mkKey [] []) fr0 10 Lk Lw), Forall2_map_l.
    split; intros H; (eapply F2impl; [|exact H]); intros i y Hy; now apply (keyCommitment_sat keys ws i y). }
  split; intros (cs & H1 & H2); exists cs; (split; [now apply E|]).
  - exact (proj1 (poseidon_iff _ _) (proj1 (oC_ceq _ _) H2)).
  - exact (proj2 (oC_ceq _ _) (proj2 (poseidon_iff _ _) H2)).
Qed.
Theorem commit_det keys ws c : length keys = 10%nat -> length ws = 10%nat ->
  set_commit keys ws c -> determ (ComputeAPKCommitment keys ws) c.
Proof.
  intros Lk Lw (cs & H1 & H2). unfold ComputeAPKCommitment.
  eapply determ_bind; [|exact (oC_det _ _ (proj2 (poseidon_iff _ _) H2))].
  rewrite <- (seq_pairs keys ws (mkKey [] []) fr0 10 Lk Lw), Forall2_map_l in H1.
  revert cs H1 H2. generalize (seq 0 10). intros l cs H _. induction H as [|i c' l cs H1 H2 IH]; cbn [mmap]; [apply determ_ret|].
  eapply determ_bind; [exact (keyCommitment_det _ _ _ _ H1)|]. eapply determ_bind; [exact IH|]. apply determ_ret.
Qed.
Lemma key_commit_ex k w : key6 k -> exists c, key_commit (k, w) c.
Proof.
  intros [LX LY].
  assert (P : forall u, (1 <= length u <= 16)%nat -> exists h, poseidon_is u h).
  { intros u L. destruct (hash_exists u L) as (rc & M & _ & E). eexists. apply poseidon_iff. exact E. }
  destruct (P (kX k) ltac:(lia)) as [cx Hx]. destruct (P (kY k) ltac:(lia)) as [cy Hy].
  destruct (P [cx; cy; w] ltac:(cbn; lia)) as [c H]. exists c, cx, cy. auto.
Qed.
Theorem commit_ex keys ws : length keys = 10%nat -> length ws = 10%nat -> Forall key6 keys -> exists c, set_commit keys ws c.
Proof.
  intros Lk Lw F. assert (E : exists cs, Forall2 key_commit (combine keys ws) cs).
  { clear Lk Lw. revert ws. induction F as [|k keys Hk F IH]; intros ws; [exists []; constructor|].
    destruct ws as [|w ws]; [exists []; constructor|]. destruct (key_commit_ex k w Hk) as [c Hc]. destruct (IH ws) as [cs Hcs].
    exists (c :: cs). now constructor. }
  destruct E as [cs H]. assert (L : length cs = 10%nat).
  { rewrite <- (F2len _ _ _ H), combine_length. lia. }
  destruct (hash_exists cs ltac:(lia)) as (rc & M & _ & E). eexists. exists cs. split; [exact H|]. apply poseidon_iff. exact E.
Qed.

(** *** binding *)
Lemma fr_list_dec (u v : list Fr) : {u = v} + {u <> v}.
Proof. apply list_eq_dec. intros a b. apply feq_dec. Qed.
Lemma key_binding k w k' w' c : key6 k -> key6 k' -> key_commit (k, w) c -> key_commit (k', w') c ->
  (k, w) = (k', w') \/ poseidon_collision.
Proof.
  intros [LX LY] [LX' LY'] (cx & cy & Hx & Hy & H) (cx' & cy' & Hx' & Hy' & H'). cbn [fst snd] in *.
  destruct (fr_list_dec [cx; cy; w] [cx'; cy'; w']) as [E|N].
  2:{ right. exists [cx; cy; w], [cx'; cy'; w'], c. auto. }
  injection E as <- <- <-.
  destruct (fr_list_dec (kX k) (kX k')) as [E|N]; [|right; exists (kX k), (kX k'), cx; split; [exact N | split; [congruence | auto]]].
  destruct (fr_list_dec (kY k) (kY k')) as [E'|N]; [|right; exists (kY k), (kY k'), cy; split; [exact N | split; [congruence | auto]]].
  left. destruct k, k'. cbn in *. now subst.
Qed.
Lemma set_binding_aux l : forall l' cs, Forall (fun kw => key6 (fst kw)) l -> Forall (fun kw => key6 (fst kw)) l' ->
  Forall2 key_commit l cs -> Forall2 key_commit l' cs -> l = l' \/ poseidon_collision.
Proof.
  induction l as [|[k w] l IH]; intros l' cs F F' H H'.
  - inversion H; subst. inversion H'. now left.
  - inversion H as [|? c ? cs' Hc Hcs]; subst. inversion H' as [|[k' w'] ? m ? Hc' Hcs']; subst.
    inversion F; inversion F'; subst. cbn [fst] in *.
    destruct (key_binding _ _ _ _ _ H2 H6 Hc Hc') as [E|E]; [|now right].
    destruct (IH _ _ H3 H7 Hcs Hcs') as [E'|E']; [|now right]. left. congruence.
Qed.
Lemma combine_inj {A B} (a a' : list A) (b b' : list B) : length a = length b -> length a' = length b' ->
  combine a b = combine a' b' -> a = a' /\ b = b'.
Proof.
  revert a' b b'. induction a as [|x a IH]; intros [|x' a'] [|y b] [|y' b']; cbn; intros L L' E; try discriminate; [tauto|].
  injection E as -> -> E. destruct (IH a' b b' ltac:(lia) ltac:(lia) E) as [-> ->]. tauto.
Qed.
Lemma Forall_combine_l {A B} (P : A -> Prop) (a : list A) : forall b : list B, Forall P a -> Forall (fun p => P (fst p)) (combine a b).
Proof.
  induction a as [|x a IH]; intros [|y b] F; cbn [combine]; try constructor; inversion F; subst; [assumption | now apply IH].
Qed.
Theorem set_binding keys ws keys' ws' c : length keys = 10%nat -> length ws = 10%nat -> length keys' = 10%nat -> length ws' = 10%nat ->
  Forall key6 keys -> Forall key6 keys' -> set_commit keys ws c -> set_commit keys' ws' c ->
  keys <> keys' \/ ws <> ws' -> poseidon_collision.
Proof.
  intros L1 L2 L3 L4 F F' (cs & H1 & H2) (cs' & H1' & H2') D.
  destruct (fr_list_dec cs cs') as [<-|N].
  - destruct (set_binding_aux _ _ _ (Forall_combine_l key6 keys ws F) (Forall_combine_l key6 keys' ws' F') H1 H1') as [E|E]; [|exact E].
    apply combine_inj in E; [|lia|lia]. destruct E as [-> ->]. tauto.
  - exists cs, cs', c. split; [exact N|]. split; [|auto].
    rewrite <- (F2len _ _ _ H1), <- (F2len _ _ _ H1'), !combine_length. lia.
Qed.

(** ** Aggregation for any prover *)
Lemma chord_snoc_inv l r : chord_sum l r -> (exists p, l = [p] /\ r = p) \/
  exists l' s p lam, l = l' ++ [p] /\ chord_sum l' s /\ fmul lam (fsub (fst p) (fst s)) = fsub (snd p) (snd s) /\
    r = (fsub (fsub (fmul lam lam) (fst s)) (fst p), fsub (fmul lam (fsub (fst s) (fsub (fsub (fmul lam lam) (fst s)) (fst p)))) (snd s)).
Proof.
  destruct 1 as [p|l s p lam x y H E Ex Ey]; [left; now exists p|]. right. exists l, s, p, lam. subst x. subst y. auto.
Qed.
Lemma chain_sat t : forall p r, sat (mfold chordAdd (map toG t) (toG p)) (toG r) <-> chord_sum (p :: t) r.
Proof.
  induction t as [|x t IH] using rev_ind; intros p r; cbn [map].
  - cbn [mfold sat]. split.
    + intros H. apply toG_inj in H. subst. constructor.
    + intros H. apply chord_snoc_inv in H. destruct H as [(q & E & ->)|(l' & s & q & lam & E & H & _)].
      * injection E as <-. reflexivity.
      * destruct l' as [|? [|]]; try discriminate. apply chord_snoc_inv in H.
        destruct H as [(? & ? & _)|(l1 & ? & ? & ? & H & _)]; [discriminate | destruct l1; discriminate].
  - rewrite map_app. cbn [map].
    assert (S : forall g, sat (mfold chordAdd (map toG t ++ [toG x]) (toG p)) g <->
                exists s, sat (mfold chordAdd (map toG t) (toG p)) s /\ sat (chordAdd s (toG x)) g).
    { intros g. rewrite Circuit.mfold_app. split; intros (m & H1 & H2); exists m; (split; [exact H1|]); cbn [mfold] in *;
      [apply sat_bind in H2; destruct H2 as (z & H2 & E); cbn in E; now subst | apply sat_bind; exists g; now split]. }
    rewrite S. split.
    + intros (s & H1 & H2). rewrite <- (toG_xy s) in H1. apply IH in H1. apply chord_sat in H2. destruct H2 as (l & Hl & E).
      rewrite app_comm_cons. assert (E2 : r = (fst r, snd r)) by (destruct r; reflexivity). rewrite E2.
      unfold toG in Hl, E. cbn [g1X g1Y] in Hl. unfold chordR in E. cbn [g1X g1Y] in E. injection E as Ex Ey.
      eapply (cs_snoc _ _ _ l); [exact H1 | exact Hl | exact Ex | rewrite Ey, Ex; reflexivity].
    + intros H. apply chord_snoc_inv in H. destruct H as [(q & E & _)|(l' & s & q & lam & E & H & Hl & ->)].
      { destruct t; discriminate. }
      rewrite app_comm_cons in E. apply app_inj_tail in E. destruct E as [<- <-]. apply IH in H.
      exists (toG s). split; [exact H|]. apply chord_sat. exists lam. split; [exact Hl | reflexivity].
Qed.
Lemma chord_nil r : ~ chord_sum [] r.
Proof. intros H. apply chord_snoc_inv in H. destruct H as [(p & E & _)|(l & s & p & lam & E & _)]; [discriminate | destruct l; discriminate]. Qed.
Lemma addAll_sat eng bits keys P : length bits = 10%nat -> length keys = 10%nat ->
  (sat (addAll (map (sel eng) (combine bits keys))) P <-> apk_is eng bits keys P).
Proof.
  intros Lb Lk. unfold apk_is. destruct eng.
  - rewrite (proj2 (addAll_test _ (combine_nil_l bits keys 9 Lb Lk)) P), sgn_signers. unfold addends.
    destruct (signers bits keys) as [|k ks] eqn:ES; cbn [map].
    + cbn [sat]. split; [intros <-; right; auto | intros [H|(_ & _ & ->)]; [now apply chord_nil in H | reflexivity]].
    + rewrite <- (toG_xy P) at 1. rewrite chain_sat. split; [now left | intros [H|(_ & E & _)]; [exact H | discriminate]].
  - rewrite (proj2 (addAll_comp _) P). unfold addends. fold (allpts (combine bits keys)).
    destruct (allpts (combine bits keys)) as [|p t] eqn:EA.
    + cbn [sat]. split; [tauto | intros [H|(E & _)]; [now apply chord_nil in H | discriminate]].
    + rewrite <- (toG_xy P) at 1. rewrite chain_sat. split; [now left | intros [H|(E & _)]; [exact H | discriminate]].
Qed.
Theorem aggRot_sat eng keys bits P : length keys = 10%nat -> length bits = 10%nat ->
  (sat (AggregatePublicKeys_Rotate eng keys bits) P <-> is_bits bits /\ Forall key_wf keys /\ apk_is eng bits keys P).
Proof.
  intros Lk Lb. rewrite (proj2 (aggRot_eq eng keys bits Lk Lb) P), sat_assert_iff, selOk_iff, addAll_sat by lia. tauto.
Qed.
Theorem agg_sat eng keys bits ws t P : length keys = 10%nat -> length bits = 10%nat -> length ws = 10%nat ->
  (sat (AggregatePublicKeys eng keys bits ws t) P <->
   is_bits bits /\ Forall key_wf keys /\ fval t = signed_weight bits ws mod rBN /\ apk_is eng bits keys P).
Proof.
  intros Lk Lb Lw. rewrite (proj2 (agg_eq eng keys bits ws t Lk Lb Lw) P), !sat_assert_iff, selOk_iff, addAll_sat, feqb_swF by lia. tauto.
Qed.

(** ** The hash of the message *)
Theorem hashG2_sat msg h : length msg = 32%nat ->
  (sat (HashToG2 msg) h <-> Forall (fun x => fval x < 256) msg /\ exists u0 u1, sat (hashTail u0 u1) h).
Proof.
  intros L. unfold HashToG2. rewrite sat_bind. split.
  - intros (es & H1 & H2). split; [exact (proj1 (htf_sat_bytes msg 4 es L H1))|]. eauto.
  - intros (F & u0 & u1 & H). exists [u0; u1]. split; [|exact H].
    exact (htf_free msg 2 [u0; u1] L F ltac:(lia) eq_refl).
Qed.

(** ** The circuits *)
Lemma txWf_iff c : txWf c = true <-> length (tx_PublicKeys c) = 10%nat /\ length (tx_BitList c) = 10%nat /\
  length (tx_Weights c) = 10%nat /\ length (tx_MsgBytes c) = 32%nat.
Proof. unfold txWf. rewrite !andb_true_iff, !Nat.eqb_eq. tauto. Qed.
Lemma roWf_iff c : roWf c = true <-> length (ro_OldPublicKeys c) = 10%nat /\ length (ro_NewPublicKeys c) = 10%nat /\
  length (ro_BitList c) = 10%nat /\ length (ro_OldWeights c) = 10%nat /\ length (ro_NewWeights c) = 10%nat /\
  length (ro_NewApkCommitmentBytes c) = 32%nat.
Proof. unfold roWf. rewrite !andb_true_iff, !Nat.eqb_eq. tauto. Qed.
Lemma check_sat {A} (a b : Fr) (k : Circ A) r : sat (CommitmentCheck a b ;;; k) r <-> a = b /\ sat k r.
Proof. unfold CommitmentCheck, api_AssertIsEqual. rewrite sat_assert_iff, feqb_eq. tauto. Qed.
Theorem tx_sat eng c : txWf c = true ->
  (sat (txDefine eng c) tt <->
   is_bits (tx_BitList c) /\ Forall key_wf (tx_PublicKeys c) /\
   fval (tx_SignedWeight c) = signed_weight (tx_BitList c) (tx_Weights c) mod rBN /\
   set_commit (tx_PublicKeys c) (tx_Weights c) (tx_ApkCommitment c) /\
   exists apk h, apk_is eng (tx_BitList c) (tx_PublicKeys c) apk /\
     sat (HashToG2 (tx_MsgBytes c)) h /\ sat (PairingCheck [G1neg; apk] [tx_Signature c; h]) tt).
Proof.
  intros W. apply txWf_iff in W. destruct W as (L1 & L2 & L3 & L4). unfold txDefine, VerifyBLS_bls12_Tx. rewrite sat_bind. split.
  - intros (apk & HA & H). apply agg_sat in HA; [|assumption..]. destruct HA as (A1 & A2 & A3 & A4).
    apply sat_bind in H. destruct H as (cm & HC & H). apply check_sat in H. destruct H as [<- H].
    apply sat_bind in H. destruct H as (h & Hh & H). apply commit_sat in HC; [|assumption..].
    repeat split; try assumption. now exists apk, h.
  - intros (A1 & A2 & A3 & HC & apk & h & A4 & Hh & H). exists apk. split; [apply agg_sat; auto|].
    apply sat_bind. exists (tx_ApkCommitment c). split; [now apply commit_sat|]. apply check_sat. split; [reflexivity|].
    apply sat_bind. now exists h.
Qed.
Theorem rotate_sat eng c : roWf c = true -> Forall key6 (ro_OldPublicKeys c) ->
  (sat (rotateDefine eng c) tt <->
   is_bits (ro_BitList c) /\ Forall key_wf (ro_NewPublicKeys c) /\
   (exists z, weight_where counted (positions (ro_BitList c) (ro_NewPublicKeys c) (ro_OldPublicKeys c) (ro_OldWeights c)) z /\
      fval (ro_TrustedWeight c) = z mod rBN) /\
   set_commit (ro_OldPublicKeys c) (ro_OldWeights c) (ro_OldApkCommitment c) /\
   set_commit (ro_NewPublicKeys c) (ro_NewWeights c) (ro_NewCommitment c) /\
   exists apk h, apk_is eng (ro_BitList c) (ro_NewPublicKeys c) apk /\
     sat (HashToG2 (ro_NewApkCommitmentBytes c)) h /\ sat (PairingCheck [G1neg; apk] [ro_Signature c; h]) tt).
Proof.
  intros W K. apply roWf_iff in W. destruct W as (L1 & L2 & L3 & L4 & L5 & L6).
  assert (K6 : forall l, Forall key_wf l -> Forall key6 l).
  { intros l. apply Forall_impl. intros k [[H1 _] [H2 _]]. now split. }
  assert (T : Forall key_wf (ro_NewPublicKeys c) -> forall t, _) by
    (intros F; exact (trusted_general _ _ (ro_BitList c) (ro_OldWeights c) L1 L2 L3 L4 K (K6 _ F))).
  unfold rotateDefine, Verify_bls12_Rotate. rewrite sat_bind. split.
  - intros (tw & HT & H). apply check_sat in H. destruct H as [<- H].
    apply sat_bind in H. destruct H as (c1 & HC1 & H). apply check_sat in H. destruct H as [<- H].
    apply sat_bind in H. destruct H as (c2 & HC2 & H). apply check_sat in H. destruct H as [<- H].
    apply sat_bind in H. destruct H as (apk & HA & H). apply sat_bind in H. destruct H as (h & Hh & H).
    apply aggRot_sat in HA; [|assumption..]. destruct HA as (A1 & A2 & A3).
    apply (T A2) in HT. apply commit_sat in HC1; [|assumption..]. apply commit_sat in HC2; [|assumption..].
    destruct HT as [_ HT]. split; [exact A1|]. split; [exact A2|]. split; [exact HT|]. split; [exact HC1|]. split; [exact HC2|].
    now exists apk, h.
  - intros (A1 & A2 & HT & HC1 & HC2 & apk & h & A3 & Hh & H). exists (ro_TrustedWeight c).
    split; [now apply (T A2)|]. apply check_sat. split; [reflexivity|].
    apply sat_bind. eexists. split; [now apply commit_sat; [..|exact HC1]|]. apply check_sat. split; [reflexivity|].
    apply sat_bind. eexists. split; [now apply commit_sat; [..|exact HC2]|]. apply check_sat. split; [reflexivity|].
    apply sat_bind. exists apk. split; [apply aggRot_sat; auto|]. apply sat_bind. now exists h.
Qed.

(** *** what acceptance means for the pairing *)
Lemma check_product P Q R S : sat (PairingCheck [P; Q] [R; S]) tt -> pairing_product [(P, R); (Q, S)].
Proof. intros H. destruct (pairing_sound _ _ H) as (_ & _ & rs & F & E). exists rs. split; [exact F | exact E]. Qed.
Theorem tx_sound eng c : txWf c = true -> sat (txDefine eng c) tt ->
  is_bits (tx_BitList c) /\ Forall key_wf (tx_PublicKeys c) /\
  fval (tx_SignedWeight c) = signed_weight (tx_BitList c) (tx_Weights c) mod rBN /\
  set_commit (tx_PublicKeys c) (tx_Weights c) (tx_ApkCommitment c) /\
  Forall (fun x => fval x < 256) (tx_MsgBytes c) /\
  exists apk h, apk_is eng (tx_BitList c) (tx_PublicKeys c) apk /\ sat (HashToG2 (tx_MsgBytes c)) h /\
    pairing_product [(G1neg, tx_Signature c); (apk, h)].
Proof.
  intros W H. pose proof (proj1 (txWf_iff c) W) as (_ & _ & _ & L). apply (tx_sat eng c W) in H.
  destruct H as (H1 & H2 & H3 & H4 & apk & h & H5 & H6 & H7).
  repeat (split; [assumption|]). split; [exact (proj1 (proj1 (hashG2_sat _ _ L) H6))|].
  exists apk, h. split; [exact H5|]. split; [exact H6 | now apply check_product].
Qed.
Theorem rotate_sound eng c : roWf c = true -> Forall key6 (ro_OldPublicKeys c) -> sat (rotateDefine eng c) tt ->
  is_bits (ro_BitList c) /\ Forall key_wf (ro_NewPublicKeys c) /\
  (exists z, weight_where counted (positions (ro_BitList c) (ro_NewPublicKeys c) (ro_OldPublicKeys c) (ro_OldWeights c)) z /\
     fval (ro_TrustedWeight c) = z mod rBN) /\
  set_commit (ro_OldPublicKeys c) (ro_OldWeights c) (ro_OldApkCommitment c) /\
  set_commit (ro_NewPublicKeys c) (ro_NewWeights c) (ro_NewCommitment c) /\
  Forall (fun x => fval x < 256) (ro_NewApkCommitmentBytes c) /\
  exists apk h, apk_is eng (ro_BitList c) (ro_NewPublicKeys c) apk /\ sat (HashToG2 (ro_NewApkCommitmentBytes c)) h /\
    pairing_product [(G1neg, ro_Signature c); (apk, h)].
Proof.
  intros W K H. pose proof (proj1 (roWf_iff c) W) as (_ & _ & _ & _ & _ & L). apply (rotate_sat eng c W K) in H.
  destruct H as (H1 & H2 & H3 & H4 & H5 & apk & h & H6 & H7 & H8).
  repeat (split; [assumption|]). split; [exact (proj1 (proj1 (hashG2_sat _ _ L) H7))|].
  exists apk, h. split; [exact H6|]. split; [exact H7 | now apply check_product].
Qed.

(** *** what is not bound *)
Definition tx_with_hash (c : BLS_BLS12_TX) (mh : G2Affine) : BLS_BLS12_TX :=
  mkTx mh (tx_ApkCommitment c) (tx_SignedWeight c) (tx_PublicKeys c) (tx_Signature c) (tx_BitList c) (tx_Weights c) (tx_MsgBytes c).
Definition tx_with_msg (c : BLS_BLS12_TX) (m : list Fr) : BLS_BLS12_TX :=
  mkTx (tx_MessageHash c) (tx_ApkCommitment c) (tx_SignedWeight c) (tx_PublicKeys c) (tx_Signature c) (tx_BitList c) (tx_Weights c) m.
Definition ro_with_hash (c : BLS_BLS12_ROTATE) (mh : G2Affine) : BLS_BLS12_ROTATE :=
  mkRot mh (ro_OldApkCommitment c) (ro_NewCommitment c) (ro_NewApkCommitmentBytes c) (ro_TrustedWeight c) (ro_OldWeights c)
    (ro_NewWeights c) (ro_OldPublicKeys c) (ro_NewPublicKeys c) (ro_BitList c) (ro_Signature c).
Definition ro_with_bytes (c : BLS_BLS12_ROTATE) (m : list Fr) : BLS_BLS12_ROTATE :=
  mkRot (ro_MessageHash c) (ro_OldApkCommitment c) (ro_NewCommitment c) m (ro_TrustedWeight c) (ro_OldWeights c)
    (ro_NewWeights c) (ro_OldPublicKeys c) (ro_NewPublicKeys c) (ro_BitList c) (ro_Signature c).
Theorem tx_any_hash eng c mh : sat (txDefine eng c) tt -> sat (txDefine eng (tx_with_hash c mh)) tt.
Proof. intros H. exact H. Qed.
Theorem ro_any_hash eng c mh : sat (rotateDefine eng c) tt -> sat (rotateDefine eng (ro_with_hash c mh)) tt.
Proof. intros H. exact H. Qed.
Lemma hash_replay m m' h : length m = 32%nat -> length m' = 32%nat -> Forall (fun x => fval x < 256) m' ->
  sat (HashToG2 m) h -> sat (HashToG2 m') h.
Proof. intros L L' F H. apply (hashG2_sat m' h L'). split; [exact F|]. exact (proj2 (proj1 (hashG2_sat m h L) H)). Qed.
Theorem tx_replay eng c m' : txWf c = true -> length m' = 32%nat -> Forall (fun x => fval x < 256) m' ->
  sat (txDefine eng c) tt -> sat (txDefine eng (tx_with_msg c m')) tt.
Proof.
  intros W L' F H. pose proof (proj1 (txWf_iff c) W) as (L1 & L2 & L3 & L4).
  apply (tx_sat eng c W) in H. apply tx_sat; [now apply txWf_iff|].
  destruct H as (H1 & H2 & H3 & H4 & apk & h & H5 & H6 & H7). repeat (split; [assumption|]).
  exists apk, h. split; [exact H5|]. split; [exact (hash_replay _ _ _ L4 L' F H6) | exact H7].
Qed.
Theorem ro_replay eng c m' : roWf c = true -> Forall key6 (ro_OldPublicKeys c) -> length m' = 32%nat -> Forall (fun x => fval x < 256) m' ->
  sat (rotateDefine eng c) tt -> sat (rotateDefine eng (ro_with_bytes c m')) tt.
Proof.
  intros W K L' F H. pose proof (proj1 (roWf_iff c) W) as (L1 & L2 & L3 & L4 & L5 & L6).
  apply (rotate_sat eng c W K) in H. apply rotate_sat; [apply roWf_iff; tauto | exact K |].
  destruct H as (H1 & H2 & H3 & H4 & H5 & apk & h & H6 & H7 & H8). repeat (split; [assumption|]).
  exists apk, h. split; [exact H6|]. split; [exact (hash_replay _ _ _ L6 L' F H7) | exact H8].
Qed.
