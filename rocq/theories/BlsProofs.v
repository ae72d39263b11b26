(** Proofs about key aggregation, weights and the two circuits (C40-C53). *)
From Coq Require Import ZArith List Bool Lia Ring Field Arith.
From Verif Require Import Params ZMod RingPow Circuit Api Emulated Primes Tower FieldFacts TowerFacts ApiFacts Pairing CurveSpec HashField HashG2 Poseidon Bls BlsSpec.
Import ListNotations.
Open Scope Z_scope.
Local Notation fr0 := (f0 rBN).
Local Notation fr1 := (f1 rBN).

(** ** Equivalence of circuits: same honest run, same accepted values *)
Definition ceq {A} (c d : Circ A) : Prop := run c = run d /\ forall a, sat c a <-> sat d a.
Lemma ceq_refl {A} (c : Circ A) : ceq c c.
Proof. split; [reflexivity | tauto]. Qed.
Lemma ceq_sym {A} (c d : Circ A) : ceq c d -> ceq d c.
Proof. intros [H1 H2]. split; [now symmetry | intros a; now rewrite H2]. Qed.
Lemma ceq_trans {A} (c d e : Circ A) : ceq c d -> ceq d e -> ceq c e.
Proof. intros [H1 H2] [H3 H4]. split; [congruence | intros a; now rewrite H2]. Qed.
Lemma ceq_bind {A B} (c d : Circ A) (f g : A -> Circ B) :
  ceq c d -> (forall a, ceq (f a) (g a)) -> ceq (bind c f) (bind d g).
Proof.
  intros [H1 H2] H. split.
  - rewrite !run_bind, H1. destruct (run d) as [a|]; [apply (H a) | reflexivity].
  - intros b. rewrite !sat_bind. split; intros (a & Ha & Hb); exists a; (split; [now apply H2 | now apply (H a)]).
Qed.
Lemma ceq_assoc {A B C} (c : Circ A) (f : A -> Circ B) (g : B -> Circ C) :
  ceq (bind (bind c f) g) (bind c (fun a => bind (f a) g)).
Proof.
  split.
  - rewrite !run_bind. destruct (run c) as [a|]; [now rewrite run_bind | reflexivity].
  - intros b. rewrite !sat_bind. split.
    + intros (y & Hy & Hb). apply sat_bind in Hy. destruct Hy as (a & Ha & Hy). exists a. split; [exact Ha|].
      apply sat_bind. now exists y.
    + intros (a & Ha & Hb). apply sat_bind in Hb. destruct Hb as (y & Hy & Hb). exists y. split; [|exact Hb].
      apply sat_bind. now exists a.
Qed.
Lemma ceq_mmap {A B} (f g : A -> Circ B) l : (forall x, In x l -> ceq (f x) (g x)) -> ceq (mmap f l) (mmap g l).
Proof.
  induction l as [|x l IH]; intros H; cbn [mmap]; [apply ceq_refl|].
  apply ceq_bind; [apply H; now left|]. intros a. apply ceq_bind; [apply IH; intros y Hy; apply H; now right|].
  intros; apply ceq_refl.
Qed.
Lemma ceq_mfold {A S} (f g : S -> A -> Circ S) l : forall s,
  (forall s x, In x l -> ceq (f s x) (g s x)) -> ceq (mfold f l s) (mfold g l s).
Proof.
  induction l as [|x l IH]; intros s H; cbn [mfold]; [apply ceq_refl|].
  apply ceq_bind; [apply H; now left|]. intros a. apply IH. intros s' y Hy. apply H; now right.
Qed.
Lemma mmap_map {A B C} (h : A -> B) (f : B -> Circ C) l : ceq (mmap (fun x => f (h x)) l) (mmap f (map h l)).
Proof.
  induction l as [|x l IH]; cbn [mmap map]; [apply ceq_refl|].
  apply ceq_bind; [apply ceq_refl|]. intros a. apply ceq_bind; [exact IH|]. intros; apply ceq_refl.
Qed.
Lemma mfold_map {A B S} (h : A -> B) (f : S -> B -> Circ S) l : forall s, ceq (mfold (fun s x => f s (h x)) l s) (mfold f (map h l) s).
Proof.
  induction l as [|x l IH]; intros s; cbn [mfold map]; [apply ceq_refl|].
  apply ceq_bind; [apply ceq_refl|]. intros a. apply IH.
Qed.
Lemma seq_nth_map {A} (l : list A) d : map (fun i => nth i l d) (seq 0 (length l)) = l.
Proof.
  induction l as [|x l IH]; [reflexivity|]. cbn [length seq map nth]. f_equal.
  rewrite <- seq_shift, map_map. cbn [nth]. exact IH.
Qed.
Lemma ceq_mmap_assert {A B} (P : A -> bool) (g : A -> B) l :
  ceq (mmap (fun x => assert (P x) ;;; Ret (g x)) l) (assert (forallb P l) ;;; Ret (map g l)).
Proof.
  induction l as [|x l IH]; cbn [mmap forallb map]; [apply ceq_refl|].
  destruct (P x); cbn [assert bind andb]; [|apply ceq_refl].
  eapply ceq_trans; [apply ceq_bind; [exact IH|intros; apply ceq_refl]|].
  destruct (forallb P l); apply ceq_refl.
Qed.
Lemma ceq_mfold_assert {A S} (P : A -> bool) (g : S -> A -> S) l : forall s,
  ceq (mfold (fun s x => assert (P x) ;;; Ret (g s x)) l s) (assert (forallb P l) ;;; Ret (fold_left g l s)).
Proof.
  induction l as [|x l IH]; intros s; cbn [mfold forallb fold_left]; [apply ceq_refl|].
  destruct (P x); cbn [assert bind andb]; [|apply ceq_refl].
  apply IH.
Qed.

(** ** Selection *)
Definition tb (b : Fr) : bool := feqb b fr1.
Lemma tb_neg b : isbool b = true -> feqb b fr0 = negb (tb b).
Proof. intros H. apply isbool_iff in H. destruct H as [c ->]. unfold tb. now rewrite bF_0, bF_1. Qed.
Definition keyOk (k : G1Key) : bool := limbsOk (kX k) && limbsOk (kY k).
Definition keyG1 (k : G1Key) : G1Affine := mkG1 (limbsVal (kX k)) (limbsVal (kY k)).
Definition zeroG1 : G1Affine := mkG1 fp0 fp0.
Definition sel (eng : engine) (bk : Fr * G1Key) : g1val :=
  mkGV (if tb (fst bk) then keyG1 (snd bk) else zeroG1) (match eng with TestEngine => negb (tb (fst bk)) | Compiled => false end).
Definition selOk (bk : Fr * G1Key) : bool := isbool (fst bk) && keyOk (snd bk).
Lemma selectKey_eq eng b k : ceq (selectKey eng b k) (assert (selOk (b, k)) ;;; Ret (sel eng (b, k))).
Proof.
  unfold selectKey, fp_enforceWidth, fp_Select, api_AssertIsBoolean, selOk, keyOk, sel, keyG1, zeroG1. cbn [fst snd].
  destruct (limbsOk (kX k)); cbn [assert bind andb]; [|rewrite andb_false_r; apply ceq_refl].
  destruct (isbool b) eqn:B; cbn [assert bind andb]; [|apply ceq_refl].
  destruct (limbsOk (kY k)); cbn [assert bind andb]; [|apply ceq_refl].
  rewrite (tb_neg _ B). fold (tb b). destruct (tb b), eng; apply ceq_refl.
Qed.
Lemma api_Select_eq b x y : ceq (api_Select b x y) (assert (isbool b) ;;; Ret (if tb b then x else y)).
Proof.
  unfold api_Select, api_AssertIsBoolean. destruct (isbool b) eqn:B; cbn [assert bind]; [|apply ceq_refl].
  apply isbool_iff in B. destruct B as [c ->]. unfold tb. rewrite bF_1.
  replace (fadd (fmul (bF c) (fsub x y)) y) with (if c then x else y); [apply ceq_refl|].
  destruct c; cbn [bF]; ring.
Qed.

(** ** Indexing *)
Definition triples {A B C} (a : list A) (b : list B) (c : list C) : list (A * B * C) := combine (combine a b) c.
Lemma nth_triples {A B C} (a : list A) (b : list B) (c : list C) i da db dc :
  length a = length b -> length a = length c ->
  nth i (triples a b c) (da, db, dc) = (nth i a da, nth i b db, nth i c dc).
Proof.
  intros H1 H2. unfold triples. rewrite combine_nth by (rewrite combine_length; lia). now rewrite combine_nth.
Qed.

(** ** Aggregation, in closed form *)
Lemma aggRot_eq eng keys bits : length keys = 10%nat -> length bits = 10%nat ->
  ceq (AggregatePublicKeys_Rotate eng keys bits)
      (assert (forallb selOk (combine bits keys)) ;;; addAll (map (sel eng) (combine bits keys))).
Proof.
  intros Hk Hb. unfold AggregatePublicKeys_Rotate.
  eapply ceq_trans.
  { apply ceq_bind; [|intros; apply ceq_refl]. eapply ceq_trans.
    { apply (ceq_mmap _ (fun i => (fun bk => assert (selOk bk) ;;; Ret (sel eng bk)) (nth i (combine bits keys) (fr0, mkKey [] [])))).
      intros i _. rewrite combine_nth by lia. unfold at_, keyAt. apply selectKey_eq. }
    eapply ceq_trans; [exact (mmap_map (fun i => nth i (combine bits keys) (fr0, mkKey [] [])) (fun bk => assert (selOk bk) ;;; Ret (sel eng bk)) _)|].
    replace 10%nat with (length (combine bits keys)) by (rewrite combine_length; lia).
    rewrite seq_nth_map. apply ceq_mmap_assert. }
  destruct (forallb selOk _); apply ceq_refl.
Qed.

Definition wstep (s : Fr) (bw : Fr * Fr) : Fr := if tb (fst bw) then fadd s (snd bw) else s.
Definition astep (eng : engine) (st : Fr * list g1val) (x : Fr * G1Key * Fr) : Fr * list g1val :=
  (wstep (fst st) (fst (fst x), snd x), snd st ++ [sel eng (fst x)]).
Lemma aggStep_eq eng keys bits ws st i :
  ceq (aggStep eng keys bits ws st i)
      (assert (selOk (at_ bits i, keyAt keys i)) ;;; Ret (astep eng st (at_ bits i, keyAt keys i, at_ ws i))).
Proof.
  destruct st as [t l]. unfold aggStep.
  eapply ceq_trans; [apply ceq_bind; [apply selectKey_eq|intros a; apply ceq_bind; [apply api_Select_eq|intros; apply ceq_refl]]|].
  unfold selOk at 1 2. cbn [fst]. destruct (isbool (at_ bits i)) eqn:B; cbn [andb assert bind]; [|apply ceq_refl].
  destruct (keyOk _); cbn [assert bind]; [|apply ceq_refl].
  unfold astep, wstep. cbn [fst snd]. apply ceq_refl.
Qed.
Lemma fold_astep eng l : forall t acc,
  fold_left (astep eng) l (t, acc) =
  (fold_left wstep (map (fun x => (fst (fst x), snd x)) l) t, acc ++ map (fun x => sel eng (fst x)) l).
Proof.
  induction l as [|x l IH]; intros t acc; cbn [fold_left map]; [now rewrite app_nil_r|].
  unfold astep at 2. cbn [fst snd]. rewrite IH, <- app_assoc. reflexivity.
Qed.
Lemma combine_fst {A B} (a : list A) (b : list B) : length a = length b -> map fst (combine a b) = a.
Proof. revert b; induction a as [|x a IH]; intros [|y b] H; cbn in *; try discriminate; [reflexivity|]. f_equal. apply IH; lia. Qed.
Lemma triples_13 {A B C} (a : list A) (b : list B) (c : list C) : length a = length b -> length a = length c ->
  map (fun x => (fst (fst x), snd x)) (triples a b c) = combine a c.
Proof.
  unfold triples. revert b c; induction a as [|x a IH]; intros [|y b] [|z c] H1 H2; cbn in *; try discriminate; [reflexivity|].
  f_equal. apply IH; lia.
Qed.
Lemma map_fst_triples {A B C D} (f : A * B -> D) (a : list A) (b : list B) (c : list C) : length a = length b -> length a = length c ->
  map (fun x => f (fst x)) (triples a b c) = map f (combine a b).
Proof.
  intros H1 H2. rewrite <- (map_map fst f). unfold triples. rewrite combine_fst by (rewrite combine_length; lia). reflexivity.
Qed.
Lemma forallb_map {A B} (f : B -> bool) (g : A -> B) l : forallb f (map g l) = forallb (fun x => f (g x)) l.
Proof. induction l as [|x l IH]; cbn; [reflexivity | now rewrite IH]. Qed.
Definition swF (bits ws : list Fr) : Fr := fold_left wstep (combine bits ws) fr0.
Lemma agg_eq eng keys bits ws t : length keys = 10%nat -> length bits = 10%nat -> length ws = 10%nat ->
  ceq (AggregatePublicKeys eng keys bits ws t)
      (assert (forallb selOk (combine bits keys)) ;;; assert (feqb (swF bits ws) t) ;;; addAll (map (sel eng) (combine bits keys))).
Proof.
  intros Hk Hb Hw. unfold AggregatePublicKeys.
  eapply ceq_trans.
  { apply ceq_bind; [|intros; apply ceq_refl]. eapply ceq_trans.
    { apply (ceq_mfold _ (fun st i => (fun st x => assert (selOk (fst x)) ;;; Ret (astep eng st x)) st (nth i (triples bits keys ws) (fr0, mkKey [] [], fr0)))).
      intros st i _. rewrite nth_triples by lia. apply aggStep_eq. }
    eapply ceq_trans; [exact (mfold_map (fun i => nth i (triples bits keys ws) (fr0, mkKey [] [], fr0)) (fun st x => assert (selOk (fst x)) ;;; Ret (astep eng st x)) _ _)|].
    assert (L : length (triples bits keys ws) = 10%nat) by (unfold triples; rewrite !combine_length; lia).
    rewrite <- L, seq_nth_map. apply (ceq_mfold_assert (fun x => selOk (fst x))). }
  rewrite fold_astep, triples_13, map_fst_triples by lia. cbn [app].
  replace (forallb (fun x => selOk (fst x)) (triples bits keys ws)) with (forallb selOk (combine bits keys)).
  2:{ rewrite <- (forallb_map selOk fst). unfold triples. rewrite combine_fst by (rewrite combine_length; lia). reflexivity. }
  fold (swF bits ws). destruct (forallb selOk _); cbn [assert bind]; [|apply ceq_refl].
  unfold ThresholdCheck, api_AssertIsEqual. apply ceq_refl.
Qed.

(** ** The signed weight *)
Lemma fval_fr1 : fval fr1 = 1.
Proof. unfold f1. rewrite fval_ofZ. reflexivity. Qed.
Lemma fval_fr0 : fval fr0 = 0.
Proof. unfold f0. rewrite fval_ofZ. reflexivity. Qed.
Lemma tb_fval b : tb b = (fval b =? 1).
Proof.
  unfold tb. destruct (Z.eqb_spec (fval b) 1) as [E|E].
  - apply feqb_eq. apply fval_inj. now rewrite fval_fr1.
  - apply feqb_neq. intros ->. now rewrite fval_fr1 in E.
Qed.
Lemma isbool_fval b : isbool b = true <-> fval b = 0 \/ fval b = 1.
Proof.
  unfold isbool. rewrite orb_true_iff, !feqb_eq. split.
  - intros [->| ->]; [left; apply fval_fr0 | right; apply fval_fr1].
  - intros [E|E]; [left|right]; apply fval_inj; rewrite E; symmetry; [apply fval_fr0 | apply fval_fr1].
Qed.
Lemma is_bits_iff bits : is_bits bits <-> forallb isbool bits = true.
Proof.
  unfold is_bits. rewrite Forall_forall, forallb_forall. split; intros H x Hx; apply isbool_fval; now apply H.
Qed.
Lemma swF_acc l : forall s, fval (fold_left wstep l s) =
  (fval s + zsum (map fval (map snd (filter (fun p => fval (fst p) =? 1) l)))) mod rBN.
Proof.
  induction l as [|[b w] l IH]; intros s; cbn [fold_left filter map].
  - cbn [zsum fold_right]. rewrite Z.add_0_r. symmetry. apply fval_mod.
  - rewrite IH. unfold wstep. cbn [fst snd]. rewrite tb_fval. destruct (fval b =? 1); [|reflexivity].
    cbn [map zsum fold_right fst snd]. fold (zsum (map fval (map snd (filter (fun p => fval (fst p) =? 1) l)))).
    unfold fadd at 1. rewrite fval_ofZ, Zplus_mod_idemp_l. f_equal. lia.
Qed.
Lemma swF_val bits ws : fval (swF bits ws) = signed_weight bits ws mod rBN.
Proof. unfold swF, signed_weight, signers. rewrite swF_acc, fval_fr0. reflexivity. Qed.

(** ** Keys *)
Lemma limbsOk_iff l : limbsOk l = true <-> limbs_wf l.
Proof.
  unfold limbsOk, limbs_wf. rewrite !andb_true_iff, Nat.eqb_eq, forallb_forall, Forall_forall, Z.ltb_lt.
  assert (B : forall x : Fr, 0 <= fval x) by (intros x; apply fval_range; reflexivity).
  split.
  - intros [[H1 H2] H3]. split; [exact H1|]. assert (H2' : forall x, In x l -> fval x < 2 ^ 64) by (intros x Hx; apply Z.ltb_lt; now apply H2).
    split; [exact H2'|]. clear H2. destruct l as [|a [|b [|c [|d [|e [|f [|]]]]]]]; try discriminate.
    cbn [nth] in H3. unfold limbs_int. cbn [fold_right].
    assert (forall x, In x [a;b;c;d;e] -> fval x < 2 ^ 64) by (intros x Hx; apply H2'; cbn [In] in *; tauto).
    pose proof (H a ltac:(cbn; tauto)). pose proof (H b ltac:(cbn; tauto)). pose proof (H c ltac:(cbn; tauto)).
    pose proof (H d ltac:(cbn; tauto)). pose proof (H e ltac:(cbn; tauto)).
    lia.
  - intros [H1 [H2 H3]]. split; [split; [exact H1|]|].
    + intros x Hx. apply Z.ltb_lt. now apply H2.
    + destruct l as [|a [|b [|c [|d [|e [|f [|]]]]]]]; try discriminate.
      unfold limbs_int in H3. cbn [fold_right] in H3. cbn [nth].
      pose proof (B a). pose proof (B b). pose proof (B c). pose proof (B d). pose proof (B e). lia.
Qed.
Lemma keyOk_iff k : keyOk k = true <-> key_wf k.
Proof. unfold keyOk, key_wf. rewrite andb_true_iff, !limbsOk_iff. tauto. Qed.
Lemma recompose64_int l : recompose64 (map fval l) = limbs_int l.
Proof. induction l as [|x l IH]; [reflexivity|]. cbn [map recompose64 limbs_int fold_right]. rewrite IH. reflexivity. Qed.
Lemma keyG1_eq k : keyG1 k = mkG1 (key_x k) (key_y k).
Proof. unfold keyG1, limbsVal, key_x, key_y. now rewrite !recompose64_int. Qed.
Lemma selOk_iff bits keys : length bits = length keys ->
  (forallb selOk (combine bits keys) = true <-> is_bits bits /\ Forall key_wf keys).
Proof.
  rewrite is_bits_iff. revert keys. induction bits as [|b bits IH]; intros [|k keys] H; cbn [combine forallb length] in *; try discriminate.
  - split; [split; [reflexivity | constructor] | reflexivity].
  - unfold selOk at 1. cbn [fst snd]. rewrite !andb_true_iff, IH by lia. rewrite keyOk_iff. split.
    + intros [[H1 H2] [H3 H4]]. split; [split; assumption | now constructor].
    + intros [[H1 H2] H3]. inversion H3; subst. tauto.
Qed.

(** ** The chord addition *)
Definition chordR (l : Fp) (p1 p2 : G1Affine) : G1Affine :=
  let x3 := fsub (fsub (fmul l l) (g1X p1)) (g1X p2) in mkG1 x3 (fsub (fmul l (fsub (g1X p1) x3)) (g1Y p1)).
Lemma fp_Reduce_det x : run (fp_Reduce x) = Some (fval x) /\ forall z, sat (fp_Reduce x) z -> fpZ z = x.
Proof.
  unfold fp_Reduce. split.
  - cbn [run]. assert (R : 0 <= fval x < pBLS) by (apply fval_range; reflexivity).
    assert (P : pBLS < 2 ^ 381) by reflexivity.
    rewrite (proj2 (andb_true_iff _ _)) by (rewrite Z.leb_le, Z.ltb_lt; lia). cbn [assert bind].
    rewrite (proj2 (feqb_eq _ _)); [reflexivity|]. apply fval_inj. rewrite fval_ofZ. apply fval_mod.
  - intros z H. cbn [sat] in H. destruct H as (t & H). apply sat_assert_bind in H. destruct H as [_ H].
    apply sat_assert_bind in H. destruct H as [H E]. cbn [sat] in E. subst. now apply feqb_eq in H.
Qed.
Lemma fpZ_fval (x : Fp) : fpZ (fval x) = x.
Proof. apply fval_inj. unfold fpZ. rewrite fval_ofZ. apply fval_mod. Qed.
Lemma chord_sat p1 p2 r : sat (chordAdd p1 p2) r <->
  exists l, fmul l (fsub (g1X p2) (g1X p1)) = fsub (g1Y p2) (g1Y p1) /\ r = chordR l p1 p2.
Proof.
  unfold chordAdd. rewrite sat_bind. split.
  - intros (l & Hl & H). cbn [sat fp_Div] in Hl. destruct Hl as (q & Hl). apply sat_assert_bind in Hl. destruct Hl as [Hl E].
    cbn [sat] in E. subst q. exists l. split; [now apply feqb_eq|].
    apply sat_bind in H. destruct H as (x3 & Hx & H). apply sat_bind in H. destruct H as (y3 & Hy & H). cbn [sat] in H. subst r.
    apply (proj2 (fp_Reduce_det _)) in Hx. apply (proj2 (fp_Reduce_det _)) in Hy. rewrite Hx, Hy. reflexivity.
  - intros (l & Hl & ->). exists l. split.
    + cbn [sat fp_Div]. exists l. apply sat_assert_bind. split; [now apply feqb_eq | reflexivity].
    + apply sat_bind. eexists. split; [apply run_sat, (proj1 (fp_Reduce_det _))|].
      apply sat_bind. eexists. split; [apply run_sat, (proj1 (fp_Reduce_det _))|].
      cbn [sat]. unfold chordR. now rewrite !fpZ_fval.
Qed.
Lemma fsub_0 (x y : Fp) : fsub x y = fp0 <-> x = y.
Proof. split; [intros H; replace x with (fadd (fsub x y) y) by ring; rewrite H; ring | intros ->; ring]. Qed.
Lemma chord_run p1 p2 r : run (chordAdd p1 p2) = Some r <->
  g1X p1 <> g1X p2 /\ exists l, fmul l (fsub (g1X p2) (g1X p1)) = fsub (g1Y p2) (g1Y p1) /\ r = chordR l p1 p2.
Proof.
  assert (D : forall q, run (fp_Div (fsub (g1Y p2) (g1Y p1)) (fsub (g1X p2) (g1X p1))) = Some q ->
              run (chordAdd p1 p2) = Some (chordR q p1 p2)).
  { intros q Hq. unfold chordAdd. rewrite run_bind, Hq, run_bind, (proj1 (fp_Reduce_det _)), run_bind, (proj1 (fp_Reduce_det _)).
    cbn [run]. unfold chordR. now rewrite !fpZ_fval. }
  destruct (feq_dec (g1X p1) (g1X p2)) as [E|N].
  - split; [|tauto]. intros H. exfalso. unfold chordAdd in H. rewrite run_bind in H. unfold fp_Div at 1 in H. cbn [run] in H.
    rewrite (proj2 (feqb_eq (fsub (g1X p2) (g1X p1)) fp0)) in H by (apply fsub_0; now symmetry). discriminate.
  - assert (N' : fsub (g1X p2) (g1X p1) <> fp0) by (intros Z; apply N; symmetry; now apply fsub_0).
    set (q := fmul (fsub (g1Y p2) (g1Y p1)) (finv (fsub (g1X p2) (g1X p1)))).
    assert (Q : fmul q (fsub (g1X p2) (g1X p1)) = fsub (g1Y p2) (g1Y p1)).
    { unfold q. transitivity (fmul (fsub (g1Y p2) (g1Y p1)) (fmul (finv (fsub (g1X p2) (g1X p1))) (fsub (g1X p2) (g1X p1)))); [ring|].
      rewrite (finv_l (fsub (g1X p2) (g1X p1)) pBLS_prime N'). ring. }
    assert (R : run (fp_Div (fsub (g1Y p2) (g1Y p1)) (fsub (g1X p2) (g1X p1))) = Some q).
    { unfold fp_Div. cbn [run]. rewrite (proj2 (feqb_neq _ _) N'). fold q. rewrite (proj2 (feqb_eq _ _) Q). reflexivity. }
    rewrite (D q R). split.
    + intros H. injection H as <-. split; [exact N|]. now exists q.
    + intros [_ (l & Hl & ->)]. do 2 f_equal. 
      assert (Z : fmul (fsub q l) (fsub (g1X p2) (g1X p1)) = fp0).
      { replace (fmul (fsub q l) (fsub (g1X p2) (g1X p1))) with (fsub (fmul q (fsub (g1X p2) (g1X p1))) (fmul l (fsub (g1X p2) (g1X p1)))) by ring.
        rewrite Q, Hl. ring. }
      apply fp_integral in Z. destruct Z as [Z|Z]; [now apply fsub_0 | now elim N'].
Qed.

(** ** Chains of additions *)
Definition toG (p : Fp * Fp) : G1Affine := mkG1 (fst p) (snd p).
Lemma toG_xy p : toG (g1X p, g1Y p) = p.
Proof. now destruct p. Qed.
Lemma toG_inj p q : toG p = toG q -> p = q.
Proof. destruct p, q; unfold toG; cbn [fst snd]. intros H. now injection H as -> ->. Qed.
Lemma mfold_app {A S} (f : S -> A -> Circ S) l1 l2 : forall s,
  ceq (mfold f (l1 ++ l2) s) (bind (mfold f l1 s) (mfold f l2)).
Proof.
  induction l1 as [|x l1 IH]; intros s; cbn [app mfold].
  - cbn [bind]. apply ceq_refl.
  - eapply ceq_trans; [|apply ceq_sym, ceq_assoc]. apply ceq_bind; [apply ceq_refl | exact IH].
Qed.
Lemma add1_chord x1 y1 x2 y2 x y : x1 <> x2 ->
  (add1 (Aff x1 y1) (Aff x2 y2) (Aff x y) <->
   exists l, fmul l (fsub x2 x1) = fsub y2 y1 /\ mkG1 x y = chordR l (mkG1 x1 y1) (mkG1 x2 y2)).
Proof.
  intros N. split.
  - remember (Aff x1 y1) as P1 eqn:E1. remember (Aff x2 y2) as P2 eqn:E2. remember (Aff x y) as P3 eqn:E3.
    intros H. destruct H as [Q|P|a b b' Eb|a1 b1 a2 b2 l Nl Hl|a b l Nl Hl].
    + discriminate E1.
    + discriminate E2.
    + discriminate E3.
    + injection E1 as -> ->. injection E2 as -> ->. exists l. split; [exact Hl|]. unfold third in E3. injection E3 as <- <-. reflexivity.
    + injection E1 as -> ->. injection E2 as E2 _. exfalso. exact (N E2).
  - intros (l & Hl & E). unfold chordR in E. cbn [g1X g1Y] in E. injection E as -> ->.
    exact (add_chord Fp fp0 fp1 fadd fmul fsub fopp fp0 x1 y1 x2 y2 l N Hl).
Qed.
Lemma chord_step s p r : (run (chordAdd (toG s) (toG p)) = Some (toG r) <->
  fst s <> fst p /\ add1 (Aff (fst s) (snd s)) (Aff (fst p) (snd p)) (Aff (fst r) (snd r))).
Proof.
  rewrite chord_run. unfold toG at 1 2. cbn [g1X]. split; intros [N H]; (split; [exact N|]).
  - apply (add1_chord _ _ _ _ _ _ N). exact H.
  - apply (add1_chord _ _ _ _ _ _ N) in H. exact H.
Qed.
Lemma run_snoc t x p : run (mfold chordAdd (t ++ [x]) p) = match run (mfold chordAdd t p) with Some s => run (chordAdd s x) | None => None end.
Proof.
  rewrite (proj1 (mfold_app _ _ _ _)), run_bind. destruct (run (mfold chordAdd t p)) as [s|]; [|reflexivity].
  cbn [mfold]. rewrite run_bind. destruct (run (chordAdd s x)); reflexivity.
Qed.
Lemma chain_run p t r : run (mfold chordAdd (map toG t) (toG p)) = Some (toG r) <-> generic_sum (p :: t) r.
Proof.
  revert r. induction t as [|x t IH] using rev_ind; intros r.
  - cbn [map mfold run]. split.
    + intros H. assert (p = r) by (apply toG_inj; congruence). subst. constructor.
    + intros H. remember [p] as L. revert HeqL. induction H as [q|l s q r H IH N A]; intros E.
      * injection E as ->. reflexivity.
      * destruct l as [|a l]; [inversion H; subst; destruct l; discriminate|]. destruct l; discriminate.
  - rewrite map_app. cbn [map]. rewrite run_snoc. split.
    + destruct (run (mfold chordAdd (map toG t) (toG p))) as [s|] eqn:E; [|discriminate].
      rewrite <- (toG_xy s). intros H. apply chord_step in H. destruct H as [N A].
      assert (G : generic_sum (p :: t) (g1X s, g1Y s)) by (apply IH; now rewrite toG_xy).
      exact (gs_snoc (p :: t) _ x r G N A).
    + intros H. remember (p :: t ++ [x]) as L. destruct H as [q|l s q r H N A].
      * destruct t; discriminate.
      * change (p :: t ++ [x]) with ((p :: t) ++ [x]) in HeqL. apply app_inj_tail in HeqL. destruct HeqL as [-> ->].
        apply IH in H. rewrite H. now apply chord_step.
Qed.
(** and then the prover has no freedom *)
Lemma chord_uniq s p r q : run (chordAdd s p) = Some r -> sat (chordAdd s p) q -> q = r.
Proof.
  intros H1 H2. apply chord_run in H1. destruct H1 as [N H1]. 
  assert (H3 : run (chordAdd s p) = Some q) by (apply chord_run; split; [exact N | now apply chord_sat]).
  assert (H4 : run (chordAdd s p) = Some r) by (apply chord_run; split; [exact N | exact H1]). congruence.
Qed.
Lemma chain_det t : forall p r, run (mfold chordAdd t p) = Some r -> determ (mfold chordAdd t p) r.
Proof.
  intros p r H. split; [exact H|]. revert p H. induction t as [|x t IH]; intros p H b Hb; cbn [mfold] in *.
  - cbn [run sat] in *. congruence.
  - rewrite run_bind in H. destruct (run (chordAdd p x)) as [s|] eqn:E; [|discriminate].
    apply sat_bind in Hb. destruct Hb as (s' & H1 & H2). pose proof (chord_uniq _ _ _ _ E H1). subst s'. now apply (IH s).
Qed.
Lemma generic_point_sum l r : generic_sum l r -> point_sum (map (fun p => Aff (fst p) (snd p)) l) (Aff (fst r) (snd r)).
Proof.
  induction 1 as [p|l s p r H IH N A].
  - exact (ps_snoc [] _ Inf _ ps_nil (add_inf_l _ _ _ _ _ _ _ _ _)).
  - rewrite map_app. cbn [map]. now apply (ps_snoc _ _ _ _ IH).
Qed.

(** ** addAll *)
Definition sgn (l : list (Fr * G1Key)) : list (Fp * Fp) := map (fun bk => key_xy (snd bk)) (filter (fun bk => fval (fst bk) =? 1) l).
Lemma sgn_signers bits keys : sgn (combine bits keys) = map key_xy (signers bits keys).
Proof. unfold sgn, signers. now rewrite map_map. Qed.
Lemma sel_test b k : sel TestEngine (b, k) = if fval b =? 1 then mkGV (toG (key_xy k)) false else mkGV zeroG1 true.
Proof. unfold sel. cbn [fst snd]. rewrite tb_fval. destruct (fval b =? 1); [|reflexivity]. now rewrite keyG1_eq. Qed.
Lemma sel_comp b k : sel Compiled (b, k) = mkGV (toG (if fval b =? 1 then key_xy k else (fp0, fp0))) false.
Proof. unfold sel. cbn [fst snd]. rewrite tb_fval. destruct (fval b =? 1); [|reflexivity]. now rewrite keyG1_eq. Qed.
Definition nz (p : G1Affine) : g1val := mkGV p false.
Lemma bind_ret_r {A} (c : Circ A) : ceq (bind c (fun r => Ret r)) c.
Proof.
  split; [rewrite run_bind; now destruct (run c)|]. intros a. rewrite sat_bind. split.
  - intros (b & H & E). cbn [sat] in E. now subst.
  - intros H. exists a. split; [exact H | reflexivity].
Qed.
Lemma mfold_nz l : forall p, ceq (mfold AddG1Points (map nz l) (nz p)) (r <- mfold chordAdd l p ;; Ret (nz r)).
Proof.
  induction l as [|x l IH]; intros p; cbn [map mfold]; [apply ceq_refl|].
  eapply ceq_trans; [|apply ceq_sym, ceq_assoc]. unfold AddG1Points at 1. cbn [nz gvZero gvP].
  eapply ceq_trans; [apply ceq_assoc|]. apply ceq_bind; [apply ceq_refl|]. intros a. cbn [bind]. apply (IH a).
Qed.
(** in the test engine the unset positions are skipped *)
Lemma test_chord l : forall p, ceq (mfold AddG1Points (map (sel TestEngine) l) (nz p)) (r <- mfold chordAdd (map toG (sgn l)) p ;; Ret (nz r)).
Proof.
  induction l as [|[b k] l IH]; intros p; cbn [map mfold]; [apply ceq_refl|].
  rewrite sel_test. unfold sgn. cbn [filter fst]. destruct (fval b =? 1).
  - cbn [map mfold snd]. unfold AddG1Points at 1. cbn [nz gvZero gvP].
    eapply ceq_trans; [apply ceq_assoc|]. eapply ceq_trans; [|apply ceq_sym, ceq_assoc].
    apply ceq_bind; [apply ceq_refl|]. intros a. cbn [bind]. apply (IH a).
  - unfold AddG1Points at 1. cbn [nz gvZero gvP bind]. apply IH.
Qed.
Lemma test_zero l : ceq (mfold AddG1Points (map (sel TestEngine) l) (mkGV zeroG1 true))
  (match sgn l with [] => Ret (mkGV zeroG1 true) | p :: t => r <- mfold chordAdd (map toG t) (toG p) ;; Ret (nz r) end).
Proof.
  induction l as [|[b k] l IH]; cbn [map mfold]; [apply ceq_refl|].
  rewrite sel_test. unfold sgn. cbn [filter fst]. destruct (fval b =? 1).
  - cbn [map]. unfold AddG1Points at 1. cbn [gvZero bind snd]. apply test_chord.
  - unfold AddG1Points at 1. cbn [gvZero bind]. apply IH.
Qed.
Lemma addAll_test l : l <> [] -> ceq (addAll (map (sel TestEngine) l))
  (match sgn l with [] => Ret zeroG1 | p :: t => mfold chordAdd (map toG t) (toG p) end).
Proof.
  destruct l as [|[b k] l]; [tauto|]. intros _. cbn [map addAll]. rewrite sel_test. unfold sgn. cbn [filter fst].
  destruct (fval b =? 1); cbn [map snd].
  - eapply ceq_trans; [apply ceq_bind; [apply test_chord|intros; apply ceq_refl]|].
    eapply ceq_trans; [apply ceq_assoc|]. cbn [bind gvP nz]. apply bind_ret_r.
  - fold (sgn l). eapply ceq_trans; [apply ceq_bind; [apply test_zero|intros; apply ceq_refl]|].
    destruct (sgn l) as [|p t]; [apply ceq_refl|].
    eapply ceq_trans; [apply ceq_assoc|]. cbn [bind gvP nz]. apply bind_ret_r.
Qed.
(** in the compiled circuit an unset position adds (0,0) by the chord formula *)
Definition allpts (l : list (Fr * G1Key)) : list (Fp * Fp) := map (fun bk => if fval (fst bk) =? 1 then key_xy (snd bk) else (fp0, fp0)) l.
Lemma map_sel_comp l : map (sel Compiled) l = map nz (map toG (allpts l)).
Proof. unfold allpts. rewrite !map_map. apply map_ext. intros [b k]. apply sel_comp. Qed.
Lemma addAll_comp l : ceq (addAll (map (sel Compiled) l))
  (match allpts l with [] => Fail | p :: t => mfold chordAdd (map toG t) (toG p) end).
Proof.
  rewrite map_sel_comp. destruct (allpts l) as [|p t]; cbn [map addAll]; [apply ceq_refl|].
  eapply ceq_trans; [apply ceq_bind; [apply mfold_nz|intros; apply ceq_refl]|].
  eapply ceq_trans; [apply ceq_assoc|]. cbn [bind gvP nz]. apply bind_ret_r.
Qed.

(** ** Aggregation theorems *)
Lemma sat_assert_iff {A} b (c : Circ A) a : sat (assert b ;;; c) a <-> b = true /\ sat c a.
Proof. apply (sat_assert_bind b (fun _ => c) a). Qed.
Lemma run_assert_iff {A} b (c : Circ A) a : run (assert b ;;; c) = Some a <-> b = true /\ run c = Some a.
Proof. destruct b; cbn [assert bind run]; [tauto|]. split; [discriminate | intros [H _]; discriminate]. Qed.
Lemma combine_nil_l {A B} (a : list A) (b : list B) n : length a = S n -> length b = S n -> combine a b <> [].
Proof. destruct a, b; cbn; intros; discriminate. Qed.

Lemma test_chain l P : l <> [] -> (run (addAll (map (sel TestEngine) l)) = Some P <->
  (sgn l = [] /\ P = zeroG1) \/ generic_sum (sgn l) (g1X P, g1Y P)).
Proof.
  intros N. rewrite (proj1 (addAll_test l N)). destruct (sgn l) as [|p t].
  - cbn [run]. split.
    + intros H. left. split; [reflexivity | congruence].
    + intros [[_ ->]|H]; [reflexivity|]. exfalso. remember [] as L in H. destruct H as [q|l' s q r]; [discriminate | destruct l'; discriminate].
  - rewrite <- (toG_xy P) at 1. rewrite chain_run. split; [now right | intros [[H _]|H]; [discriminate | exact H]].
Qed.
Theorem aggRot_test keys bits P : length keys = 10%nat -> length bits = 10%nat ->
  (run (AggregatePublicKeys_Rotate TestEngine keys bits) = Some P <->
   is_bits bits /\ Forall key_wf keys /\
   ((signers bits keys = [] /\ P = mkG1 (f0 pBLS) (f0 pBLS)) \/ generic_sum (map key_xy (signers bits keys)) (g1X P, g1Y P))).
Proof.
  intros Hk Hb. rewrite (proj1 (aggRot_eq TestEngine keys bits Hk Hb)), run_assert_iff, selOk_iff by lia.
  rewrite test_chain by (apply (combine_nil_l _ _ 9); assumption). rewrite sgn_signers, <- and_assoc.
  assert (E : map key_xy (signers bits keys) = [] <-> signers bits keys = []).
  { destruct (signers bits keys); cbn; split; congruence. }
  rewrite E. reflexivity.
Qed.
Lemma feqb_swF bits ws t : feqb (swF bits ws) t = true <-> fval t = signed_weight bits ws mod rBN.
Proof.
  rewrite feqb_eq, <- swF_val. split; [intros ->; reflexivity | intros H; now apply fval_inj].
Qed.
Theorem agg_test keys bits ws t P : length keys = 10%nat -> length bits = 10%nat -> length ws = 10%nat ->
  (run (AggregatePublicKeys TestEngine keys bits ws t) = Some P <->
   is_bits bits /\ Forall key_wf keys /\ fval t = signed_weight bits ws mod rBN /\
   ((signers bits keys = [] /\ P = mkG1 (f0 pBLS) (f0 pBLS)) \/ generic_sum (map key_xy (signers bits keys)) (g1X P, g1Y P))).
Proof.
  intros Hk Hb Hw. rewrite (proj1 (agg_eq TestEngine keys bits ws t Hk Hb Hw)), !run_assert_iff, selOk_iff by lia.
  rewrite test_chain by (apply (combine_nil_l _ _ 9); assumption). rewrite sgn_signers, feqb_swF, and_assoc.
  assert (E : map key_xy (signers bits keys) = [] <-> signers bits keys = []).
  { destruct (signers bits keys); cbn; split; congruence. }
  rewrite E. reflexivity.
Qed.

(** C40, for any engine and any prover *)
Theorem agg_weight eng keys bits ws t P : length keys = 10%nat -> length bits = 10%nat -> length ws = 10%nat ->
  sat (AggregatePublicKeys eng keys bits ws t) P ->
  is_bits bits /\ fval t = signed_weight bits ws mod rBN.
Proof.
  intros Hk Hb Hw H. apply (proj2 (agg_eq eng keys bits ws t Hk Hb Hw)) in H. rewrite !sat_assert_iff in H.
  destruct H as [H1 [H2 _]]. apply selOk_iff in H1; [|lia]. apply feqb_swF in H2. tauto.
Qed.

(** all bits set: the compiled circuit computes the sum, and the prover has no choice *)
Lemma allpts_ones bits : forall keys, Forall (fun b => fval b = 1) bits -> length bits = length keys ->
  allpts (combine bits keys) = map key_xy keys.
Proof.
  induction bits as [|b bits IH]; intros [|k keys] F L; cbn [length] in L; try discriminate; [reflexivity|].
  inversion F as [|? ? F1 F2]; subst. unfold allpts. cbn [combine map fst snd]. rewrite F1. cbn [Z.eqb Pos.eqb]. f_equal. apply IH; [exact F2 | lia].
Qed.
Lemma ones_bits bits : Forall (fun b : Fr => fval b = 1) bits -> is_bits bits.
Proof. apply Forall_impl. tauto. Qed.
Lemma comp_chain l P : run (addAll (map (sel Compiled) l)) = Some P <-> generic_sum (allpts l) (g1X P, g1Y P).
Proof.
  rewrite (proj1 (addAll_comp l)). destruct (allpts l) as [|p t].
  - cbn [run]. split; [discriminate|]. intros H. exfalso. remember [] as L in H. destruct H as [q|l' s q r]; [discriminate | destruct l'; discriminate].
  - rewrite <- (toG_xy P) at 1. apply chain_run.
Qed.
Lemma comp_det l P : run (addAll (map (sel Compiled) l)) = Some P -> determ (addAll (map (sel Compiled) l)) P.
Proof.
  intros H. split; [exact H|]. intros b Hb. apply (proj2 (addAll_comp l)) in Hb. rewrite (proj1 (addAll_comp l)) in H.
  destruct (allpts l) as [|p t]; [discriminate|]. now apply (proj2 (chain_det _ _ _ H)).
Qed.
Theorem aggRot_comp_ones keys bits P : length keys = 10%nat -> length bits = 10%nat ->
  Forall (fun b => fval b = 1) bits -> Forall key_wf keys ->
  generic_sum (map key_xy keys) (g1X P, g1Y P) -> determ (AggregatePublicKeys_Rotate Compiled keys bits) P.
Proof.
  intros Hk Hb F W G. assert (S : forallb selOk (combine bits keys) = true) by (apply selOk_iff; [lia|]; split; [now apply ones_bits | exact W]).
  rewrite <- (allpts_ones bits) in G by (assumption || lia). apply comp_chain in G. apply comp_det in G. destruct G as [G1 G2].
  destruct (aggRot_eq Compiled keys bits Hk Hb) as [E1 E2]. rewrite S in E1, E2. split; [rewrite E1; exact G1|].
  intros b Hb'. apply E2 in Hb'. now apply G2.
Qed.
Theorem agg_comp_ones keys bits ws t P : length keys = 10%nat -> length bits = 10%nat -> length ws = 10%nat ->
  Forall (fun b => fval b = 1) bits -> Forall key_wf keys -> fval t = signed_weight bits ws mod rBN ->
  generic_sum (map key_xy keys) (g1X P, g1Y P) -> determ (AggregatePublicKeys Compiled keys bits ws t) P.
Proof.
  intros Hk Hb Hw F W T G. assert (S : forallb selOk (combine bits keys) = true) by (apply selOk_iff; [lia|]; split; [now apply ones_bits | exact W]).
  apply feqb_swF in T.
  rewrite <- (allpts_ones bits) in G by (assumption || lia). apply comp_chain in G. apply comp_det in G. destruct G as [G1 G2].
  destruct (agg_eq Compiled keys bits ws t Hk Hb Hw) as [E1 E2]. rewrite S, T in E1, E2. split; [rewrite E1; exact G1|].
  intros b Hb'. apply E2 in Hb'. now apply G2.
Qed.

(** one signer, at position 0: the nine additions of (0,0) leave (4/x^2, -4y/x^3) *)
Section Shift.
Variables x y : Fp.
Hypothesis X0 : x <> fp0.
Hypothesis C : fmul y y = fadd (fmul (fmul x x) x) (fpZ 4).
Definition shx : Fp := fdiv (fpZ 4) (fmul x x).
Definition shy : Fp := fopp (fdiv (fmul (fpZ 4) y) (fmul (fmul x x) x)).
Lemma fp4_neq0 : fpZ 4 <> fp0.
Proof. intros H. apply (f_equal fval) in H. unfold fpZ, f0 in H. rewrite !fval_ofZ in H. discriminate H. Qed.
Lemma shx_neq0 : shx <> fp0.
Proof.
  intros H. apply fp4_neq0. replace (fpZ 4) with (fmul shx (fmul x x)); [rewrite H; ring|]. unfold shx. field. exact X0.
Qed.
Lemma slope2 : fmul (fdiv y x) (fdiv y x) = fdiv (fadd (fmul (fmul x x) x) (fpZ 4)) (fmul x x).
Proof. transitivity (fdiv (fmul y y) (fmul x x)); [field; exact X0 | now rewrite C]. Qed.
Lemma shift_to : run (chordAdd (mkG1 x y) zeroG1) = Some (mkG1 shx shy).
Proof.
  apply chord_run. unfold zeroG1. cbn [g1X g1Y]. split; [exact X0|]. exists (fdiv y x). split; [field; exact X0|].
  unfold chordR. cbn [g1X g1Y]. rewrite slope2.
  assert (E : fsub (fsub (fdiv (fadd (fmul (fmul x x) x) (fpZ 4)) (fmul x x)) x) fp0 = shx) by (unfold shx; field; exact X0).
  rewrite E. f_equal. unfold shy, shx. field. exact X0.
Qed.
Lemma shift_back : run (chordAdd (mkG1 shx shy) zeroG1) = Some (mkG1 x y).
Proof.
  apply chord_run. unfold zeroG1. cbn [g1X g1Y]. split; [exact shx_neq0|]. exists (fopp (fdiv y x)).
  split; [unfold shx, shy; field; exact X0|].
  unfold chordR. cbn [g1X g1Y]. 
  assert (E : fsub (fsub (fmul (fopp (fdiv y x)) (fopp (fdiv y x))) shx) fp0 = x).
  { transitivity (fsub (fmul (fdiv y x) (fdiv y x)) shx); [ring|]. rewrite slope2. unfold shx. field. exact X0. }
  rewrite E. f_equal. unfold shy, shx. field. exact X0.
Qed.
Lemma shift9 : run (mfold chordAdd (repeat zeroG1 9) (mkG1 x y)) = Some (mkG1 shx shy).
Proof.
  cbn [repeat mfold]. do 4 (rewrite run_bind, shift_to, run_bind, shift_back). rewrite run_bind, shift_to. reflexivity.
Qed.
(** that point is on the curve only if x^3 = 4 *)
Lemma shift_off : fmul (fmul x x) x <> fpZ 4 -> ~ oncurve1 (Aff shx shy).
Proof.
  intros N H. unfold oncurve1, on_curve in H. apply N.
  set (c := fmul (fmul x x) x) in *.
  (* shy^2 = 16 y^2 / c^2, shx^3 = 64 / c^2 *)
  assert (Cz : c <> fp0). { intros Z. unfold c in Z. apply fp_integral in Z. destruct Z as [Z|Z]; [apply fp_integral in Z; tauto | tauto]. }
  assert (H2 : fmul (fmul shy shy) (fmul c c) = fmul (fpZ 16) (fmul y y)) by (unfold shy, c; field; exact X0).
  assert (H3 : fmul (fmul (fmul shx shx) shx) (fmul c c) = fpZ 64) by (unfold shx, c; field; exact X0).
  rewrite C in H2. fold c in H2. rewrite H in H2.
  assert (H4 : fadd (fmul (fmul (fmul shx shx) shx) (fmul c c)) (fmul (fpZ 4) (fmul c c)) = fmul (fpZ 16) (fadd c (fpZ 4))).
  { rewrite <- H2. unfold fpZ. ring. }
  rewrite H3 in H4.
  (* 64 + 4 c^2 = 16 c + 64 -> 4 c (c - 4) = 0 *)
  assert (H5 : fmul (fmul (fpZ 4) c) (fsub c (fpZ 4)) = fp0).
  { transitivity (fsub (fadd (fpZ 64) (fmul (fpZ 4) (fmul c c))) (fmul (fpZ 16) (fadd c (fpZ 4)))); [unfold fpZ; ring|]. rewrite H4. ring. }
  apply fp_integral in H5. destruct H5 as [H5|H5]; [apply fp_integral in H5; destruct H5 as [H5|H5]; [now elim fp4_neq0 | now elim Cz] | now apply fsub_0].
Qed.
End Shift.

Definition first_only (bits : list Fr) : Prop := exists b rest, bits = b :: rest /\ fval b = 1 /\ Forall (fun c => fval c = 0) rest.
Lemma allpts_zero bits : forall keys, Forall (fun c => fval c = 0) bits -> length bits = length keys ->
  map toG (allpts (combine bits keys)) = repeat zeroG1 (length keys).
Proof.
  induction bits as [|b bits IH]; intros [|k keys] F L; cbn [length] in L; try discriminate; [reflexivity|].
  inversion F as [|? ? F1 F2]; subst. unfold allpts. cbn [combine map fst snd length repeat]. rewrite F1. cbn [Z.eqb].
  f_equal. apply IH; [exact F2 | lia].
Qed.
Lemma signers_zero {A} bits : forall keys : list A, Forall (fun c => fval c = 0) bits -> signers bits keys = [].
Proof.
  induction bits as [|b bits IH]; intros [|k keys] F; try reflexivity.
  inversion F as [|? ? F1 F2]; subst. unfold signers. cbn [combine filter fst]. rewrite F1. cbn [Z.eqb]. now apply IH.
Qed.
Lemma one_signer {A} bits keys (k : A) : first_only bits -> signers bits (k :: keys) = [k].
Proof.
  intros (b & rest & -> & B & F). unfold signers. cbn [combine filter fst map]. rewrite B. cbn [Z.eqb Pos.eqb map snd].
  f_equal. exact (signers_zero rest keys F).
Qed.
Theorem aggRot_comp_one k keys bits : length (k :: keys) = 10%nat -> length bits = 10%nat ->
  first_only bits -> Forall key_wf (k :: keys) -> oncurve1 (key_point k) -> key_x k <> fp0 ->
  exists P, determ (AggregatePublicKeys_Rotate Compiled (k :: keys) bits) P /\
    fmul (g1X P) (fmul (key_x k) (key_x k)) = fpZ 4 /\
    (fmul (fmul (key_x k) (key_x k)) (key_x k) <> fpZ 4 -> ~ oncurve1 (Aff (g1X P) (g1Y P))).
Proof.
  intros Hk Hb O W C X0. exists (mkG1 (shx (key_x k)) (shy (key_x k) (key_y k))).
  assert (C' : fmul (key_y k) (key_y k) = fadd (fmul (fmul (key_x k) (key_x k)) (key_x k)) (fpZ 4)).
  { unfold oncurve1, on_curve, key_point in C. rewrite C. unfold fpZ. ring. }
  split; [|split].
  - assert (B : is_bits bits). { destruct O as (b & rest & -> & B & F). constructor; [tauto|]. revert F. apply Forall_impl. tauto. }
    assert (S : forallb selOk (combine bits (k :: keys)) = true) by (apply selOk_iff; [lia | tauto]).
    assert (R : run (addAll (map (sel Compiled) (combine bits (k :: keys)))) = Some (mkG1 (shx (key_x k)) (shy (key_x k) (key_y k)))).
    { rewrite (proj1 (addAll_comp _)). destruct O as (b & rest & -> & B1 & F). unfold allpts. cbn [combine map fst snd]. rewrite B1. cbn [Z.eqb Pos.eqb].
      fold (allpts (combine rest keys)). rewrite allpts_zero by (cbn [length] in *; assumption || lia).
      replace (length keys) with 9%nat by (cbn [length] in Hk; lia). exact (shift9 _ _ X0 C'). }
    apply comp_det in R. destruct R as [R1 R2]. destruct (aggRot_eq Compiled (k :: keys) bits Hk Hb) as [E1 E2]. rewrite S in E1, E2.
    split; [rewrite E1; exact R1|]. intros q Hq. apply E2 in Hq. now apply R2.
  - cbn [g1X]. unfold shx. field. exact X0.
  - cbn [g1X g1Y]. now apply shift_off.
Qed.

(** ** AddG1Points *)
Lemma AddG1_sat p q r : sat (AddG1Points (nz p) (nz q)) r <-> exists R, sat (chordAdd p q) R /\ r = nz R.
Proof.
  unfold AddG1Points. cbn [nz gvZero gvP]. rewrite sat_bind. split; intros (R & H & E); exists R; (split; [exact H|]).
  - cbn [sat] in E. now symmetry.
  - cbn [sat]. now symmetry.
Qed.
Theorem AddG1_sound p q : g1X p <> g1X q -> exists R, determ (AddG1Points (nz p) (nz q)) (nz R) /\
  add1 (Aff (g1X p) (g1Y p)) (Aff (g1X q) (g1Y q)) (Aff (g1X R) (g1Y R)).
Proof.
  intros N. assert (N' : fsub (g1X q) (g1X p) <> fp0) by (intros Z; apply N; symmetry; now apply fsub_0).
  set (l := fdiv (fsub (g1Y q) (g1Y p)) (fsub (g1X q) (g1X p))).
  assert (L : fmul l (fsub (g1X q) (g1X p)) = fsub (g1Y q) (g1Y p)) by (unfold l; field; exact N').
  assert (R : run (chordAdd p q) = Some (chordR l p q)) by (apply chord_run; split; [exact N | now exists l]).
  exists (chordR l p q). split.
  - split.
    + unfold AddG1Points. cbn [nz gvZero gvP]. rewrite run_bind, R. reflexivity.
    + intros b Hb. apply AddG1_sat in Hb. destruct Hb as (R' & H & ->). f_equal. exact (chord_uniq _ _ _ _ R H).
  - apply add1_chord; [exact N|]. exists l. split; [exact L|]. destruct p, q. reflexivity.
Qed.
(** equal operands: any slope is accepted; opposite operands: nothing is accepted *)
Theorem AddG1_double_free p l : sat (AddG1Points (nz p) (nz p)) (nz (chordR l p p)).
Proof. apply AddG1_sat. exists (chordR l p p). split; [|reflexivity]. apply chord_sat. exists l. split; [ring | reflexivity]. Qed.
Theorem AddG1_opp_unsat x y : fadd y y <> fp0 -> unsat (AddG1Points (nz (mkG1 x y)) (nz (mkG1 x (fopp y)))).
Proof.
  intros N r H. apply AddG1_sat in H. destruct H as (R & H & _). apply chord_sat in H. destruct H as (l & H & _). cbn [g1X g1Y] in H.
  apply N. replace (fadd y y) with (fopp (fsub (fopp y) y)) by ring. rewrite <- H. ring.
Qed.

(** ** The trusted weight *)
Lemma determ_ceq {A} (c : Circ A) a : determ c a -> ceq c (Ret a).
Proof. intros D. split; [apply D|]. intros b. rewrite (determ_sat _ _ D b). cbn [sat]. split; now symmetry. Qed.
Lemma cmp_cmp (a b : Fr) : api_Cmp (api_Cmp a b) fr0 = bF (negb (feqb a b)).
Proof.
  assert (Z : forall z, 0 < z < rBN -> api_Cmp (ofZ rBN z) fr0 = fr1).
  { intros z Hz. unfold api_Cmp. rewrite fval_fr0, fval_ofZ_small by lia. destruct (Z.compare_spec z 0); [lia | lia | reflexivity]. }
  unfold api_Cmp at 2. destruct (Z.compare_spec (fval a) (fval b)) as [E|L|G].
  - rewrite (proj2 (feqb_eq a b)) by (now apply fval_inj). cbn [negb bF]. unfold api_Cmp. rewrite fval_fr0. reflexivity.
  - rewrite (proj2 (feqb_neq a b)) by (intros ->; lia). cbn [negb bF].
    replace (ofZ rBN (-1)) with (ofZ rBN (rBN - 1)) by (apply fval_inj; rewrite !fval_ofZ; reflexivity). apply Z. split; reflexivity.
  - rewrite (proj2 (feqb_neq a b)) by (intros ->; lia). cbn [negb bF]. apply (Z 1). split; reflexivity.
Qed.
Lemma cmpStep_det sx sy ox oy b j : determ (cmpStep sx sy ox oy (bF b) j)
  (bF (b || (negb (feqb (at_ sx j) (at_ ox j)) || negb (feqb (at_ sy j) (at_ oy j))))).
Proof. unfold cmpStep. rewrite !cmp_cmp. eapply determ_bind; apply determ_Or. Qed.
Lemma cmp_fold sx sy ox oy l : forall b, determ (mfold (cmpStep sx sy ox oy) l (bF b))
  (bF (b || negb (forallb (fun j => feqb (at_ sx j) (at_ ox j) && feqb (at_ sy j) (at_ oy j)) l))).
Proof.
  induction l as [|j l IH]; intros b; cbn [mfold forallb].
  - cbn [negb]. rewrite orb_false_r. apply determ_ret.
  - eapply determ_bind; [apply cmpStep_det|].
    replace (b || negb (feqb (at_ sx j) (at_ ox j) && feqb (at_ sy j) (at_ oy j) && forallb (fun j => feqb (at_ sx j) (at_ ox j) && feqb (at_ sy j) (at_ oy j)) l))
      with ((b || (negb (feqb (at_ sx j) (at_ ox j)) || negb (feqb (at_ sy j) (at_ oy j)))) || negb (forallb (fun j => feqb (at_ sx j) (at_ ox j) && feqb (at_ sy j) (at_ oy j)) l)).
    + apply IH.
    + rewrite !negb_andb, !orb_assoc. reflexivity.
Qed.
Lemma nth_seq6 (f : nat -> Fr) : forall j, (j < 6)%nat -> at_ (map f (seq 0 6)) j = f j.
Proof. intros j H. unfold at_. rewrite (nth_indep _ fr0 (f 0%nat)) by (rewrite map_length, seq_length; lia). rewrite map_nth, seq_nth by lia. reflexivity. Qed.
Lemma forallb_eq6 (l m : list Fr) : length l = 6%nat -> length m = 6%nat ->
  (forallb (fun j => feqb (at_ l j) (at_ m j)) (seq 0 6) = true <-> l = m).
Proof.
  intros Hl Hm. rewrite forallb_forall. split.
  - intros H. apply (nth_ext _ _ fr0 fr0); [lia|]. intros j Hj. apply feqb_eq. apply (H j). apply in_seq. lia.
  - intros -> j _. apply feqb_refl.
Qed.
Definition selLimbs (b : Fr) (l : list Fr) : list Fr := map (fun j => if tb b then at_ l j else fr0) (seq 0 6).
Lemma selectLimbs_eq b l : ceq (selectLimbs b l) (assert (isbool b) ;;; Ret (selLimbs b l)).
Proof.
  unfold selectLimbs. eapply ceq_trans; [apply ceq_mmap; intros j _; apply api_Select_eq|].
  eapply ceq_trans; [apply (ceq_mmap_assert (fun _ => isbool b))|]. cbn [seq forallb]. unfold selLimbs.
  destruct (isbool b); apply ceq_refl.
Qed.
Lemma selLimbs_val b l : length l = 6%nat -> selLimbs b l = if fval b =? 1 then l else repeat fr0 6.
Proof.
  intros H. unfold selLimbs. rewrite tb_fval. destruct (fval b =? 1); [|reflexivity]. unfold at_. rewrite <- H. apply seq_nth_map.
Qed.
Definition agreeB (p : Fr * G1Key * G1Key) : bool :=
  forallb (fun j => feqb (at_ (selLimbs (fst (fst p)) (kX (snd (fst p)))) j) (at_ (kX (snd p)) j) &&
                    feqb (at_ (selLimbs (fst (fst p)) (kY (snd (fst p)))) j) (at_ (kY (snd p)) j)) (seq 0 6).
Lemma forallb_andb {A} (f g : A -> bool) l : forallb (fun x => f x && g x) l = forallb f l && forallb g l.
Proof. induction l as [|x l IH]; cbn; [reflexivity|]. rewrite IH. destruct (f x), (g x), (forallb f l); reflexivity. Qed.
Lemma agreeB_iff b n o : key6 n -> key6 o -> fval b = 0 \/ fval b = 1 -> (agreeB (b, n, o) = true <-> counted (b, n, o)).
Proof.
  intros [N1 N2] [O1 O2] B. unfold agreeB. cbn [fst snd]. rewrite forallb_andb, andb_true_iff.
  assert (LX : length (selLimbs b (kX n)) = 6%nat) by reflexivity. assert (LY : length (selLimbs b (kY n)) = 6%nat) by reflexivity.
  rewrite (forallb_eq6 _ _ LX O1), (forallb_eq6 _ _ LY O2), !selLimbs_val by assumption.
  unfold counted, signed_and_kept, zero_key. cbn [fst snd]. destruct n as [nx ny], o as [ox oy]; cbn [kX kY].
  destruct B as [B|B]; rewrite B; cbn [Z.eqb Pos.eqb]; split.
  - intros [<- <-]. right. split; reflexivity.
  - intros [[H _]|[_ H]]; [discriminate | injection H as -> ->; split; reflexivity].
  - intros [-> ->]. left. split; reflexivity.
  - intros [[_ H]|[H _]]; [injection H as -> ->; split; reflexivity | discriminate].
Qed.

Definition tstep (s : Fr) (x : Fr * G1Key * G1Key * Fr) : Fr := fadd s (if agreeB (fst x) then snd x else fr0).
Lemma trusted_eq old new bits ws : length old = 10%nat -> length new = 10%nat -> length bits = 10%nat -> length ws = 10%nat ->
  ceq (CalculateTrustedWeight old new bits ws)
      (assert (forallb isbool bits) ;;; Ret (fold_left tstep (positions bits new old ws) fr0)).
Proof.
  intros Ho Hn Hb Hw. unfold CalculateTrustedWeight.
  assert (Lp : length (positions bits new old ws) = 10%nat) by (unfold positions; rewrite !combine_length; lia).
  set (k0 := mkKey [] []).
  set (gs := fun i => (selLimbs (at_ bits i) (kX (keyAt new i)), selLimbs (at_ bits i) (kY (keyAt new i)))).
  eapply ceq_trans.
  { apply (ceq_bind _ (assert (forallb isbool bits) ;;; Ret (map gs (seq 0 10)))).
    - eapply ceq_trans.
      { apply (ceq_mmap _ (fun i => assert (isbool (at_ bits i)) ;;; Ret (gs i))). intros i _.
        eapply ceq_trans; [apply ceq_bind; [apply selectLimbs_eq|intros a; apply ceq_bind; [apply selectLimbs_eq|intros; apply ceq_refl]]|].
        unfold gs. destruct (isbool (at_ bits i)); apply ceq_refl. }
      eapply ceq_trans; [apply (ceq_mmap_assert (fun i => isbool (at_ bits i)))|].
      replace (forallb (fun i => isbool (at_ bits i)) (seq 0 10)) with (forallb isbool bits); [apply ceq_refl|].
      rewrite <- (forallb_map isbool (at_ bits)). unfold at_. rewrite <- Hb, seq_nth_map. reflexivity.
    - intros a. apply ceq_refl. }
  destruct (forallb isbool bits); cbn [assert bind]; [|apply ceq_refl].
  eapply ceq_trans.
  { apply (ceq_mfold _ (fun s i => (fun s x => assert true ;;; Ret (tstep s x)) s (nth i (positions bits new old ws) (fr0, k0, k0, fr0)))).
    intros s i Hi. apply in_seq in Hi.
    unfold positions. rewrite !combine_nth by (rewrite ?combine_length; lia).
    rewrite (nth_indep _ _ (gs 0%nat)) by (rewrite map_length, seq_length; lia). rewrite map_nth, seq_nth by lia. cbn [Nat.add].
    unfold gs at 1. apply determ_ceq. eapply determ_bind; [exact (cmp_fold _ _ _ _ _ false)|]. cbn [orb].
    eapply determ_bind; [apply determ_Select|]. cbn [assert bind].
    change (determ (Ret (fadd s (if negb (agreeB (at_ bits i, keyAt new i, keyAt old i)) then fr0 else at_ ws i)))
                   (tstep s (at_ bits i, keyAt new i, keyAt old i, at_ ws i))).
    unfold tstep. cbn [fst snd]. destruct (agreeB (at_ bits i, keyAt new i, keyAt old i)); apply determ_ret. }
  eapply ceq_trans; [exact (mfold_map (fun i => nth i (positions bits new old ws) (fr0, k0, k0, fr0)) (fun s x => assert true ;;; Ret (tstep s x)) _ _)|].
  rewrite <- Lp, seq_nth_map.
  eapply ceq_trans; [apply (ceq_mfold_assert (fun _ => true))|].
  replace (forallb _ _) with true; [apply ceq_refl|]. symmetry. apply forallb_forall. reflexivity.
Qed.
Lemma weight_where_acc (P : Fr * G1Key * G1Key -> Prop) l : Forall (fun x => agreeB (fst x) = true <-> P (fst x)) l -> forall s,
  exists z, weight_where P l z /\ fval (fold_left tstep l s) = (fval s + z) mod rBN.
Proof.
  induction l as [|[a w] l IH]; intros F s; cbn [fold_left].
  - exists 0. split; [constructor|]. rewrite Z.add_0_r. symmetry. apply fval_mod.
  - inversion F as [|? ? F1 F2]; subst. cbn [fst] in F1. destruct (IH F2 (tstep s (a, w))) as (z & Hz & E). rewrite E.
    unfold tstep. cbn [fst snd]. destruct (agreeB a) eqn:A.
    + exists (fval w + z). split; [constructor; tauto|]. unfold fadd. rewrite fval_ofZ, Zplus_mod_idemp_l. f_equal. lia.
    + exists z. split; [apply ww_out; [rewrite <- F1; discriminate | exact Hz]|]. unfold fadd. rewrite fval_ofZ, Zplus_mod_idemp_l, fval_fr0. f_equal. lia.
Qed.
Lemma weight_where_fun {A} (P Q : A -> Prop) l z1 z2 : Forall (fun x => P (fst x) <-> Q (fst x)) l ->
  weight_where P l z1 -> weight_where Q l z2 -> z1 = z2.
Proof.
  intros F H. revert z2. induction H as [|a w l z Pa H IH|a w l z Pa H IH]; intros z2 H2.
  - inversion H2; reflexivity.
  - inversion F as [|? ? F1 F2]; subst. cbn [fst] in F1. inversion H2; subst; [f_equal; now apply IH | tauto].
  - inversion F as [|? ? F1 F2]; subst. cbn [fst] in F1. inversion H2; subst; [tauto | now apply IH].
Qed.
Lemma Forall_positions (Q : Fr * G1Key * G1Key -> Prop) bits new old ws :
  (forall b n o, In b bits -> In n new -> In o old -> Q (b, n, o)) -> Forall (fun x => Q (fst x)) (positions bits new old ws).
Proof.
  intros H. apply Forall_forall. intros [[[b n] o] w] Hx. unfold positions in Hx. apply in_combine_l in Hx. cbn [fst].
  pose proof (in_combine_r _ _ _ _ Hx). apply in_combine_l in Hx. pose proof (in_combine_r _ _ _ _ Hx). apply in_combine_l in Hx. now apply H.
Qed.
Section Trusted.
Variables (old new : list G1Key) (bits ws : list Fr).
Hypotheses (Ho : length old = 10%nat) (Hn : length new = 10%nat) (Hb : length bits = 10%nat) (Hw : length ws = 10%nat).
Hypotheses (K1 : Forall key6 old) (K2 : Forall key6 new).
Lemma agree_pos : is_bits bits -> Forall (fun x => agreeB (fst x) = true <-> counted (fst x)) (positions bits new old ws).
Proof.
  intros B. apply (Forall_positions (fun p => agreeB p = true <-> counted p)). intros b n o Hb' Hn' Ho'.
  apply agreeB_iff; [now apply (proj1 (Forall_forall _ _) K2) | now apply (proj1 (Forall_forall _ _) K1) | now apply (proj1 (Forall_forall _ _) B)].
Qed.
(** what the function computes, for every input *)
Theorem trusted_general t : sat (CalculateTrustedWeight old new bits ws) t <->
  is_bits bits /\ exists z, weight_where counted (positions bits new old ws) z /\ fval t = z mod rBN.
Proof.
  rewrite (proj2 (trusted_eq old new bits ws Ho Hn Hb Hw)), sat_assert_iff, <- is_bits_iff. split.
  - intros [B E]. split; [exact B|]. cbn [sat] in E. subst t. destruct (weight_where_acc counted _ (agree_pos B) fr0) as (z & Hz & E).
    exists z. split; [exact Hz|]. rewrite E, fval_fr0. reflexivity.
  - intros [B (z & Hz & E)]. split; [exact B|]. cbn [sat]. destruct (weight_where_acc counted _ (agree_pos B) fr0) as (z' & Hz' & E').
    rewrite fval_fr0 in E'. cbn [Z.add] in E'. apply fval_inj. rewrite E, E'. f_equal.
    refine (weight_where_fun counted counted _ _ _ _ Hz' Hz). apply Forall_forall. tauto.
Qed.
Theorem trusted_run t : sat (CalculateTrustedWeight old new bits ws) t -> run (CalculateTrustedWeight old new bits ws) = Some t.
Proof.
  destruct (trusted_eq old new bits ws Ho Hn Hb Hw) as [E1 E2]. intros H. apply E2 in H. apply sat_assert_iff in H. destruct H as [H1 H2].
  rewrite E1, H1. cbn [assert bind run]. cbn [sat] in H2. now rewrite H2.
Qed.
(** when no old key is all zero, exactly the signing positions with an unchanged key count *)
Theorem trusted_formula t : Forall (fun k => k <> zero_key) old -> (sat (CalculateTrustedWeight old new bits ws) t <->
  is_bits bits /\ exists z, weight_where signed_and_kept (positions bits new old ws) z /\ fval t = z mod rBN).
Proof.
  intros NZ. rewrite trusted_general.
  assert (Q : Forall (fun x => counted (fst x) <-> signed_and_kept (fst x)) (positions bits new old ws)).
  { apply (Forall_positions (fun p => counted p <-> signed_and_kept p)). intros b n o _ _ Ho'. unfold counted. cbn [snd fst].
    pose proof (proj1 (Forall_forall _ _) NZ o Ho') as NZo. cbv beta in NZo. tauto. }
  assert (T : forall (A B : Fr * G1Key * G1Key -> Prop) l z, Forall (fun x => A (fst x) <-> B (fst x)) l -> weight_where A l z -> weight_where B l z).
  { intros A B l z F H. induction H as [|a w l z Pa H IH|a w l z Pa H IH]; [constructor| |];
      inversion F as [|? ? F1 F2]; subst; cbn [fst] in F1; [apply ww_in | apply ww_out]; tauto. }
  split; intros [B (z & Hz & E)]; (split; [exact B|]); exists z; (split; [|exact E]).
  - exact (T _ _ _ _ Q Hz).
  - refine (T _ _ _ _ _ Hz). revert Q. apply Forall_impl. intros; now symmetry.
Qed.
End Trusted.
