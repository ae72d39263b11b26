(** C35: the fixed-argument Miller loops agree with the generic loop; and the
    consequences for pairing checks (C36). *)
From Coq Require Import ZArith List Bool Lia Ring Field.
From Verif Require Import Params ZMod RingPow Circuit Api Emulated Tower TowerSpec FieldFacts TowerFacts ApiFacts TowerProofs CurveSpec PrecompTable Pairing MillerProofs FixedQ.
Import ListNotations.
Open Scope Z_scope.

Definition tabE (xy yi : Fp) (l : lineEvaluation) : E12 := lineE12 (evalLine l xy yi).

Lemma tline_fun a b i l l' : tline a b i l -> tline a b i l' -> l' = l.
Proof.
  destruct l as [u v], l' as [u' v']. unfold tline. cbn [Pairing.R0 Pairing.R1].
  intros [H1 H2] [H3 H4]. congruence.
Qed.

Section Sem.
Variable sem : forall {A : Type}, Circ A -> A -> Prop.
Hypothesis sem_bind : forall (A B : Type) (c : Circ A) (f : A -> Circ B) b,
  sem (bind c f) b <-> exists a, sem c a /\ sem (f a) b.
Hypothesis sem_ret : forall (A : Type) (a b : A), sem (Ret a) b <-> a = b.
Hypothesis sem_fail : forall (A : Type) (a : A), sem (@Fail A) a -> False.
Hypothesis sem_det : forall (A : Type) (c : Circ A) (a b : A), determ c a -> (sem c b <-> b = a).

Notation gIter := (gIter (@sem)).
Notation iter1 := (iter1 (@sem)).
Notation iters1 := (iters1 (@sem)).
Notation gTriple := (gTriple (@sem)).
Notation fin1 := (fin1 (@sem)).
Notation loop1 := (loop1 (@sem)).
Notation gTangent := (gTangent (@sem)).

Lemma sem_mulTable a b i xy yi r l o : tline a b i l ->
  (sem (mulTable a b i xy yi r) o <-> o = E12_Mul r (tabE xy yi l)).
Proof.
  intros [H0 H1]. unfold mulTable, line_at. rewrite H0, H1. cbn [bind].
  rewrite sem_ret, E12_MulBy014_eq. unfold tabE, lineE12, evalLine. cbn [R0 R1]. split; congruence.
Qed.

(** the factor contributed by the table at iteration i *)
Definition fixF (xy yi : Fp) (i : nat) (m : E12) : Prop :=
  if Z.eqb (nth i loopCounter 0) 0
  then exists l, tline 0 1 i l /\ m = tabE xy yi l
  else exists l1 l2, tline 0 1 i l1 /\ tline 2 3 i l2 /\ m = E12_Mul (tabE xy yi l1) (tabE xy yi l2).
Lemma fixF_fun xy yi i m m' : fixF xy yi i m -> fixF xy yi i m' -> m = m'.
Proof.
  unfold fixF. destruct (nth i loopCounter 0 =? 0).
  - intros (l & T & ->) (l' & T' & ->). now rewrite (tline_fun _ _ _ _ _ T T').
  - intros (l & k & T & K & ->) (l' & k' & T' & K' & ->).
    now rewrite (tline_fun _ _ _ _ _ T T'), (tline_fun _ _ _ _ _ K K').
Qed.
Fixpoint fixes (xy yi : Fp) (L : list nat) (r r' : E12) : Prop :=
  match L with
  | [] => r' = r
  | i :: L => exists m, fixF xy yi i m /\ fixes xy yi L (E12_Mul (E12_Mul r r) m) r'
  end.
Lemma fixes_snoc xy yi L i r r' : fixes xy yi (L ++ [i]) r r' <->
  exists q m, fixes xy yi L r q /\ fixF xy yi i m /\ r' = E12_Mul (E12_Mul q q) m.
Proof.
  revert r. induction L as [|j L IH]; intros r; cbn [app fixes].
  - split.
    + intros (m & F & E). exists r, m. tauto.
    + intros (q & m & -> & F & E). exists m. tauto.
  - split.
    + intros (m & F & H). apply IH in H. destruct H as (q & m' & H & F' & E). exists q, m'.
      split; [exists m; tauto | tauto].
    + intros (q & m' & (m & F & H) & F' & E). exists m. split; [exact F|]. apply IH. exists q, m'. tauto.
Qed.
Lemma fixes_total xy yi L : forall t r, goods L t -> exists r', fixes xy yi L r r'.
Proof.
  induction L as [|i L IH]; intros t r G; cbn [fixes goods] in *; [now exists r|].
  destruct G as (t' & G & GL). assert (F : exists m, fixF xy yi i m).
  { unfold goodI in G. unfold fixF. destruct (nth i loopCounter 0 =? 0).
    - destruct G as (l & T & _). eexists. exists l. split; [exact T | reflexivity].
    - destruct G as (l1 & l2 & T1 & T2 & _). eexists. exists l1, l2. split; [exact T1|]. split; [exact T2 | reflexivity]. }
  destruct F as (m & F). destruct (IH t' (E12_Mul (E12_Mul r r) m) GL) as (r' & H). exists r', m. tauto.
Qed.

(** the generator's iterations produce exactly the table factors *)
Lemma gIter_gen xy yi i t t' m s' : goodI i t t' ->
  (gIter i (mkPS G2gen t xy yi) m s' <-> fixF xy yi i m /\ s' = mkPS G2gen t' xy yi).
Proof.
  unfold goodI, MillerProofs.gIter, fixF. destruct (nth i loopCounter 0 =? 0).
  - intros (l & T & D & _). unfold gDouble. cbn [psAcc psQ psXY psYI]. split.
    + intros (q & l1 & H & -> & ->). apply (sem_det _ _ _ _ D) in H. injection H as -> ->.
      split; [exists l; split; [exact T | reflexivity] | reflexivity].
    + intros ((l' & T' & ->) & ->).
      assert (l' = l) as ->. { exact (tline_fun _ _ _ _ _ T T'). }
      exists t', l. split; [now apply (sem_det _ _ _ _ D)|]. split; reflexivity.
  - intros (l1 & l2 & T1 & T2 & D). unfold gDoubleAdd. cbn [psAcc psQ psXY psYI]. split.
    + intros (q & a & b & H & -> & ->). apply (sem_det _ _ _ _ D) in H. injection H as -> -> ->.
      split; [exists l1, l2; split; [exact T1|]; split; [exact T2 | reflexivity] | reflexivity].
    + intros ((l1' & l2' & T1' & T2' & ->) & ->).
      assert (l1' = l1) as ->. { exact (tline_fun _ _ _ _ _ T1 T1'). }
      assert (l2' = l2) as ->. { exact (tline_fun _ _ _ _ _ T2 T2'). }
      exists t', l1, l2. split; [now apply (sem_det _ _ _ _ D)|]. split; reflexivity.
Qed.

Fixpoint trace (L : list nat) (t t' : G2Affine) : Prop :=
  match L with
  | [] => t' = t
  | i :: L => exists u, goodI i t u /\ trace L u t'
  end.
Lemma goods_trace L M : forall t, goods (L ++ M) t -> exists t', trace L t t' /\ goods M t'.
Proof.
  induction L as [|i L IH]; intros t G; cbn [app goods trace] in *; [now exists t|].
  destruct G as (u & G & GL). destruct (IH u GL) as (t' & T & GM). exists t'. split; [exists u; tauto | exact GM].
Qed.

Lemma iters_gen xy yi L : forall t t' r y, trace L t t' ->
  (iters1 L (r, mkPS G2gen t xy yi) y <-> fixes xy yi L r (fst y) /\ snd y = mkPS G2gen t' xy yi).
Proof.
  induction L as [|i L IH]; intros t t' r y T; cbn [trace MillerProofs.iters1 fixes] in *.
  - subst t'. destruct y as [a b]. cbn [fst snd]. split; [intros [= <- <-]; tauto | intros [-> ->]; reflexivity].
  - destruct T as (u & G & T). split.
    + intros (z & (m & H & E) & I). cbn [fst snd] in *.
      apply (gIter_gen _ _ _ _ _ _ _ G) in H. destruct H as (F & Ez).
      destruct z as [z1 z2]. cbn [fst snd] in *. subst z1 z2.
      apply (IH _ _ _ _ T) in I. destruct I as [I1 I2]. split; [exists m; tauto | exact I2].
    + intros ((m & F & I1) & I2). exists (E12_Mul (E12_Mul r r) m, mkPS G2gen u xy yi). split.
      * exists m. cbn [fst snd]. split; [|reflexivity]. apply (gIter_gen _ _ _ _ _ _ _ G). tauto.
      * apply (IH _ _ _ _ T). tauto.
Qed.

Lemma fin_gen xy yi t r z : goods [0%nat] t ->
  (fin1 (r, mkPS G2gen t xy yi) z <-> exists m, fixF xy yi 0 m /\ z = E12_Mul (E12_Mul r r) m).
Proof.
  cbn [goods]. intros (t' & G & _). unfold goodI in G. unfold fixF, MillerProofs.fin1, MillerProofs.gTangent.
  change (nth 0 loopCounter 0 =? 0) with true in *. cbv iota in *.
  destruct G as (l & T & _ & D). cbn [fst snd psAcc psXY psYI]. split.
  - intros (m & (l1 & H & ->) & ->). apply (sem_det _ _ _ _ D) in H. subst l1.
    eexists. split; [exists l; split; [exact T | reflexivity] | reflexivity].
  - intros (m & (l' & T' & ->) & ->).
    assert (l' = l) as ->. { exact (tline_fun _ _ _ _ _ T T'). }
    eexists. split; [exists l; split; [now apply (sem_det _ _ _ _ D) | reflexivity] | reflexivity].
Qed.

(** ** the generator's single-pair loop *)
Definition fix0 (xy yi : Fp) (m : E12) : Prop :=
  exists l1 l2, tline 0 1 62 l1 /\ tline 2 3 62 l2 /\ m = E12_Mul (tabE xy yi l1) (tabE xy yi l2).
Definition fixLoop (T : G1Affine) (r : E12) : Prop :=
  exists yi, sem (fp_Inverse (g1Y T)) yi /\
  exists m, fix0 (fmul (g1X T) yi) yi m /\
  exists z, fixes (fmul (g1X T) yi) yi fixedRange m z /\ r = E12_Conjugate z.

Lemma range_split : fixedRange = millerRange ++ [0%nat].
Proof. reflexivity. Qed.
Opaque fixedRange millerRange G2gen loopCounter PrecomputedLines.

Lemma fix0_triple xy yi t m s' : goodT 62 G2gen t ->
  (gTriple (mkPS G2gen G2gen xy yi) m s' <-> fix0 xy yi m /\ s' = mkPS G2gen t xy yi).
Proof.
  intros (l1 & l2 & T1 & T2 & D). unfold MillerProofs.gTriple, fix0. cbn [psAcc psQ psXY psYI]. split.
  - intros (q & a & b & H & -> & ->). apply (sem_det _ _ _ _ D) in H. injection H as -> -> ->.
    split; [exists l1, l2; split; [exact T1|]; split; [exact T2 | reflexivity] | reflexivity].
  - intros ((l1' & l2' & T1' & T2' & ->) & ->).
    assert (l1' = l1) as ->. { exact (tline_fun _ _ _ _ _ T1 T1'). }
    assert (l2' = l2) as ->. { exact (tline_fun _ _ _ _ _ T2 T2'). }
    exists t, l1, l2. split; [now apply (sem_det _ _ _ _ D)|]. split; reflexivity.
Qed.

Lemma init_inv P Q s : init1 (@sem) (P, Q) s <->
  exists yi, sem (fp_Inverse (g1Y P)) yi /\ s = mkPS Q Q (fmul (g1X P) yi) yi.
Proof.
  unfold init1, initPair. rewrite sem_bind. split; intros (yi & H & R); exists yi; (split; [exact H|]).
  - apply sem_ret in R. now symmetry.
  - apply sem_ret. now symmetry.
Qed.

Lemma loop1_gen T r : loop1 (T, G2gen) r <-> fixLoop T r.
Proof.
  destruct table_ok as (t & GT & G). rewrite range_split in G.
  apply goods_trace in G. destruct G as (t0 & TR & G0).
  unfold MillerProofs.loop1, fixLoop. split.
  - intros (s & HI & [x1 x2] & HS & [y1 y2] & HL & z & HF & ->).
    apply init_inv in HI. destruct HI as (yi & HI & ->). exists yi. split; [exact HI|].
    unfold start1 in HS. cbn [fst snd] in HS. destruct (proj1 (fix0_triple _ _ _ _ _ GT) HS) as [F0 ->].
    apply (proj1 (iters_gen _ _ _ _ _ _ _ TR)) in HL. cbn [fst snd] in HL. destruct HL as [HL ->].
    destruct (proj1 (fin_gen _ _ _ _ _ G0) HF) as (m & Fm & ->).
    exists x1. split; [exact F0|]. eexists. split; [|reflexivity].
    rewrite range_split. apply fixes_snoc. exists y1, m. split; [exact HL|]. split; [exact Fm | reflexivity].
  - intros (yi & HI & x1 & F0 & z & HL & ->). rewrite range_split in HL. apply fixes_snoc in HL.
    destruct HL as (y1 & m & HL & Fm & ->).
    exists (mkPS G2gen G2gen (fmul (g1X T) yi) yi). split; [apply init_inv; exists yi; split; [exact HI | reflexivity]|].
    exists (x1, mkPS G2gen t (fmul (g1X T) yi) yi). split; [exact (proj2 (fix0_triple _ _ _ _ _ GT) (conj F0 eq_refl))|].
    exists (y1, mkPS G2gen t0 (fmul (g1X T) yi) yi). split; [exact (proj2 (iters_gen _ _ _ _ _ _ (y1, _) TR) (conj HL eq_refl))|].
    eexists. split; [exact (proj2 (fin_gen _ _ _ _ _ G0) (ex_intro _ m (conj Fm eq_refl))) | reflexivity].
Qed.

(** ** MillerLoopFixedQ *)
Lemma fixedIter_sem xy yi i t t' r o : goodI i t t' ->
  (sem (fixedIter xy yi r i) o <-> exists m, fixF xy yi i m /\ o = E12_Mul (E12_Mul r r) m).
Proof.
  unfold fixedIter, goodI, fixF. rewrite E12_Square_eq. destruct (nth i loopCounter 0 =? 0).
  - intros (l & T & _). rewrite (sem_mulTable 0 1 i xy yi (E12_Mul r r) l o T). split.
    + intros ->. eexists. split; [exists l; split; [exact T | reflexivity] | reflexivity].
    + intros (m & (l' & T' & ->) & ->).
      assert (l' = l) as ->. { exact (tline_fun _ _ _ _ _ T T'). } reflexivity.
  - intros (l1 & l2 & T1 & T2 & _). rewrite sem_bind. split.
    + intros (a & Ha & Hb). apply (sem_mulTable _ _ _ _ _ _ _ _ T1) in Ha. subst a.
      apply (sem_mulTable _ _ _ _ _ _ _ _ T2) in Hb. subst o.
      eexists. split; [exists l1, l2; split; [exact T1|]; split; [exact T2 | reflexivity]|]. symmetry. apply E12_assoc.
    + intros (m & (l1' & l2' & T1' & T2' & ->) & ->).
      assert (l1' = l1) as ->. { exact (tline_fun _ _ _ _ _ T1 T1'). }
      assert (l2' = l2) as ->. { exact (tline_fun _ _ _ _ _ T2 T2'). }
      eexists. split; [apply (sem_mulTable _ _ _ _ _ _ _ _ T1); reflexivity|].
      apply (sem_mulTable _ _ _ _ _ _ _ _ T2). apply E12_assoc.
Qed.
Lemma fixedLoop_sem xy yi L : forall t r o, goods L t ->
  (sem (mfold (fixedIter xy yi) L r) o <-> fixes xy yi L r o).
Proof.
  induction L as [|i L IH]; intros t r o G; cbn [mfold fixes goods] in *.
  - rewrite sem_ret. split; congruence.
  - destruct G as (t' & G & GL). rewrite sem_bind. split.
    + intros (a & Ha & Hb). apply (fixedIter_sem _ _ _ _ _ _ _ G) in Ha. destruct Ha as (m & F & ->).
      exists m. split; [exact F|]. now apply (IH _ _ _ GL).
    + intros (m & F & H). exists (E12_Mul (E12_Mul r r) m). split.
      * apply (fixedIter_sem _ _ _ _ _ _ _ G). exists m. tauto.
      * now apply (IH _ _ _ GL).
Qed.

Lemma tables0_sem xy yi r o t : goodT 62 G2gen t ->
  (exists a, sem (mulTable 0 1 62 xy yi r) a /\ sem (mulTable 2 3 62 xy yi a) o) <->
  exists m, fix0 xy yi m /\ o = E12_Mul r m.
Proof.
  intros (l1 & l2 & T1 & T2 & _). unfold fix0. split.
  - intros (a & Ha & Hb). apply (sem_mulTable _ _ _ _ _ _ _ _ T1) in Ha. subst a.
    apply (sem_mulTable _ _ _ _ _ _ _ _ T2) in Hb. subst o.
    eexists. split; [exists l1, l2; split; [exact T1|]; split; [exact T2 | reflexivity]|]. symmetry. apply E12_assoc.
  - intros (m & (l1' & l2' & T1' & T2' & ->) & ->).
    assert (l1' = l1) as ->. { exact (tline_fun _ _ _ _ _ T1 T1'). }
    assert (l2' = l2) as ->. { exact (tline_fun _ _ _ _ _ T2 T2'). }
    eexists. split; [apply (sem_mulTable _ _ _ _ _ _ _ _ T1); reflexivity|].
    apply (sem_mulTable _ _ _ _ _ _ _ _ T2). apply E12_assoc.
Qed.

Lemma fixedQ_sem P o : sem (MillerLoopFixedQ P) o <-> fixLoop P o.
Proof.
  destruct table_ok as (t & GT & G). unfold MillerLoopFixedQ, fixLoop. cbv zeta. rewrite sem_bind. split.
  - intros (yi & HI & H). exists yi. split; [exact HI|].
    apply sem_bind in H. destruct H as (a & H1 & H). apply sem_bind in H. destruct H as (b & H2 & H).
    apply sem_bind in H. destruct H as (z & H3 & H). apply sem_ret in H. subst o.
    destruct (proj1 (tables0_sem _ _ _ _ _ GT) (ex_intro _ a (conj H1 H2))) as (m & F & ->).
    rewrite E12_1_l in H3. exists m. split; [exact F|].
    apply (fixedLoop_sem _ _ _ _ _ _ G) in H3. exists z. split; [exact H3 | reflexivity].
  - intros (yi & HI & m & F & z & H & ->). exists yi. split; [exact HI|].
    destruct (proj2 (tables0_sem (fmul (g1X P) yi) yi E12_One m t GT)) as (a & H1 & H2).
    { exists m. rewrite E12_1_l. split; [exact F | reflexivity]. }
    apply sem_bind. exists a. split; [exact H1|]. apply sem_bind. exists m. split; [exact H2|].
    apply sem_bind. exists z. split; [now apply (fixedLoop_sem _ _ _ _ _ _ G)|]. now apply sem_ret.
Qed.

Theorem fixedQ_eq P o : sem (MillerLoopFixedQ P) o <-> sem (MillerLoop [P] [G2gen]) o.
Proof.
  rewrite fixedQ_sem. rewrite (miller_one (@sem) sem_bind sem_ret sem_fail). symmetry. apply loop1_gen.
Qed.

(** ** DoubleMillerLoopFixedQ *)
Lemma dfIter_sem Q xy yi xy2 yi2 i t t' r1 r2 acc o acc' : goodI i t t' ->
  (sem (doubleFixedIter Q xy yi xy2 yi2 (E12_Mul r1 r2, acc) i) (o, acc') <->
   exists r1' m2, iter1 i (r1, mkPS Q acc xy yi) (r1', mkPS Q acc' xy yi) /\ fixF xy2 yi2 i m2 /\
     o = E12_Mul r1' (E12_Mul (E12_Mul r2 r2) m2)).
Proof.
  unfold doubleFixedIter, goodI, fixF, MillerProofs.iter1, MillerProofs.gIter.
  rewrite E12_Square_eq. cbn [fst snd].
  assert (A1 : forall a b c, E12_Mul (E12_Mul (E12_Mul (E12_Mul r1 r2) (E12_Mul r1 r2)) a) b = c ->
     c = E12_Mul (E12_Mul (E12_Mul r1 r1) b) (E12_Mul (E12_Mul r2 r2) a)).
  { intros a b c <-. rewrite (E12_4 r1 r2 r1 r2). rewrite (E12_4 (E12_Mul r1 r1) b (E12_Mul r2 r2) a).
    rewrite (E12_comm b a). symmetry. apply E12_assoc. }
  destruct (nth i loopCounter 0 =? 0).
  - intros (l & T & _). rewrite sem_bind. unfold gDouble. cbn [psAcc psQ psXY psYI]. split.
    + intros (a & Ha & Hb). apply (sem_mulTable _ _ _ _ _ _ _ _ T) in Ha. subst a.
      apply sem_bind in Hb. destruct Hb as ([q l1] & H1 & H). apply sem_ret in H. injection H as <- <-.
      rewrite mulLine_eq. eexists _, _. split; [eexists; split; [exists q, l1; split; [exact H1|]; split; reflexivity | reflexivity]|].
      split; [exists l; split; [exact T | reflexivity]|]. apply A1. reflexivity.
    + intros (r1' & m2 & (m & (q & l1 & H1 & [= ->] & ->) & ->) & (l' & T' & ->) & ->).
      assert (l' = l) as ->. { exact (tline_fun _ _ _ _ _ T T'). }
      eexists. split; [apply (sem_mulTable _ _ _ _ _ _ _ _ T); reflexivity|].
      apply sem_bind. exists (q, l1). split; [exact H1|]. apply sem_ret. f_equal. rewrite mulLine_eq. apply A1. reflexivity.
  - intros (l1 & l2 & T1 & T2 & _). rewrite sem_bind. unfold gDoubleAdd. cbn [psAcc psQ psXY psYI]. split.
    + intros (a & Ha & Hb). apply (sem_mulTable _ _ _ _ _ _ _ _ T1) in Ha. subst a.
      apply sem_bind in Hb. destruct Hb as (b & Hb & H). apply (sem_mulTable _ _ _ _ _ _ _ _ T2) in Hb. subst b.
      apply sem_bind in H. destruct H as ([[q k1] k2] & H1 & H). cbv zeta in H. apply sem_ret in H. injection H as <- <-.
      rewrite !mulLine_eq. eexists _, _. split; [eexists; split; [exists q, k1, k2; split; [exact H1|]; split; reflexivity | reflexivity]|].
      split; [exists l1, l2; split; [exact T1|]; split; [exact T2 | reflexivity]|]. apply A1. rewrite !E12_assoc. reflexivity.
    + intros (r1' & m2 & (m & (q & k1 & k2 & H1 & [= ->] & ->) & ->) & (l1' & l2' & T1' & T2' & ->) & ->).
      assert (l1' = l1) as ->. { exact (tline_fun _ _ _ _ _ T1 T1'). }
      assert (l2' = l2) as ->. { exact (tline_fun _ _ _ _ _ T2 T2'). }
      eexists. split; [apply (sem_mulTable _ _ _ _ _ _ _ _ T1); reflexivity|].
      apply sem_bind. eexists. split; [apply (sem_mulTable _ _ _ _ _ _ _ _ T2); reflexivity|].
      apply sem_bind. exists (q, k1, k2). split; [exact H1|]. cbv zeta. apply sem_ret. f_equal. rewrite !mulLine_eq.
      apply A1. rewrite !E12_assoc. reflexivity.
Qed.

Lemma iter1_shape i r Q acc xy yi y : iter1 i (r, mkPS Q acc xy yi) y ->
  exists acc', snd y = mkPS Q acc' xy yi.
Proof.
  unfold MillerProofs.iter1, MillerProofs.gIter. cbn [fst snd]. intros (m & G & _).
  destruct (nth i loopCounter 0 =? 0).
  - destruct G as (q & l & _ & E & _). exists q. exact E.
  - destruct G as (q & l & l2 & _ & E & _). exists q. exact E.
Qed.

Lemma dfLoop_sem Q xy yi xy2 yi2 L : forall t r1 r2 acc o acc', goods L t ->
  (sem (mfold (doubleFixedIter Q xy yi xy2 yi2) L (E12_Mul r1 r2, acc)) (o, acc') <->
   exists r1' r2', iters1 L (r1, mkPS Q acc xy yi) (r1', mkPS Q acc' xy yi) /\ fixes xy2 yi2 L r2 r2' /\ o = E12_Mul r1' r2').
Proof.
  induction L as [|i L IH]; intros t r1 r2 acc o acc' G; cbn [mfold fixes goods MillerProofs.iters1] in *.
  - rewrite sem_ret. split.
    + intros [= <- <-]. exists r1, r2. split; [reflexivity|]. split; reflexivity.
    + intros (r1' & r2' & [= <- <-] & -> & ->). reflexivity.
  - destruct G as (t' & G & GL). rewrite sem_bind. split.
    + intros ([a acc1] & Ha & Hb). apply (dfIter_sem _ _ _ _ _ _ _ _ _ _ _ _ _ G) in Ha.
      destruct Ha as (r1' & m2 & H1 & F & ->).
      apply (IH _ _ _ _ _ _ GL) in Hb. destruct Hb as (r1'' & r2'' & H2 & F2 & ->).
      exists r1'', r2''. split; [eexists; split; [exact H1 | exact H2]|]. split; [exists m2; tauto | reflexivity].
    + intros (r1'' & r2'' & ([r1' s1] & H1 & H2) & (m2 & F & F2) & ->).
      destruct (iter1_shape _ _ _ _ _ _ _ H1) as (acc1 & E). cbn [snd] in E. subst s1.
      exists (E12_Mul r1' (E12_Mul (E12_Mul r2 r2) m2), acc1). split.
      * apply (dfIter_sem _ _ _ _ _ _ _ _ _ _ _ _ _ G). exists r1', m2. split; [exact H1|]. split; [exact F | reflexivity].
      * apply (IH _ _ _ _ _ _ GL). exists r1'', r2''. split; [exact H2|]. split; [exact F2 | reflexivity].
Qed.

Lemma iters1_snoc L i : forall x y, iters1 (L ++ [i]) x y <-> exists z, iters1 L x z /\ iter1 i z y.
Proof.
  induction L as [|j L IH]; intros x y; cbn [app MillerProofs.iters1].
  - split; [intros (z & H & <-); exists x; split; [reflexivity | exact H] | intros (z & <- & H); exists y; split; [exact H | reflexivity]].
  - split.
    + intros (z & H & I). apply IH in I. destruct I as (w & I & J). exists w. split; [exists z; tauto | exact J].
    + intros (w & (z & H & I) & J). exists z. split; [exact H|]. apply IH. exists w. tauto.
Qed.

Lemma double_tangent p l : sem (tangentCompute p) l <-> exists q, sem (doubleStep p) (q, l).
Proof.
  unfold tangentCompute, doubleStep. cbv zeta. rewrite sem_bind. split.
  - intros (k & H & R). apply sem_ret in R. subst l. eexists. apply sem_bind. exists k. split; [exact H|]. apply sem_ret. reflexivity.
  - intros (q & H). apply sem_bind in H. destruct H as (k & H & R). apply sem_ret in R. injection R as _ <-.
    exists k. split; [exact H|]. now apply sem_ret.
Qed.

Lemma fin_iter0 r Q acc xy yi z : fin1 (r, mkPS Q acc xy yi) z <->
  exists acc', iter1 0 (r, mkPS Q acc xy yi) (z, mkPS Q acc' xy yi).
Proof.
  unfold MillerProofs.fin1, MillerProofs.gTangent, MillerProofs.iter1, MillerProofs.gIter. cbn [fst snd psAcc psXY psYI].
  change (nth 0 loopCounter 0 =? 0) with true. cbv iota. unfold gDouble. cbn [psQ psAcc psXY psYI]. split.
  - intros (m & (l & H & ->) & ->). apply double_tangent in H. destruct H as (q & H).
    exists q. eexists. split; [exists q, l; split; [exact H|]; split; reflexivity | reflexivity].
  - intros (acc' & m & (q & l & H & [= ->] & ->) & ->). eexists. split; [exists l; split; [apply double_tangent; eexists; exact H | reflexivity] | reflexivity].
Qed.

Lemma iters1_shape L : forall r Q acc xy yi y, iters1 L (r, mkPS Q acc xy yi) y -> exists acc', snd y = mkPS Q acc' xy yi.
Proof.
  induction L as [|i L IH]; intros r Q acc xy yi y; cbn [MillerProofs.iters1].
  - intros <-. exists acc. reflexivity.
  - intros ([z1 z2] & H & I). destruct (iter1_shape _ _ _ _ _ _ _ H) as (a & E). cbn [snd] in E. subst z2.
    exact (IH _ _ _ _ _ _ I).
Qed.

Lemma loop1_range P Q r : loop1 (P, Q) r <->
  exists yi, sem (fp_Inverse (g1Y P)) yi /\
  exists x, start1 (@sem) (mkPS Q Q (fmul (g1X P) yi) yi) x /\
  exists acc z, iters1 fixedRange x (z, mkPS Q acc (fmul (g1X P) yi) yi) /\ r = E12_Conjugate z.
Proof.
  unfold MillerProofs.loop1. rewrite range_split.
  assert (SH : forall s x, start1 (@sem) s x -> exists q, snd x = mkPS (psQ s) q (psXY s) (psYI s)).
  { intros s x (q & l1 & l2 & _ & E & _). exists q. exact E. }
  split.
  - intros (s & HI & x & HS & y & HL & z & HF & ->). apply init_inv in HI. destruct HI as (yi & HI & ->).
    exists yi. split; [exact HI|]. exists x. split; [exact HS|].
    destruct (SH _ _ HS) as (q & E). destruct x as [x1 x2]. cbn [snd psQ psXY psYI] in E. subst x2.
    destruct (iters1_shape _ _ _ _ _ _ _ HL) as (a & E). destruct y as [y1 y2]. cbn [snd] in E. subst y2.
    apply fin_iter0 in HF. destruct HF as (acc' & HF). exists acc', z. split; [|reflexivity].
    apply iters1_snoc. eexists. split; [exact HL | exact HF].
  - intros (yi & HI & x & HS & acc & z & HL & ->). apply iters1_snoc in HL. destruct HL as (y & HL & HF).
    eexists. split; [apply init_inv; exists yi; split; [exact HI | reflexivity]|].
    exists x. split; [exact HS|]. exists y. split; [exact HL|]. exists z. split; [|reflexivity].
    destruct (SH _ _ HS) as (q & E). destruct x as [x1 x2]. cbn [snd psQ psXY psYI] in E. subst x2.
    destruct (iters1_shape _ _ _ _ _ _ _ HL) as (a & E). destruct y as [y1 y2]. cbn [snd] in E. subst y2.
    apply fin_iter0. exists acc. exact HF.
Qed.

Theorem doubleFixedQ_eq P T Q o :
  sem (DoubleMillerLoopFixedQ P T Q) o <-> sem (MillerLoop [P; T] [Q; G2gen]) o.
Proof.
  destruct table_ok as (t & GT & G).
  rewrite (miller_split (@sem) sem_bind sem_ret sem_fail). cbn [combine].
  transitivity (exists r1 r2, loop1 (P, Q) r1 /\ fixLoop T r2 /\ o = E12_Mul r1 r2).
  2:{ split.
      - intros (r1 & r2 & H1 & H2 & ->). split; [reflexivity|]. split; [discriminate|]. exists [r1; r2].
        split; [constructor; [exact H1 | constructor; [now apply loop1_gen | constructor]]|].
        cbn [fold_right]. now rewrite E12_1_r.
      - intros (_ & _ & rs & F & ->). inversion F as [|? r1 ? l1 H1 F1]; subst. inversion F1 as [|? r2 ? l2 H2 F2]; subst.
        inversion F2; subst. exists r1, r2. split; [exact H1|]. split; [now apply loop1_gen|].
        cbn [fold_right]. now rewrite E12_1_r. }
  unfold DoubleMillerLoopFixedQ. cbv zeta. rewrite sem_bind. split.
  - intros (yi & HI & H). apply sem_bind in H. destruct H as (yi2 & HI2 & H).
    apply sem_bind in H. destruct H as ([r1 s] & HS & H).
    apply sem_bind in H. destruct H as (a & H1 & H). apply sem_bind in H. destruct H as (b & H2 & H).
    apply sem_bind in H. destruct H as ([z acc'] & H3 & H). apply sem_ret in H. subst o.
    apply (sat_firstPair (@sem) sem_bind sem_ret) in HS.
    destruct (proj1 (tables0_sem _ _ _ _ _ GT) (ex_intro _ a (conj H1 H2))) as (m & F & ->).
    apply (dfLoop_sem _ _ _ _ _ _ _ _ _ _ _ _ G) in H3. destruct H3 as (r1' & r2' & HL & HF & ->).
    rewrite E12_Conj_mul. eexists _, _. split; [|split; [|reflexivity]].
    + apply loop1_range. exists yi. split; [exact HI|]. eexists. split; [exact HS|].
      exists acc', r1'. split; [|reflexivity].
      destruct HS as (q & l1 & l2 & _ & E & _). cbn [snd psQ psXY psYI] in E. subst s. exact HL.
    + exists yi2. split; [exact HI2|]. exists m. split; [exact F|]. exists r2'. split; [exact HF | reflexivity].
  - intros (r1 & r2 & HL & (yi2 & HI2 & m & F & z2 & HF & ->) & ->).
    apply loop1_range in HL. destruct HL as (yi & HI & [x1 s] & HS & acc & z & HL & ->).
    exists yi. split; [exact HI|]. apply sem_bind. exists yi2. split; [exact HI2|].
    apply sem_bind. exists (x1, s). split; [now apply (sat_firstPair (@sem) sem_bind sem_ret)|].
    destruct (proj2 (tables0_sem (fmul (g1X T) yi2) yi2 x1 (E12_Mul x1 m) t GT)) as (a & H1 & H2).
    { exists m. split; [exact F | reflexivity]. }
    apply sem_bind. exists a. split; [exact H1|]. apply sem_bind. exists (E12_Mul x1 m). split; [exact H2|].
    apply sem_bind. exists (E12_Mul z z2, acc). split.
    + apply (dfLoop_sem _ _ _ _ _ _ _ _ _ _ _ _ G). exists z, z2. split; [|split; [exact HF | reflexivity]].
      destruct HS as (q & l1 & l2 & _ & E & _). cbn [snd psQ psXY psYI] in E. subst s. exact HL.
    + apply sem_ret. apply E12_Conj_mul.
Qed.
End Sem.
