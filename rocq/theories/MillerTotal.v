(** The Miller loop on a point whose steps are all non-degenerate: exactly one
    accepted value, given by the lines; every point of large order is such a
    point; and the value at -P. *)
From Coq Require Import ZArith NArith List Bool Lia Field.
From Verif Require Import Params ZMod RingPow Circuit Api Emulated ApiFacts FieldFacts Tower TowerSpec TowerFacts TowerProofs TorusFacts Pairing CurveSpec G2 HashG2 G2Spec EcGroup G2Jac G2Mul G2Cof G2Order MillerProofs FixedQ FixedLoop FinalExpProofs PairProofs.
Import ListNotations.
Open Scope Z_scope.
Add Field E2FMT : E2_ft.
Add Ring E12RMT : E12_rt.

(** ** the value from the lines *)
Definition lprod (xy yi : Fp) (ls : list lineEvaluation) : E12 := fold_right (fun l m => E12_Mul (lineE12 (evalLine l xy yi)) m) E12_One ls.
Definition dstep (Q : G2Affine) (i : nat) (t t' : G2Affine) (ls : list lineEvaluation) : Prop :=
  if Z.eqb (nth i loopCounter 0) 0 then exists l, determ (doubleStep t) (t', l) /\ ls = [l]
  else exists l1 l2, determ (doubleAndAddStep t Q) (t', l1, l2) /\ ls = [l1; l2].
Fixpoint dtrace (Q : G2Affine) (L : list nat) (t : G2Affine) (lls : list (list lineEvaluation)) : Prop :=
  match L, lls with
  | [], [] => True
  | i :: L, ls :: lls => exists t', dstep Q i t t' ls /\ dtrace Q L t' lls
  | _, _ => False
  end.
Fixpoint mval (xy yi : Fp) (lls : list (list lineEvaluation)) (r : E12) : E12 :=
  match lls with [] => r | ls :: lls => mval xy yi lls (E12_Mul (E12_Mul r r) (lprod xy yi ls)) end.
Definition mlines (Q : G2Affine) (l1 l2 : lineEvaluation) (lls : list (list lineEvaluation)) : Prop :=
  exists t, determ (tripleStep Q) (t, l1, l2) /\ dtrace Q fixedRange t lls.
Definition mvalue (P : G1Affine) (l1 l2 : lineEvaluation) (lls : list (list lineEvaluation)) : E12 :=
  let yi := finv (g1Y P) in let xy := fmul (g1X P) yi in
  E12_Conjugate (mval xy yi lls (lprod xy yi [l1; l2])).

Section Sem.
Variable sem : forall {A : Type}, Circ A -> A -> Prop.
Hypothesis sem_bind : forall (A B : Type) (c : Circ A) (f : A -> Circ B) b,
  sem (bind c f) b <-> exists a, sem c a /\ sem (f a) b.
Hypothesis sem_ret : forall (A : Type) (a b : A), sem (Ret a) b <-> a = b.
Hypothesis sem_fail : forall (A : Type) (a : A), sem (@Fail A) a -> False.
Hypothesis sem_det : forall (A : Type) (c : Circ A) a b, determ c a -> (sem c b <-> b = a).

Lemma gIter_det Q i t t' ls xy yi m s' : dstep Q i t t' ls ->
  (gIter (@sem) i (mkPS Q t xy yi) m s' <-> m = lprod xy yi ls /\ s' = mkPS Q t' xy yi).
Proof.
  unfold dstep, gIter. destruct (Z.eqb _ _).
  - intros (l & D & ->). unfold gDouble. cbn [psAcc psQ psXY psYI lprod fold_right]. rewrite E12_1_r. split.
    + intros (q & l1 & S & -> & ->). apply (sem_det _ _ _ _ D) in S. injection S as -> ->. split; reflexivity.
    + intros (-> & ->). exists t', l. split; [now apply (sem_det _ _ _ _ D)|]. split; reflexivity.
  - intros (l1 & l2 & D & ->). unfold gDoubleAdd. cbn [psAcc psQ psXY psYI lprod fold_right]. rewrite E12_1_r. split.
    + intros (q & k1 & k2 & S & -> & ->). apply (sem_det _ _ _ _ D) in S. injection S as -> -> ->. split; reflexivity.
    + intros (-> & ->). exists t', l1, l2. split; [now apply (sem_det _ _ _ _ D)|]. split; reflexivity.
Qed.
Lemma iters_det Q xy yi L : forall lls t r z, dtrace Q L t lls ->
  ((exists acc, iters1 (@sem) L (r, mkPS Q t xy yi) (z, mkPS Q acc xy yi)) <-> z = mval xy yi lls r).
Proof.
  induction L as [|i L IH]; intros [|ls lls] t r z; cbn [dtrace]; try tauto.
  - intros _. cbn [iters1 mval]. split.
    + intros (acc & E). injection E as E _. symmetry. exact E.
    + intros ->. exists t. reflexivity.
  - intros (t' & S & T). cbn [iters1 mval]. rewrite <- (IH lls t' (E12_Mul (E12_Mul r r) (lprod xy yi ls)) z T). split.
    + intros (acc & y & (m & G & E) & H). cbn [fst snd] in G, E. destruct y as [y1 y2]. cbn [fst snd] in G, E. apply (gIter_det _ _ _ _ _ _ _ _ _ S) in G. destruct G as (-> & ->). subst y1. exists acc. exact H.
    + intros (acc & H). exists acc. eexists. split; [|exact H]. exists (lprod xy yi ls). cbn [fst snd]. split; [|reflexivity]. now apply (gIter_det _ _ _ _ _ _ _ _ _ S).
Qed.
Lemma loop_det P Q l1 l2 lls r : g1Y P <> fp0 -> mlines Q l1 l2 lls -> (sem (MillerLoop [P] [Q]) r <-> r = mvalue P l1 l2 lls).
Proof.
  intros N (t & D & T). rewrite (miller_one (@sem) sem_bind sem_ret sem_fail), (loop1_range (@sem) sem_bind sem_ret). unfold mvalue. cbv zeta.
  set (yi := finv (g1Y P)). set (xy := fmul (g1X P) yi). pose proof (fp_Inverse_det _ N) as I. fold yi in I. split.
  - intros (yi' & HI & x & (q & k1 & k2 & S & E1 & E2) & acc & z & H & ->). apply (sem_det _ _ _ _ I) in HI. subst yi'. fold xy in E1, E2, H. cbn [psAcc psQ psXY psYI] in S, E1, E2. apply (sem_det _ _ _ _ D) in S. injection S as -> -> ->.
    destruct x as [x1 x2]. cbn [fst snd] in E1, E2. subst x1 x2. f_equal. cbn [lprod fold_right]. rewrite E12_1_r. apply (proj1 (iters_det Q xy yi fixedRange lls t _ z T)). exists acc. exact H.
  - intros ->. exists yi. split; [now apply (sem_det _ _ _ _ I)|]. fold xy.
    exists (lprod xy yi [l1; l2], mkPS Q t xy yi). split.
    { exists t, l1, l2. cbn [psAcc psQ psXY psYI fst snd lprod fold_right]. split; [now apply (sem_det _ _ _ _ D)|]. split; [reflexivity|]. now rewrite E12_1_r. }
    destruct (proj2 (iters_det Q xy yi fixedRange lls t (lprod xy yi [l1; l2]) _ T) eq_refl) as (acc & H). exists acc. eexists. split; [exact H | reflexivity].
Qed.
End Sem.
Theorem miller_lines P Q l1 l2 lls : g1Y P <> fp0 -> mlines Q l1 l2 lls -> determ (MillerLoop [P] [Q]) (mvalue P l1 l2 lls).
Proof.
  intros N M. split.
  - exact (proj2 (loop_det (@runs) runs_bind runs_ret runs_fail runs_det P Q l1 l2 lls _ N M) eq_refl).
  - intros f H. exact (proj1 (loop_det (@sat) sat_bind' sat_ret' sat_fail' sat_det' P Q l1 l2 lls f N M) H).
Qed.

(** ** points of large order *)
Local Opaque E2_Mul E2_Add E2_Sub E2_Neg E2_Square E2_Double E2_MulByConstElement.
Lemma dad_total p1 p2 : g2X p1 <> g2X p2 -> (forall l, E2_Mul l (E2_Sub (g2X p1) (g2X p2)) = E2_Sub (g2Y p1) (g2Y p2) -> E2_Sub (E2_Sub (E2_Mul l l) (g2X p1)) (g2X p2) <> g2X p1) ->
  exists r, determ (doubleAndAddStep p1 p2) r.
Proof.
  intros N H. unfold doubleAndAddStep. cbv zeta. pose proof (E2_sub_neq _ _ N) as N1. eexists. eapply determ_bind; [apply determ_E2_Div; exact N1|].
  eapply determ_bind; [|apply determ_ret]. apply determ_E2_Div. apply E2_sub_neq. rewrite E2_Square_eq. apply H. field. exact N1.
Qed.
Lemma tri_total p : g2Y p <> E2_Zero -> (forall l, E2_Mul l (E2_Add (g2Y p) (g2Y p)) = E2_Mul (E2_Mul (g2X p) (g2X p)) (E2_Add (E2_Add E2_One E2_One) E2_One) -> g2X p <> E2_Sub (E2_Sub (E2_Mul l l) (g2X p)) (g2X p)) ->
  exists r, determ (tripleStep p) r.
Proof.
  intros N H. unfold tripleStep. cbv zeta. rewrite E2_Double_eq. pose proof (two_neq0 _ N) as N1. eexists. eapply determ_bind; [apply determ_E2_Div; exact N1|].
  eapply determ_bind; [|apply determ_ret]. apply determ_E2_Div. apply E2_sub_neq. rewrite !E2_Square_eq. apply H.
  transitivity (E2_MulByConstElement (E2_Mul (g2X p) (g2X p)) 3); [field; exact N1|]. now rewrite E2_MulByConstElement_eq, three_e2.
Qed.

Definition kmul (Q : point E2) (k : Z) (t : G2Affine) : Prop := g2mul Q k (aff2 t).
Definition knext (k : Z) (i : nat) : Z := if Z.eqb (nth i loopCounter 0) 0 then 2 * k else 2 * k + 1.
Lemma same_X Q i j s t : g2on Q -> kmul Q i s -> kmul Q j t -> g2X s = g2X t -> g2mul Q (i - j) Inf \/ g2mul Q (i + j) Inf.
Proof.
  intros HQ Hs Ht E. destruct s as [sx sy], t as [tx ty]. unfold kmul, aff2 in Hs, Ht. cbn [g2X g2Y] in Hs, Ht, E. subst tx.
  destruct (same_x sx sy ty (g2_mul_on _ _ _ HQ Hs) (g2_mul_on _ _ _ HQ Ht)) as [->| ->].
  - left. exact (g2_mul_eq _ _ _ _ HQ Hs Ht).
  - right. apply g2_mul_neg in Ht. unfold g2neg in Ht. cbn [pneg] in Ht. replace (E2_Neg (E2_Neg sy)) with sy in Ht by ring.
    replace (i + j) with (i - - j) by lia. exact (g2_mul_eq _ _ _ _ HQ Hs Ht).
Qed.
Lemma order_neg Q N k : order_above N Q -> 0 < Z.abs k <= N -> ~ g2mul Q k Inf.
Proof.
  intros O K H. destruct (Z.abs_spec k) as [[_ E]|[_ E]]; rewrite E in K; [exact (O k K H)|]. exact (O (- k) K (g2_mul_neg _ _ _ H)).
Qed.
Lemma differ_X Q N i j s t : g2on Q -> order_above N Q -> kmul Q i s -> kmul Q j t -> 0 < Z.abs (i - j) <= N -> 0 < Z.abs (i + j) <= N -> g2X s <> g2X t.
Proof.
  intros HQ O Hs Ht I J E. destruct (same_X _ _ _ _ _ HQ Hs Ht E) as [H|H]; [exact (order_neg _ _ _ O I H) | exact (order_neg _ _ _ O J H)].
Qed.
Lemma kmul_y Q k t : g2on Q -> kmul Q k t -> g2Y t <> E2_Zero.
Proof. intros HQ H. exact (g2_y_nz _ _ (g2_mul_on _ _ _ HQ H)). Qed.
Lemma third_at l x1 y1 x2 x3 y3 : x3 = E2_Sub (E2_Sub (E2_Mul l l) x1) x2 -> y3 = E2_Sub (E2_Mul l (E2_Sub x1 x3)) y1 -> Aff x3 y3 = third E2 E2_Mul E2_Sub l x1 y1 x2.
Proof. intros -> ->. reflexivity. Qed.

Lemma step_double Q N k t : g2on Q -> kmul Q k t -> order_above N Q -> 0 < k -> 2 * k <= N -> exists t' l, determ (doubleStep t) (t', l) /\ kmul Q (2 * k) t'.
Proof.
  intros HQ H O K L. destruct (doubleStep_total t (kmul_y _ _ _ HQ H)) as ([t' l] & D). exists t', l. split; [exact D|].
  destruct (doubleStep_spec t t' l g2b (run_sat _ _ (proj1 D)) (kmul_y _ _ _ HQ H)) as (A & _). replace (2 * k) with (k + k) by lia. exact (g2_mul_add _ _ _ _ _ _ HQ H H A).
Qed.
Lemma step_dad Q N k t q : g2on Q -> kmul Q 1 q -> kmul Q k t -> order_above N Q -> 1 < k -> 2 * k + 1 <= N -> exists t' l1 l2, determ (doubleAndAddStep t q) (t', l1, l2) /\ kmul Q (2 * k + 1) t'.
Proof.
  intros HQ Hq H O K L. assert (N1 : g2X t <> g2X q) by (apply (differ_X Q N k 1 t q HQ O H Hq); lia).
  assert (S : forall l s, E2_Mul l (E2_Sub (g2X t) (g2X q)) = E2_Sub (g2Y t) (g2Y q) -> s = mkG2 (E2_Sub (E2_Sub (E2_Mul l l) (g2X t)) (g2X q)) (E2_Sub (E2_Mul l (E2_Sub (g2X t) (E2_Sub (E2_Sub (E2_Mul l l) (g2X t)) (g2X q)))) (g2Y t)) -> kmul Q (k + 1) s).
  { intros l s E ->. refine (g2_mul_add _ _ _ _ _ _ HQ H Hq _). refine (add_chord _ _ _ _ _ _ _ _ _ _ _ _ l _ _); [exact N1|].
    transitivity (E2_Neg (E2_Mul l (E2_Sub (g2X t) (g2X q)))); [ring|]. rewrite E. ring. }
  destruct (dad_total t q N1) as ([[t' l1] l2] & D).
  { intros l E F. pose proof (S l _ E eq_refl) as M. refine (differ_X Q N (k + 1) k _ t HQ O M H _ _ F); lia. }
  exists t', l1, l2. split; [exact D|].
  destruct (doubleAndAdd_spec t q t' l1 l2 g2b (run_sat _ _ (proj1 D)) N1) as (s & A & B & C & _).
  assert (Y : g2X s <> g2X t) by (intros E; exact (kmul_y _ _ _ HQ H (C E))).
  replace (2 * k + 1) with (k + 1 + k) by lia. exact (g2_mul_add _ _ _ _ _ _ HQ (g2_mul_add _ _ _ _ _ _ HQ H Hq A) H (B Y)).
Qed.
Lemma step_triple Q N q : g2on Q -> kmul Q 1 q -> order_above N Q -> 3 <= N -> exists t l1 l2, determ (tripleStep q) (t, l1, l2) /\ kmul Q 3 t.
Proof.
  intros HQ H O L. pose proof (kmul_y _ _ _ HQ H) as Y.
  destruct (tri_total q Y) as ([[t l1] l2] & D).
  { intros l E F. pose proof (double_law (g2X q) (g2Y q) l _ _ E (two_neq0 _ Y) eq_refl eq_refl) as A. pose proof (g2_mul_add _ _ _ _ _ _ HQ H H A) as M.
    refine (differ_X Q N 1 2 q (mkG2 _ _) HQ O H M _ _ F); lia. }
  exists t, l1, l2. split; [exact D|].
  destruct (triple_spec q t l1 l2 g2b (run_sat _ _ (proj1 D)) Y) as (s & A & _ & B & _).
  exact (g2_mul_add _ _ _ _ _ _ HQ (g2_mul_add _ _ _ _ _ _ HQ H H A) H B).
Qed.
Lemma knext_ge k i : 0 < k -> 2 * k <= knext k i. Proof. unfold knext. destruct (Z.eqb _ _); lia. Qed.
Lemma kchain_ge L : forall k, 0 < k -> k <= fold_left knext L k.
Proof. induction L as [|i L IH]; intros k K; cbn [fold_left]; [lia|]. pose proof (knext_ge k i K). specialize (IH (knext k i)). lia. Qed.
Lemma trace_total Q N q L : g2on Q -> kmul Q 1 q -> order_above N Q -> forall k t, 1 < k -> kmul Q k t -> fold_left knext L k <= N -> exists lls, dtrace q L t lls.
Proof.
  intros HQ Hq O. induction L as [|i L IH]; intros k t K H B; cbn [fold_left] in B.
  - exists []. exact I.
  - assert (G : exists t' ls, dstep q i t t' ls /\ kmul Q (knext k i) t').
    { assert (K0 : 0 < k) by lia. pose proof (knext_ge k i K0) as K1. assert (K2 : 0 < knext k i) by lia. assert (B' : knext k i <= N) by (pose proof (kchain_ge L _ K2); lia). unfold dstep. revert B'. clear B K1 K2. unfold knext. destruct (Z.eqb _ _); intros B'.
      - destruct (step_double Q N k t HQ H O) as (t' & l & D & M); [lia..|]. exists t', [l]. split; [|exact M]. exists l. auto.
      - destruct (step_dad Q N k t q HQ Hq H O) as (t' & l1 & l2 & D & M); [lia..|]. exists t', [l1; l2]. split; [|exact M]. exists l1, l2. auto. }
    assert (K0 : 0 < k) by lia. pose proof (knext_ge k i K0) as K1.
    destruct G as (t' & ls & S & M). destruct (IH (knext k i) t') as (lls & T); [lia | exact M | exact B|]. exists (ls :: lls). exists t'. auto.
Qed.
Lemma kend : fold_left knext fixedRange 3 = 15132376222941642752. Proof. reflexivity. Qed.
Theorem lines_total q : g2on (aff2 q) -> order_above 15132376222941642752 (aff2 q) -> exists l1 l2 lls, mlines q l1 l2 lls.
Proof.
  intros HQ O. pose proof (g2_mul_1 (aff2 q) : kmul (aff2 q) 1 q) as H1. destruct (step_triple (aff2 q) _ q HQ H1 O) as (t & l1 & l2 & D & M); [lia|].
  destruct (trace_total (aff2 q) _ q fixedRange HQ H1 O 3 t) as (lls & T); [lia | exact M | rewrite kend; lia|]. exists l1, l2, lls, t. auto.
Qed.
Theorem miller_total P q : g1Y P <> fp0 -> g2on (aff2 q) -> order_above 15132376222941642752 (aff2 q) -> exists f, determ (MillerLoop [P] [q]) f.
Proof. intros N HQ O. destruct (lines_total q HQ O) as (l1 & l2 & lls & M). eexists. exact (miller_lines P q l1 l2 lls N M). Qed.
Lemma in_G2_above Q : in_G2 Q -> order_above 15132376222941642752 Q.
Proof. intros H. pose proof (in_G2_order Q H) as O. destruct H as (HQ & N & _). refine (order_le _ _ _ _ (prime_order Q HQ N O)). apply Z.leb_le. exact eq_refl. Qed.
Theorem miller_total_G2 P q : g1Y P <> fp0 -> in_G2 (aff2 q) -> exists f, determ (MillerLoop [P] [q]) f.
Proof. intros N H. exact (miller_total P q N (proj1 H) (in_G2_above _ H)). Qed.
