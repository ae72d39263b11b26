(** Pairing-level proofs: instances of the Miller-loop results for the two
    semantics, and PairingCheck (C34-C36). *)
From Coq Require Import ZArith List Bool Lia Ring Field Permutation.
From Verif Require Import Params ZMod RingPow ZPow Circuit Api Emulated Primes Tower TowerSpec FieldFacts FastMod FastParams FastTower TowerFacts ApiFacts Frobenius TowerProofs TorusFacts CurveSpec PrecompTable Pairing CycloFacts MillerProofs FixedQ FixedLoop FinalExp FinalExpProofs FinalExpSpec.
Import ListNotations.
Open Scope Z_scope.
Opaque fixedRange millerRange G2gen loopCounter PrecomputedLines.

Definition runs {A} (c : Circ A) (a : A) : Prop := run c = Some a.
Lemma runs_bind (A B : Type) (c : Circ A) (f : A -> Circ B) b :
  runs (bind c f) b <-> exists a, runs c a /\ runs (f a) b.
Proof.
  unfold runs. rewrite run_bind. destruct (run c) as [a|]; split.
  - intros H. now exists a.
  - intros (x & [= ->] & H). exact H.
  - discriminate.
  - intros (x & H & _). discriminate.
Qed.
Lemma runs_ret (A : Type) (a b : A) : runs (Ret a) b <-> a = b.
Proof. unfold runs. cbn [run]. split; [now intros [=] | now intros ->]. Qed.
Lemma runs_fail (A : Type) (a : A) : runs (@Fail A) a -> False.
Proof. discriminate. Qed.
Lemma runs_det (A : Type) (c : Circ A) a b : determ c a -> (runs c b <-> b = a).
Proof. intros (H & _). unfold runs. rewrite H. split; [now intros [=] | now intros ->]. Qed.
Lemma sat_bind' (A B : Type) (c : Circ A) (f : A -> Circ B) b :
  sat (bind c f) b <-> exists a, sat c a /\ sat (f a) b.
Proof. apply sat_bind. Qed.
Lemma sat_ret' (A : Type) (a b : A) : sat (Ret a) b <-> a = b.
Proof. apply sat_ret. Qed.
Lemma sat_fail' (A : Type) (a : A) : sat (@Fail A) a -> False.
Proof. exact (fun H => H). Qed.
Lemma sat_det' (A : Type) (c : Circ A) a b : determ c a -> (sat c b <-> b = a).
Proof. intros H. now apply determ_sat. Qed.

(** *** C34 *)
Notation SProd rs := (fold_right S12mul S12one (map rep12 rs)).
Lemma rep12_Prod rs : rep12 (Prod rs) = SProd rs.
Proof.
  induction rs as [|r rs IH]; cbn [fold_right map]; [reflexivity|].
  now rewrite <- IH, rep12_mul.
Qed.
Lemma rep12_eq_iff a b : rep12 a = rep12 b <-> a = b.
Proof. split; [apply rep12_inj | now intros ->]. Qed.

Lemma miller_sat Ps Qs f :
  sat (MillerLoop Ps Qs) f <->
  length Ps = length Qs /\ Ps <> [] /\
  exists rs, Forall2 (fun pq r => sat (MillerLoop [fst pq] [snd pq]) r) (combine Ps Qs) rs /\
    rep12 f = SProd rs.
Proof.
  rewrite (miller_product (@sat) sat_bind' sat_ret' sat_fail').
  split; intros (H1 & H2 & rs & F & E); (split; [exact H1|]; split; [exact H2|]; exists rs; split; [exact F|]).
  - rewrite E. apply rep12_Prod.
  - apply rep12_inj. rewrite E. symmetry. apply rep12_Prod.
Qed.
Lemma miller_run Ps Qs f :
  run (MillerLoop Ps Qs) = Some f <->
  length Ps = length Qs /\ Ps <> [] /\
  exists rs, Forall2 (fun pq r => run (MillerLoop [fst pq] [snd pq]) = Some r) (combine Ps Qs) rs /\
    rep12 f = SProd rs.
Proof.
  etransitivity; [exact (miller_product (@runs) runs_bind runs_ret runs_fail Ps Qs f)|].
  split; intros (H1 & H2 & rs & F & E); (split; [exact H1|]; split; [exact H2|]; exists rs; split; [exact F|]).
  - rewrite E. apply rep12_Prod.
  - apply rep12_inj. rewrite E. symmetry. apply rep12_Prod.
Qed.

Lemma Prod_perm rs rs' : Permutation rs rs' -> Prod rs = Prod rs'.
Proof.
  induction 1; cbn [fold_right].
  - reflexivity.
  - now rewrite IHPermutation.
  - rewrite !E12_assoc, (E12_comm y x). reflexivity.
  - congruence.
Qed.
Lemma Forall2_perm {A B} (R : A -> B -> Prop) l l' : Permutation l l' ->
  forall rs, Forall2 R l rs -> exists rs', Forall2 R l' rs' /\ Permutation rs rs'.
Proof.
  induction 1; intros rs F.
  - exists rs. split; [exact F | apply Permutation_refl].
  - inversion F as [|? r ? rs0 H1 F0]; subst. destruct (IHPermutation _ F0) as (rs' & F' & P).
    exists (r :: rs'). split; [now constructor | now apply perm_skip].
  - inversion F as [|? r ? rs0 H1 F0]; subst. inversion F0 as [|? r2 ? rs1 H2 F1]; subst.
    exists (r2 :: r :: rs1). split; [now repeat constructor | apply perm_swap].
  - destruct (IHPermutation1 _ F) as (rs1 & F1 & P1). destruct (IHPermutation2 _ F1) as (rs2 & F2 & P2).
    exists rs2. split; [exact F2 | now apply (Permutation_trans P1)].
Qed.
Lemma miller_perm Ps Qs Ps' Qs' f :
  length Ps = length Qs -> length Ps' = length Qs' -> Permutation (combine Ps Qs) (combine Ps' Qs') ->
  sat (MillerLoop Ps Qs) f -> sat (MillerLoop Ps' Qs') f.
Proof.
  intros L L' P H. apply miller_sat in H. destruct H as (_ & N & rs & F & E). apply miller_sat.
  split; [exact L'|]. split.
  - intros ->. cbn [combine] in P. apply Permutation_sym, Permutation_nil in P.
    destruct Ps as [|p Ps]; [tauto|]. destruct Qs; discriminate.
  - destruct (Forall2_perm _ _ _ P _ F) as (rs' & F' & P'). exists rs'. split; [exact F'|].
    rewrite E, <- !rep12_Prod. f_equal. now apply Prod_perm.
Qed.
Lemma miller_bad Ps Qs : Ps = [] \/ length Ps <> length Qs -> forall f, ~ sat (MillerLoop Ps Qs) f.
Proof. intros H f S. apply miller_sat in S. tauto. Qed.

(** *** C35 *)
Lemma fixed_sat P f : sat (MillerLoopFixedQ P) f <-> sat (MillerLoop [P] [G2gen]) f.
Proof. exact (fixedQ_eq (@sat) sat_bind' sat_ret' sat_fail' sat_det' P f). Qed.
Lemma fixed_run P f : run (MillerLoopFixedQ P) = Some f <-> run (MillerLoop [P] [G2gen]) = Some f.
Proof. exact (fixedQ_eq (@runs) runs_bind runs_ret runs_fail runs_det P f). Qed.
Lemma double_sat P T Q f : sat (DoubleMillerLoopFixedQ P T Q) f <-> sat (MillerLoop [P; T] [Q; G2gen]) f.
Proof. exact (doubleFixedQ_eq (@sat) sat_bind' sat_ret' sat_fail' sat_det' P T Q f). Qed.
Lemma double_run P T Q f : run (DoubleMillerLoopFixedQ P T Q) = Some f <-> run (MillerLoop [P; T] [Q; G2gen]) = Some f.
Proof. exact (doubleFixedQ_eq (@runs) runs_bind runs_ret runs_fail runs_det P T Q f). Qed.
Lemma pairFixed_sat P f : sat (PairFixedQ P) f <-> sat (Pair [P] [G2gen]) f.
Proof.
  unfold PairFixedQ, Pair. rewrite !sat_bind'.
  split; intros (a & H & K); exists a; (split; [now apply fixed_sat | exact K]).
Qed.
Lemma doublePairFixed_sat P T Q f : sat (DoublePairFixedQ P T Q) f <-> sat (Pair [P; T] [Q; G2gen]) f.
Proof.
  unfold DoublePairFixedQ, Pair. rewrite !sat_bind'.
  split; intros (a & H & K); exists a; (split; [now apply double_sat | exact K]).
Qed.


Lemma fp_Inverse_det x : x <> fp0 -> determ (fp_Inverse x) (finv x).
Proof.
  intros N. pose proof (finv_l x pBLS_prime N) as I. unfold fp_Inverse.
  rewrite (proj2 (feqb_neq x fp0) N). split.
  - cbn [run]. rewrite I, feqb_refl. reflexivity.
  - intros y H. apply sat_ask in H. destruct H as (t & H). apply sat_assert_bind in H. destruct H as (E & R).
    apply feqb_eq in E. apply sat_ret_inv in R. subst t.
    transitivity (fmul (fmul y x) (finv x)); [|rewrite E; ring].
    transitivity (fmul y (fmul (finv x) x)); [rewrite I; ring | ring].
Qed.

(** *** no Miller value is zero *)
Definition vw : E12 := mkE12 E6_Zero (mkE6 E2_Zero E2_One E2_Zero).
Lemma line_neq0 l : lineE12 l <> E12_Zero.
Proof.
  intros H. apply (f_equal (fun e => B1 (C1 e))) in H. unfold lineE12 in H. cbn in H.
  revert H. unfold E2_One, E2_Zero. discriminate.
Qed.
Lemma E12_neq0 a b : a <> E12_Zero -> b <> E12_Zero -> E12_Mul a b <> E12_Zero.
Proof. intros A B H. apply E12_integral in H. tauto. Qed.
Lemma iter1_neq0 i x y : iter1 (@sat) i x y -> fst x <> E12_Zero -> fst y <> E12_Zero.
Proof.
  intros (m & G & ->) N. apply E12_neq0; [now apply E12_neq0|].
  unfold gIter in G. destruct (Z.eqb _ _).
  - destruct G as (q & l & _ & _ & ->). apply line_neq0.
  - destruct G as (q & l1 & l2 & _ & _ & ->). apply E12_neq0; apply line_neq0.
Qed.
Lemma iters1_neq0 L : forall x y, iters1 (@sat) L x y -> fst x <> E12_Zero -> fst y <> E12_Zero.
Proof.
  induction L as [|i L IH]; intros x y; cbn [iters1].
  - now intros ->.
  - intros (z & H & K) N. apply (IH z); [exact K|]. now apply (iter1_neq0 i x).
Qed.
Lemma conj_neq0 x : x <> E12_Zero -> E12_Conjugate x <> E12_Zero.
Proof.
  intros N H. apply N. destruct x as [a b]. unfold E12_Conjugate in H. cbn [C0 C1] in H.
  pose proof (f_equal C0 H) as H0. pose proof (f_equal C1 H) as H1. cbn [C0 C1 E12_Zero] in H0, H1.
  rewrite H0. unfold E12_Zero. f_equal. replace b with (E6_Neg (E6_Neg b)) by ring. rewrite H1. ring.
Qed.
Lemma miller1_neq0 P Q f : sat (MillerLoop [P] [Q]) f -> f <> E12_Zero.
Proof.
  intros H. destruct (proj1 (miller_one (@sat) sat_bind' sat_ret' sat_fail' P Q f) H)
    as (s & _ & x & HS & y & HL & z & (m & (l & _ & ->) & ->) & ->).
  apply conj_neq0. assert (N : fst y <> E12_Zero).
  { apply (iters1_neq0 _ _ _ HL). destruct HS as (q & l1 & l2 & _ & _ & ->). apply E12_neq0; apply line_neq0. }
  apply E12_neq0; [now apply E12_neq0 | apply line_neq0].
Qed.
Lemma miller_neq0 Ps Qs f : sat (MillerLoop Ps Qs) f -> f <> E12_Zero.
Proof.
  intros H. destruct (proj1 (miller_product (@sat) sat_bind' sat_ret' sat_fail' Ps Qs f) H) as (_ & _ & rs & F & ->).
  clear H. induction F as [|pq r l rs H F IH]; cbn [fold_right].
  - intros Z. apply (f_equal (fun e => A0 (B0 (C0 e)))) in Z. revert Z. discriminate.
  - apply E12_neq0; [now apply (miller1_neq0 (fst pq) (snd pq)) | exact IH].
Qed.

(** a pair with the generator on the G2 side always has an honest value *)
Lemma miller_gen_total P : g1Y P <> fp0 -> exists f, run (MillerLoop [P] [G2gen]) = Some f.
Proof.
  intros N. pose proof (fp_Inverse_det _ N) as (I & _).
  destruct table_ok as (t & GT & G).
  destruct GT as (l1 & l2 & T1 & T2 & D).
  set (xy := fmul (g1X P) (finv (g1Y P))) in *. set (yi := finv (g1Y P)) in *.
  destruct (fixes_total xy yi fixedRange t (E12_Mul (tabE xy yi l1) (tabE xy yi l2)) G) as (z & Z).
  exists (E12_Conjugate z). apply fixed_run.
  apply (fixedQ_sem (@runs) runs_bind runs_ret).
  exists yi. split; [exact I|]. eexists. split; [exists l1, l2; split; [exact T1|]; split; [exact T2 | reflexivity]|].
  exists z. split; [exact Z | reflexivity].
Qed.

(** *** C36 *)
Lemma sat_E12_AssertIsEqual a b u : sat (E12_AssertIsEqual a b) u <-> a = b.
Proof. unfold E12_AssertIsEqual. rewrite sat_assert. apply E12_eqb_eq. Qed.
Lemma pair_many_sat Ps Qs : length Ps <> 1%nat ->
  (sat (PairingCheck Ps Qs) tt <->
   exists f, sat (MillerLoop Ps Qs) f /\ z12 f finE = E12_One /\ z12 (e1_of f) easyE <> E12_One).
Proof.
  intros N1. unfold PairingCheck, Pair. cbv zeta. rewrite (proj2 (Nat.eqb_neq _ _) N1).
  change (fun r => finalExponentiation r false) with FinalExponentiation. split.
  - intros H. apply sat_bind in H. destruct H as (r & H & E). apply sat_E12_AssertIsEqual in E. subst r.
    apply sat_bind in H. destruct H as (f & HM & H). apply sat_bind in H. destruct H as ([r e'] & H & R).
    apply sat_ret_inv in R. subst r. apply safe_sound in H. destruct H as (_ & _ & H1 & H2).
    exists f. split; [exact HM|]. split; [now symmetry | exact H1].
  - intros (f & HM & H1 & H2). apply sat_bind. exists E12_One. split; [|now apply sat_E12_AssertIsEqual].
    apply sat_bind. exists f. split; [exact HM|]. apply sat_bind.
    exists (z12 f finE, e1_of f). split; [|now rewrite H1].
    apply run_sat, safe_complete; [|exact H2]. exact (miller_neq0 _ _ _ HM).
Qed.
Lemma pair_one_unsat P Q : ~ sat (PairingCheck [P] [Q]) tt.
Proof.
  unfold PairingCheck, Pair. cbv zeta. cbn [length Nat.eqb]. intros H.
  apply sat_bind in H. destruct H as (r & H & E). apply sat_E12_AssertIsEqual in E. subst r.
  apply sat_bind in H. destruct H as (f & HM & H). apply sat_bind in H. destruct H as ([r e'] & H & R).
  apply sat_ret_inv in R. subst r. apply unsafe_sound in H; [|exact (miller_neq0 _ _ _ HM)].
  now destruct H as (_ & _ & H).
Qed.

(** *** an accepted check: both G2 points (0,0), every free slope chosen 0 *)
Definition g20 : G2Affine := mkG2 E2_Zero E2_Zero.
Definition l0 : lineEvaluation := mkLine E2_Zero E2_Zero.
Lemma g20_eq X Y : X = E2_Zero -> Y = E2_Zero -> mkG2 X Y = g20. Proof. now intros -> ->. Qed.
Lemma l0_eq X Y : X = E2_Zero -> Y = E2_Zero -> mkLine X Y = l0. Proof. now intros -> ->. Qed.
Ltac z0 := first [apply g20_eq | apply l0_eq]; ring.
Lemma dbl0 : sat (doubleStep g20) (g20, l0).
Proof.
  unfold doubleStep. apply sat_bind. exists E2_Zero. split.
  - apply sat_E2_Div. cbn [g2X g2Y g20]. e2n. ring.
  - apply sat_ret. cbn [g2X g2Y g20]. e2n. apply f_equal2; z0.
Qed.
Lemma tan0 : sat (tangentCompute g20) l0.
Proof.
  unfold tangentCompute. apply sat_bind. exists E2_Zero. split.
  - apply sat_E2_Div. cbn [g2X g2Y g20]. e2n. ring.
  - apply sat_ret. cbn [g2X g2Y g20]. e2n. z0.
Qed.
Lemma dad0 : sat (doubleAndAddStep g20 g20) (g20, l0, l0).
Proof.
  unfold doubleAndAddStep. apply sat_bind. exists E2_Zero. split; [|apply sat_bind; exists E2_Zero; split].
  - apply sat_E2_Div. cbn [g2X g2Y g20]. e2n. ring.
  - apply sat_E2_Div. cbn [g2X g2Y g20]. e2n. ring.
  - apply sat_ret. cbn [g2X g2Y g20]. e2n. apply f_equal2; [apply f_equal2|]; z0.
Qed.
Lemma tri0 : sat (tripleStep g20) (g20, l0, l0).
Proof.
  unfold tripleStep. apply sat_bind. exists E2_Zero. split; [|apply sat_bind; exists E2_Zero; split].
  - apply sat_E2_Div. cbn [g2X g2Y g20]. e2n. ring.
  - apply sat_E2_Div. cbn [g2X g2Y g20]. e2n. ring.
  - apply sat_ret. cbn [g2X g2Y g20]. e2n. apply f_equal2; [apply f_equal2|]; z0.
Qed.

Definition S0 (xy yi : Fp) : pairState := mkPS g20 g20 xy yi.
Lemma eval0 xy yi : lineE12 (evalLine l0 xy yi) = vw.
Proof.
  unfold lineE12, evalLine, l0, vw. cbn [Pairing.R0 Pairing.R1].
  assert (Z : forall t, E2_MulByElement E2_Zero t = E2_Zero).
  { intros t. unfold E2_MulByElement, E2_Zero. cbn [A0 A1]. f_equal; ring. }
  rewrite !Z. reflexivity.
Qed.
Definition sq2 (x : E12) : Prop := exists a, a <> E2_Zero /\ E12_Mul x x = e12_of (e6_of a).
Lemma sq2_mul x y : sq2 x -> sq2 y -> sq2 (E12_Mul x y).
Proof.
  intros (a & Na & A) (b & Nb & B). exists (E2_Mul a b). split.
  - intros H. apply E2_integral in H. tauto.
  - rewrite E12_4, A, B. clear. unfold e12_of, e6_of. apply E12_ext; cbn [C0 C1 E12_Mul]; apply E6_ext;
    cbn [B0 B1 B2 E6_Add E6_Mul E6_Sub E6_MulByNonResidue E6_Zero]; e2_norm; ring.
Qed.
Lemma sq2_vw : sq2 vw.
Proof.
  exists E2_NonResidue. split.
  - intros H. apply (f_equal A0) in H. revert H. discriminate.
  - unfold vw, e12_of, e6_of. apply E12_ext; cbn [C0 C1 E12_Mul]; apply E6_ext;
    cbn [B0 B1 B2 E6_Add E6_Mul E6_Sub E6_MulByNonResidue E6_Zero]; e2_norm; ring.
Qed.
Lemma iters0 xy yi L : forall r, sq2 r -> exists r', sq2 r' /\ iters1 (@sat) L (r, S0 xy yi) (r', S0 xy yi).
Proof.
  induction L as [|i L IH]; intros r R; cbn [iters1].
  - exists r. split; [exact R | reflexivity].
  - assert (H : exists m, sq2 m /\ gIter (@sat) i (S0 xy yi) m (S0 xy yi)).
    { unfold gIter. destruct (Z.eqb _ _).
      - exists vw. split; [apply sq2_vw|]. exists g20, l0. split; [exact dbl0|]. split; [reflexivity|].
        symmetry. apply eval0.
      - exists (E12_Mul vw vw). split; [apply sq2_mul; apply sq2_vw|]. exists g20, l0, l0. split; [exact dad0|].
        split; [reflexivity|]. cbn [S0 psXY psYI]. now rewrite eval0. }
    destruct H as (m & M & H).
    destruct (IH (E12_Mul (E12_Mul r r) m)) as (r' & R' & H').
    { apply sq2_mul; [now apply sq2_mul | exact M]. }
    exists r'. split; [exact R'|]. exists (E12_Mul (E12_Mul r r) m, S0 xy yi). split; [|exact H'].
    exists m. split; [exact H | reflexivity].
Qed.
Lemma miller0 P : g1Y P <> fp0 -> exists r, sq2 r /\ sat (MillerLoop [P] [g20]) r.
Proof.
  intros N. pose proof (run_sat _ _ (proj1 (fp_Inverse_det _ N))) as I.
  set (yi := finv (g1Y P)) in *.
  destruct (iters0 (fmul (g1X P) yi) yi millerRange (E12_Mul vw vw)) as (r & R & HL).
  { apply sq2_mul; apply sq2_vw. }
  assert (T : sq2 (E12_Mul (E12_Mul r r) vw)).
  { apply sq2_mul; [now apply sq2_mul | apply sq2_vw]. }
  exists (E12_Conjugate (E12_Mul (E12_Mul r r) vw)). split.
  - destruct T as (a & Na & A). exists a. split; [exact Na|].
    rewrite <- E12_Conj_mul, A. unfold E12_Conjugate, e12_of. cbn [C0 C1]. reflexivity.
  - apply (miller_one (@sat) sat_bind' sat_ret' sat_fail').
    exists (S0 (fmul (g1X P) yi) yi). split.
    { apply (init_inv (@sat) sat_bind' sat_ret'). exists yi. split; [exact I | reflexivity]. }
    exists (E12_Mul vw vw, S0 (fmul (g1X P) yi) yi). split.
    { exists g20, l0, l0. split; [exact tri0|]. split; [reflexivity|]. cbn [fst S0 psXY psYI]. now rewrite eval0. }
    exists (r, S0 (fmul (g1X P) yi) yi). split; [exact HL|].
    exists (E12_Mul (E12_Mul r r) vw). split; [|reflexivity].
    exists vw. split; [|reflexivity]. exists l0. split; [exact tan0|]. symmetry. apply eval0.
Qed.

Lemma cross2 g fg e fe c fc : E12_Mul g fg = E12_One -> E12_Mul g e = c -> E12_Mul fg fe = fc ->
  E12_Mul fe e = E12_Mul fc c.
Proof.
  intros H <- <-. transitivity (E12_Mul (E12_Mul g fg) (E12_Mul fe e)); [rewrite H; ring | ring].
Qed.
Opaque del.
Lemma easy_fp2 a : a <> E2_Zero -> z12 (mkE12 (e6_of a) E6_One) easyE <> E12_One.
Proof.
  intros Na H. set (e := mkE12 (e6_of a) E6_One) in *.
  assert (Ne : e <> E12_Zero). { intros Z. apply (f_equal C1) in Z. now apply E6_1_neq0. }
  pose proof (z12_p6 e Ne) as P6.
  rewrite easyE_def2, zpow_mulE12 in H by exact Ne.
  set (g := z12 e p6m1) in *.
  assert (Ng : g <> E12_Zero). { intros Z. apply (conj_neq0 e Ne). rewrite <- P6, Z. ring. }
  rewrite (zpow_addE12 g 1 (pBLS * pBLS) Ng), z12_p2 in H.
  assert (H1 : z12 g 1 = g) by reflexivity.
  rewrite H1 in H. clear H1.
  pose proof (f_equal frobsq12 P6) as P6'. rewrite frobsq12_mul in P6'.
  assert (X : E12_Mul (frobsq12 e) e = E12_Mul (frobsq12 (E12_Conjugate e)) (E12_Conjugate e)).
  { exact (cross2 _ _ _ _ _ _ H P6 P6'). }
  clear - X Na.
  assert (E1 : e = wmk a E2_One E2_Zero E2_Zero E2_Zero E2_Zero) by reflexivity.
  assert (E2' : E12_Conjugate e = wmk a (E2_Neg E2_One) E2_Zero E2_Zero E2_Zero E2_Zero).
  { unfold e, E12_Conjugate, wmk. cbn [C0 C1]. reflexivity. }
  rewrite E2', E1 in X. clear E1 E2'. rewrite !frobsq12_wmk, !wmk_mul in X.
  pose proof del_min2 as M. generalize dependent (e2_of del). intros d X M.
  apply wmk_inj in X. destruct X as (_ & X & _).
  assert (Y : E2_Mul (E2_Add E2_One E2_One) (E2_Mul a (E2_Add E2_One d)) = E2_Zero).
  { match type of X with ?l = ?r => transitivity (E2_Sub l r); [ring | rewrite X; ring] end. }
  apply E2_integral in Y. destruct Y as [Y|Y].
  { apply (f_equal A0) in Y. exact (fp_2_neq0 Y). }
  apply E2_integral in Y. destruct Y as [Y|Y]; [tauto|].
  assert (D : d = E2_Neg E2_One).
  { transitivity (E2_Sub (E2_Add E2_One d) E2_One); [ring | rewrite Y; ring]. }
  rewrite D in M.
  assert (T3 : E2_Add (E2_Add E2_One E2_One) E2_One = E2_Zero) by (rewrite <- M; ring).
  apply (f_equal A0) in T3. revert T3. discriminate.
Qed.
Transparent del.

Lemma check00 P : g1Y P <> fp0 -> sat (PairingCheck [P; P] [g20; g20]) tt.
Proof.
  intros N. destruct (miller0 P N) as (r & (a & Na & R) & H).
  apply pair_many_sat; [discriminate|]. exists (e12_of (e6_of a)). split; [|split].
  - apply (miller_product (@sat) sat_bind' sat_ret' sat_fail'). split; [reflexivity|]. split; [discriminate|].
    exists [r; r]. split; [repeat constructor; exact H|]. cbn [fold_right]. now rewrite E12_1_r.
  - apply C1_zero_fin; [|reflexivity]. apply e12_of_neq0. intros Z. apply (f_equal B0) in Z. exact (Na Z).
  - unfold e1_of, e12_of. cbn [C0 C1]. rewrite E6_eqb_refl. now apply easy_fp2.
Qed.

(** *** statements on the specification ring *)
Lemma e1_spec f : (C1 f <> E6_Zero -> e1_of f = f) /\ (C1 f = E6_Zero -> e1_of f = mkE12 (C0 f) E6_One).
Proof. split; [apply e1_T0|]. intros H. unfold e1_of. now rewrite H, E6_eqb_refl. Qed.
Lemma pairing_sound Ps Qs :
  sat (PairingCheck Ps Qs) tt ->
  length Ps = length Qs /\ (2 <= length Ps)%nat /\
  exists rs, Forall2 (fun pq r => sat (MillerLoop [fst pq] [snd pq]) r) (combine Ps Qs) rs /\
    S12pow (SProd rs) finN = S12one.
Proof.
  intros H. destruct (Nat.eq_dec (length Ps) 1) as [E|E].
  - exfalso. destruct Ps as [|P [|]]; try discriminate E.
    destruct Qs as [|Q [|]]; [| exact (pair_one_unsat P Q H) |].
    all: unfold PairingCheck, Pair in H; apply sat_bind in H; destruct H as (r & H & _);
      apply sat_bind in H; destruct H as (f & HM & _); revert HM; apply miller_bad; right; discriminate.
  - apply pair_many_sat in H; [|exact E]. destruct H as (f & HM & H1 & _).
    apply miller_sat in HM. destruct HM as (L & NE & rs & F & EF). split; [exact L|]. split.
    { destruct Ps as [|? [|]]; [tauto | cbn in E; lia | cbn; lia]. }
    exists rs. split; [exact F|]. rewrite <- EF, <- rep12_pow, e12_fin, H1. reflexivity.
Qed.
Lemma pairing_complete Ps Qs f :
  (2 <= length Ps)%nat -> run (MillerLoop Ps Qs) = Some f -> C1 f <> E6_Zero ->
  S12pow (rep12 f) easyN <> S12one -> S12pow (rep12 f) finN = S12one ->
  run (PairingCheck Ps Qs) = Some tt.
Proof.
  intros L R N HE HF. rewrite <- rep12_pow, e12_easy, <- rep12_one, <- rep12_neq in HE.
  rewrite <- rep12_pow, e12_fin, <- rep12_one in HF.
  apply rep12_inj in HF.
  pose proof (safe_complete f (miller_neq0 _ _ _ (run_sat _ _ R))) as (D & _).
  { now rewrite (e1_T0 f N). }
  rewrite HF in D. change (FinalExponentiation f) with (finalExponentiation f false) in D.
  unfold PairingCheck, Pair. cbv zeta. rewrite !run_bind, R.
  rewrite (proj2 (Nat.eqb_neq (length Ps) 1)) by lia. rewrite run_bind, D. cbn [run].
  unfold E12_AssertIsEqual. rewrite (proj2 (E12_eqb_eq E12_One E12_One) eq_refl). reflexivity.
Qed.
Lemma pairing_single P Q : ~ sat (PairingCheck [P] [Q]) tt.
Proof. exact (pair_one_unsat P Q). Qed.
(** degenerate doubling: the slope at (0,0) is free *)
Lemma double_free l : sat (doubleStep g20)
  (mkG2 (E2_Mul l l) (E2_Neg (E2_Mul l (E2_Mul l l))), mkLine (E2_Neg l) E2_Zero).
Proof.
  unfold doubleStep. apply sat_bind. exists l. split.
  - apply sat_E2_Div. cbn [g2X g2Y g20]. e2n. ring.
  - apply sat_ret. cbn [g2X g2Y g20]. e2n. apply f_equal2; f_equal; ring.
Qed.
(** examples *)
Lemma two_example P T : g1Y P <> fp0 -> g1Y T <> fp0 -> exists f, run (MillerLoop [P; T] [G2gen; G2gen]) = Some f.
Proof.
  intros NP NT. destruct (miller_gen_total P NP) as (a & A). destruct (miller_gen_total T NT) as (b & B).
  exists (Prod [a; b]). apply (miller_product (@runs) runs_bind runs_ret runs_fail).
  split; [reflexivity|]. split; [discriminate|]. exists [a; b]. split; [|reflexivity].
  constructor; [exact A|]. constructor; [exact B | constructor].
Qed.
Transparent G2gen.
Lemma gen_example : g2Y G2gen <> E2_Zero /\ oncurve2 E2_Zero (mkE2 (fpZ 4) (fpZ 4)) (aff G2gen) /\
  exists q l1 l2, sat (tripleStep G2gen) (q, l1, l2).
Proof.
  split; [|split].
  - unfold G2gen. cbn [g2X g2Y]. fast_e2.
  - unfold on_curve, aff, G2gen. cbn [g2X g2Y]. fast_e2.
  - destruct table_ok as (t & (l1 & l2 & _ & _ & D) & _). exists t, l1, l2. apply run_sat. exact (proj1 D).
Qed.
