(** Torus arithmetic: the decompression map and the operations (C15, C16). *)
From Coq Require Import ZArith List Bool Lia Ring Field.
From Verif Require Import Params ZMod RingPow ZPow Primes FastTower Circuit Api Emulated Tower
  TowerSpec FieldFacts ApiFacts TowerFacts Frobenius TowerProofs.
Import ListNotations.
Open Scope Z_scope.

Notation z12 := (zpow E12_One E12_Mul E12_inv).

Definition num (y : E6) : E12 := mkE12 y E6_One.
Definition den (y : E6) : E12 := mkE12 y (E6_Neg E6_One).
(** (y + w) / (y - w) *)
Definition tval (y : E6) : E12 := E12_div (num y) (den y).

Lemma e6_neg1_neq0 : E6_Neg E6_One <> E6_Zero.
Proof.
  intros E. apply E6_1_neq_0. transitivity (E6_Neg (E6_Neg E6_One)); [ring|]. rewrite E. ring.
Qed.
Lemma num_neq0 y : num y <> E12_Zero.
Proof. intros E. apply (f_equal C1) in E. now apply E6_1_neq_0. Qed.
Lemma den_neq0 y : den y <> E12_Zero.
Proof. intros E. apply (f_equal C1) in E. now apply e6_neg1_neq0. Qed.
Lemma tval_spec y : E12_Mul (tval y) (den y) = num y.
Proof. unfold tval. field. apply den_neq0. Qed.
Lemma tval_unique y m : E12_Mul m (den y) = num y -> m = tval y.
Proof. intros H. unfold tval. rewrite <- H. field. apply den_neq0. Qed.
Lemma tval_neq0 y : tval y <> E12_Zero.
Proof. intros E. apply (num_neq0 y). rewrite <- tval_spec, E. ring. Qed.
Lemma e12cancel x a b : x <> E12_Zero -> E12_Mul a x = E12_Mul b x -> a = b.
Proof. apply (cancel _ _ _ _ _ _ _ _ E12_ft). Qed.
Lemma e6cancel x a b : x <> E6_Zero -> E6_Mul a x = E6_Mul b x -> a = b.
Proof. apply (cancel _ _ _ _ _ _ _ _ E6_ft). Qed.
Lemma e12mul_neq0 x y : x <> E12_Zero -> y <> E12_Zero -> E12_Mul x y <> E12_Zero.
Proof. apply (mul_neq0 _ _ _ _ _ _ _ _ E12_ft). Qed.

Lemma fp_2_neq0 : fadd fp1 fp1 <> fp0.
Proof. apply feqb_neq. vm_compute. reflexivity. Qed.
Lemma e6_2_neq0 : E6_Add E6_One E6_One <> E6_Zero.
Proof.
  intros E. apply (f_equal B0) in E. apply (f_equal A0) in E.
  now apply fp_2_neq0.
Qed.
Lemma e6_double0 a : E6_Add a a = E6_Zero -> a = E6_Zero.
Proof.
  intros H. apply (e6cancel (E6_Add E6_One E6_One)); [apply e6_2_neq0|].
  transitivity (E6_Add a a); [ring|]. rewrite H. ring.
Qed.

Lemma tval_neq1 y : tval y <> E12_One.
Proof.
  intros E. pose proof (tval_spec y) as H. rewrite E in H.
  assert (E1 : den y = num y) by (rewrite <- H; ring).
  apply (f_equal C1) in E1. cbn [C1 den num] in E1.
  apply E6_1_neq_0, e6_double0. rewrite <- E1 at 2. ring.
Qed.
Lemma tval_inj y1 y2 : tval y1 = tval y2 -> y1 = y2.
Proof.
  intros E. pose proof (tval_spec y1) as H1. pose proof (tval_spec y2) as H2.
  assert (X : E12_Mul (num y1) (den y2) = E12_Mul (num y2) (den y1)).
  { rewrite <- H1, <- H2, E. ring. }
  apply (f_equal C1) in X. unfold num, den in X. cbn [E12_Mul C0 C1] in X.
  assert (Y : E6_Add (E6_Sub y2 y1) (E6_Sub y2 y1) = E6_Zero).
  { match type of X with ?l = ?r => transitivity (E6_Sub l r); [ring | rewrite X; ring] end. }
  apply e6_double0 in Y.
  transitivity (E6_Sub y2 (E6_Sub y2 y1)); [ring | rewrite Y; ring].
Qed.
Lemma tval_neg y : E12_Mul (tval (E6_Neg y)) (tval y) = E12_One.
Proof.
  assert (E : tval (E6_Neg y) = E12_div (den y) (num y)).
  { symmetry. apply tval_unique. apply (e12cancel (num y)); [apply num_neq0|].
    transitivity (E12_Mul (den y) (den (E6_Neg y))); [field; apply num_neq0|].
    unfold num, den. e12_ring. }
  rewrite E. unfold tval. field. split; [apply den_neq0 | apply num_neq0].
Qed.

(** every norm-one element with a nonzero w-part is in the image *)
Lemma tval_surj m : E12_Mul m (E12_Conjugate m) = E12_One -> C1 m <> E6_Zero ->
  m = tval (E6_div (E6_Add (C0 m) E6_One) (C1 m)).
Proof.
  intros H Z.
  assert (H0 : E6_Mul e6_v (E6_Mul (C1 m) (C1 m)) = E6_Sub (E6_Mul (C0 m) (C0 m)) E6_One).
  { apply (f_equal C0) in H. cbn [E12_Mul E12_Conjugate C0 C1 E12_One] in H.
    rewrite E6_MulByNonResidue_eq in H. rewrite <- H. ring. }
  apply tval_unique. destruct m as [a b]. cbn [C0 C1] in *.
  unfold num, den. apply E12_ext; cbn [E12_Mul C0 C1]; rewrite ?E6_MulByNonResidue_eq.
  - apply (e6cancel b); [exact Z|].
    transitivity (E6_Sub (E6_Mul a (E6_Add a E6_One)) (E6_Mul e6_v (E6_Mul b b))); [field; exact Z|].
    rewrite H0. field. exact Z.
  - field. exact Z.
Qed.
(** the same for -1, whose preimage is 0 *)
Lemma tval_0 : tval E6_Zero = E12_Neg E12_One.
Proof. symmetry. apply tval_unique. unfold num, den. e12_ring. Qed.

(** ** the operations *)
Lemma sat_MulTorus_raw y1 y2 y3 :
  sat (MulTorus y1 y2) y3 <-> E6_Mul y3 (E6_Add y1 y2) = E6_Add (E6_Mul y1 y2) e6_v.
Proof.
  unfold MulTorus. rewrite sat_E6_Div.
  replace (mkE6 _ _ _) with (E6_Add (E6_Mul y1 y2) e6_v); [reflexivity|].
  apply E6_ext; cbn [E6_Add e6_v B0 B1 B2]; ring.
Qed.
Lemma num_mul y1 y2 : E12_Mul (num y1) (num y2) = mkE12 (E6_Add (E6_Mul y1 y2) e6_v) (E6_Add y1 y2).
Proof. unfold num. e12_ring. Qed.
Lemma den_mul y1 y2 : E12_Mul (den y1) (den y2) = mkE12 (E6_Add (E6_Mul y1 y2) e6_v) (E6_Neg (E6_Add y1 y2)).
Proof. unfold den. e12_ring. Qed.
Lemma e12_of_neq0 a : a <> E6_Zero -> e12_of a <> E12_Zero.
Proof. intros H E. apply (f_equal C0) in E. now apply H. Qed.

Lemma torus_mul_nz y1 y2 y3 : E6_Add y1 y2 <> E6_Zero ->
  E6_Mul y3 (E6_Add y1 y2) = E6_Add (E6_Mul y1 y2) e6_v -> tval y3 = E12_Mul (tval y1) (tval y2).
Proof.
  intros Hd H. symmetry. apply tval_unique.
  set (d := e12_of (E6_Add y1 y2)).
  assert (Dn : E12_Mul (num y3) d = E12_Mul (num y1) (num y2)).
  { rewrite num_mul, <- H. unfold d, num, e12_of. e12_ring. }
  assert (Dd : E12_Mul (den y3) d = E12_Mul (den y1) (den y2)).
  { rewrite den_mul, <- H. unfold d, den, e12_of. e12_ring. }
  apply (e12cancel d); [now apply e12_of_neq0|].
  rewrite Dn. transitivity (E12_Mul (E12_Mul (tval y1) (tval y2)) (E12_Mul (den y3) d)); [ring|].
  rewrite Dd, <- (tval_spec y1), <- (tval_spec y2). ring.
Qed.
Lemma torus_opp_prod y1 y2 : E6_Add y1 y2 = E6_Zero -> E12_Mul (tval y1) (tval y2) = E12_One.
Proof.
  intros H. assert (y1 = E6_Neg y2) as ->.
  { transitivity (E6_Sub (E6_Add y1 y2) y2); [ring | rewrite H; ring]. }
  apply tval_neg.
Qed.
Lemma torus_mul_zero_unsat y1 y2 : E6_Add y1 y2 = E6_Zero -> unsat (MulTorus y1 y2).
Proof.
  intros H y3 S. apply sat_MulTorus_raw in S. rewrite H in S.
  apply (v_nonsquare y1).
  assert (y2 = E6_Neg y1) as ->.
  { transitivity (E6_Sub (E6_Add y1 y2) y1); [ring | rewrite H; ring]. }
  transitivity (E6_Sub e6_v (E6_Add (E6_Mul y1 (E6_Neg y1)) e6_v)); [ring|].
  rewrite <- S. ring.
Qed.

Lemma sat_MulTorus y1 y2 y3 : sat (MulTorus y1 y2) y3 <-> tval y3 = E12_Mul (tval y1) (tval y2).
Proof.
  destruct (E6_eq_dec (E6_Add y1 y2) E6_Zero) as [Z|Z].
  - split; intros H.
    + now apply torus_mul_zero_unsat in H.
    + exfalso. rewrite torus_opp_prod in H by assumption. now apply tval_neq1 in H.
  - split; intros H.
    + apply torus_mul_nz; [assumption|]. now apply sat_MulTorus_raw.
    + apply sat_MulTorus_raw.
      set (y := E6_div (E6_Add (E6_Mul y1 y2) e6_v) (E6_Add y1 y2)).
      assert (Hy : E6_Mul y (E6_Add y1 y2) = E6_Add (E6_Mul y1 y2) e6_v).
      { unfold y. field. exact Z. }
      pose proof (torus_mul_nz y1 y2 y Z Hy) as T. rewrite <- H in T. apply tval_inj in T.
      now rewrite <- T.
Qed.
Lemma determ_MulTorus y1 y2 : E6_Add y1 y2 <> E6_Zero -> exists y3, determ (MulTorus y1 y2) y3.
Proof. intros H. eexists. unfold MulTorus. apply determ_E6_Div. exact H. Qed.

Lemma sat_SquareTorus y z : sat (SquareTorus y) z <-> tval z = E12_Mul (tval y) (tval y).
Proof.
  rewrite <- sat_MulTorus, sat_MulTorus_raw.
  unfold SquareTorus, E6_AssertIsEqual. rewrite sat_ask.
  assert (Q : forall sq, E6_eqb (E6_Mul (E6_Sub (E6_Double sq) y) y) (mkE6 E2_Zero E2_One E2_Zero) = true
     <-> E6_Mul sq (E6_Add y y) = E6_Add (E6_Mul y y) e6_v).
  { intros sq. rewrite E6_eqb_eq, E6_Double_eq. fold e6_v. split; intros H.
    - rewrite <- H. ring.
    - transitivity (E6_Sub (E6_Mul sq (E6_Add y y)) (E6_Mul y y)); [ring|]. rewrite H. ring. }
  split.
  - intros (t & H). apply sat_assert_bind in H. destruct H as [H1 H2]. cbn in H2. subst t. now apply Q.
  - intros H. exists z. apply sat_assert_bind. split; [now apply Q | reflexivity].
Qed.

Lemma sat_CompressTorus m y : C1 m <> E6_Zero -> E12_Mul m (E12_Conjugate m) = E12_One ->
  (sat (CompressTorus m) y <-> tval y = m).
Proof.
  intros Z N. unfold CompressTorus. rewrite (determ_sat _ _ (determ_E6_Div _ _ Z)).
  pose proof (tval_surj m N Z) as T. split.
  - intros ->. symmetry. exact T.
  - intros H. apply tval_inj. rewrite H. exact T.
Qed.
Lemma determ_DecompressTorus y : determ (DecompressTorus y) (tval y).
Proof. exact (determ_E12_Div (num y) (den y) (den_neq0 y)). Qed.
Lemma sat_DecompressTorus y m : sat (DecompressTorus y) m <-> m = tval y.
Proof. exact (determ_sat _ _ (determ_DecompressTorus y) m). Qed.

(** ** Frobenius *)
Definition gaminv : E2 :=
  mkE2 (fpZ 877076961050607968509681729531255177986764537961432449499635504522207616027455086505066378536590128544573588734230)
       (fpZ 877076961050607968509681729531255177986764537961432449499635504522207616027455086505066378536590128544573588734230).
Lemma gaminv_l : E2_Mul gaminv gam = E2_One.
Proof. unfold gaminv, gam. cbn [E2_nonResidues]. fast_e2. Qed.
Lemma tab12 : tab 1 2 = E2_Mul gam gam. Proof. unfold tab, gam, e2_of, del. cbn [E2_nonResidues]. fast_e2. Qed.
Lemma tab14 : tab 1 4 = E2_Mul (E2_Mul gam gam) (E2_Mul gam gam).
Proof. unfold tab, gam, e2_of, del. cbn [E2_nonResidues]. fast_e2. Qed.

Lemma gam_neq0 : gam <> E2_Zero.
Proof. intros E. apply E2_1_neq_0. rewrite <- gaminv_l, E. ring. Qed.
Lemma e12_of2_neq0 a : a <> E2_Zero -> e12_of2 a <> E12_Zero.
Proof. intros H E. apply (f_equal C0) in E. apply (f_equal B0) in E. now apply H. Qed.

Lemma FrobeniusTorus_eq y : FrobeniusTorus y =
  mkE6 (E2_Mul gaminv (E2_Conjugate (B0 y)))
       (E2_Mul gaminv (E2_Mul (E2_Mul gam gam) (E2_Conjugate (B1 y))))
       (E2_Mul gaminv (E2_Mul (E2_Mul (E2_Mul gam gam) (E2_Mul gam gam)) (E2_Conjugate (B2 y)))).
Proof.
  unfold FrobeniusTorus. cbv zeta.
  destruct (mulnr_spec (E2_Conjugate (B1 y))) as (_ & -> & _).
  destruct (mulnr_spec (E2_Conjugate (B2 y))) as (_ & _ & _ & -> & _).
  rewrite tab12, tab14. fold gaminv. rewrite E6_MulBy0_eq.
  generalize gam gaminv. intros g gi. apply E6_ext; cbn [B0 B1 B2 E6_Mul]; e2_norm; ring.
Qed.

Lemma e12_of2_mulx g a b c d e f :
  E12_Mul (e12_of2 g) (mkE12 (mkE6 a b c) (mkE6 d e f)) =
  mkE12 (mkE6 (E2_Mul g a) (E2_Mul g b) (E2_Mul g c)) (mkE6 (E2_Mul g d) (E2_Mul g e) (E2_Mul g f)).
Proof. e12_full. Qed.

Lemma frob_scaled y s : E2_Mul s s = E2_One ->
  E12_Mul (e12_of2 gam) (mkE12 (FrobeniusTorus y) (mkE6 s E2_Zero E2_Zero)) =
  mkE12 (mkE6 (E2_Conjugate (B0 y)) (E2_Mul (E2_Mul gam gam) (E2_Conjugate (B1 y)))
              (E2_Mul (E2_Mul (E2_Mul gam gam) (E2_Mul gam gam)) (E2_Conjugate (B2 y))))
        (mkE6 (E2_Mul gam s) E2_Zero E2_Zero).
Proof.
  intros _. rewrite FrobeniusTorus_eq, e12_of2_mulx.
  pose proof gaminv_l as G. generalize dependent gaminv. generalize gam. intros g gi G.
  assert (X : forall a, E2_Mul g (E2_Mul gi a) = a).
  { intros a. transitivity (E2_Mul (E2_Mul gi g) a); [ring|]. rewrite G. ring. }
  rewrite !X. apply mk12_eq; try reflexivity; ring.
Qed.

Lemma e12_tval_pow y q (F : E6 -> E6) (g : E12) : g <> E12_Zero ->
  E12_Mul g (num (F y)) = e12pow (num y) q ->
  E12_Mul g (den (F y)) = e12pow (den y) q ->
  tval (F y) = e12pow (tval y) q.
Proof.
  intros Hg Hn Hd. symmetry. apply tval_unique.
  apply (e12cancel g); [exact Hg|].
  transitivity (E12_Mul (e12pow (tval y) q) (E12_Mul g (den (F y)))); [ring|].
  rewrite Hd, <- npow_mulbE12, tval_spec, <- Hn. ring.
Qed.

Lemma FrobeniusTorus_val y : tval (FrobeniusTorus y) = e12pow (tval y) pN.
Proof.
  apply (e12_tval_pow y pN FrobeniusTorus (e12_of2 gam)).
  - apply e12_of2_neq0, gam_neq0.
  - unfold num at 1. unfold E6_One. rewrite frob_scaled by ring.
    rewrite e12pow_p. unfold frob12, num; cbv zeta. cbn [C0 C1 B0 B1 B2 E6_One].
    generalize gam. intros g. apply mk12_eq; try reflexivity; e2_ring.
  - unfold den at 1. unfold E6_One, E6_Neg. cbn [B0 B1 B2].
    replace (E2_Neg E2_Zero) with E2_Zero by ring.
    rewrite frob_scaled by ring.
    rewrite e12pow_p. unfold frob12, den, E6_Neg, E6_One; cbv zeta. cbn [C0 C1 B0 B1 B2].
    generalize gam. intros g. apply mk12_eq; try reflexivity; e2_ring.
Qed.

Definition delinv : Fp := fpZ 4002409555221667392624310435006688643935503118305586438271171395842971157480381377015405980053539358417135540939437.
Lemma delinv_l : fmul delinv del = fp1.
Proof. unfold delinv, del. fast_fp. Qed.
Lemma tab22 : tab 2 2 = e2_of (fmul del del). Proof. unfold tab, gam, e2_of, del. cbn [E2_nonResidues]. fast_e2. Qed.
Lemma tab24 : tab 2 4 = e2_of (fmul (fmul del del) (fmul del del)).
Proof. unfold tab, gam, e2_of, del. cbn [E2_nonResidues]. fast_e2. Qed.
Lemma del_neq0 : e2_of del <> E2_Zero.
Proof.
  intros E. apply (f_equal A0) in E. cbn [A0 e2_of E2_Zero] in E. apply fp_1_neq_0.
  rewrite <- delinv_l, E. ring.
Qed.
Lemma FrobeniusSquareTorus_eq y : FrobeniusSquareTorus y =
  mkE6 (E2_Mul (e2_of delinv) (B0 y))
       (E2_Mul (e2_of delinv) (E2_Mul (e2_of (fmul del del)) (B1 y)))
       (E2_Mul (e2_of delinv) (E2_Mul (e2_of (fmul (fmul del del) (fmul del del))) (B2 y))).
Proof.
  unfold FrobeniusSquareTorus. cbv zeta. fold delinv.
  destruct (mulnr_spec (B1 y)) as (_ & _ & _ & _ & _ & _ & -> & _).
  destruct (mulnr_spec (B2 y)) as (_ & _ & _ & _ & _ & _ & _ & _ & -> & _).
  rewrite tab22, tab24, !E2_MulByElement_eq.
  apply E6_ext; cbn [B0 B1 B2]; ring.
Qed.
Lemma frobsq_scaled y s :
  E12_Mul (e12_of2 (e2_of del)) (mkE12 (FrobeniusSquareTorus y) (mkE6 s E2_Zero E2_Zero)) =
  mkE12 (mkE6 (B0 y) (E2_Mul (e2_of (fmul del del)) (B1 y))
              (E2_Mul (e2_of (fmul (fmul del del) (fmul del del))) (B2 y)))
        (mkE6 (E2_Mul (e2_of del) s) E2_Zero E2_Zero).
Proof.
  rewrite FrobeniusSquareTorus_eq, e12_of2_mulx.
  assert (X : forall a, E2_Mul (e2_of del) (E2_Mul (e2_of delinv) a) = a).
  { intros a. transitivity (E2_Mul (e2_of (fmul delinv del)) a).
    - rewrite e2_of_mul. ring.
    - rewrite delinv_l. rewrite e2_of_1. ring. }
  rewrite !X. apply mk12_eq; try reflexivity; ring.
Qed.
Lemma FrobeniusSquareTorus_val y : tval (FrobeniusSquareTorus y) = e12pow (tval y) (pN * pN).
Proof.
  apply (e12_tval_pow y (pN * pN) FrobeniusSquareTorus (e12_of2 (e2_of del))).
  - apply e12_of2_neq0, del_neq0.
  - unfold num at 1. unfold E6_One. rewrite frobsq_scaled.
    rewrite e12pow_p2. unfold frobsq12, num; cbv zeta. cbn [C0 C1 B0 B1 B2 E6_One].
    generalize del. intros g. apply mk12_eq; try reflexivity; ring.
  - unfold den at 1. unfold E6_One, E6_Neg. cbn [B0 B1 B2].
    replace (E2_Neg E2_Zero) with E2_Zero by ring.
    rewrite frobsq_scaled.
    rewrite e12pow_p2. unfold frobsq12, den, E6_Neg, E6_One; cbv zeta. cbn [C0 C1 B0 B1 B2].
    generalize del. intros g. apply mk12_eq; try reflexivity; ring.
Qed.

(** ** in terms of the specification *)
Lemma rep12_pow x n : rep12 (e12pow x n) = S12pow (rep12 x) n.
Proof.
  unfold S12pow. destruct n as [|p]; [exact rep12_one|]. cbn [npow].
  induction p as [p IH|p IH|]; cbn [ppow]; rewrite ?rep12_mul, ?IH; reflexivity.
Qed.
Lemma Storus_eq y m : Storus (rep6 y) (rep12 m) <-> m = tval y.
Proof.
  unfold Storus.
  change [rep6 y; S6sub S6zero S6one] with (rep12 (den y)).
  change [rep6 y; S6one] with (rep12 (num y)).
  rewrite <- rep12_mul. split.
  - intros H. apply rep12_inj in H. now apply tval_unique.
  - intros ->. now rewrite tval_spec.
Qed.
Lemma to_N_exp2 (p : N) : Z.to_N (Z.of_N p ^ 2) = (p * p)%N.
Proof. lia. Qed.
Lemma torus_group y1 y2 y3 m1 m2 m3 :
  Storus (rep6 y1) (rep12 m1) -> Storus (rep6 y2) (rep12 m2) -> Storus (rep6 y3) (rep12 m3) ->
  (sat (MulTorus y1 y2) y3 <-> rep12 m3 = S12mul (rep12 m1) (rep12 m2)) /\
  (sat (SquareTorus y1) y3 <-> rep12 m3 = S12mul (rep12 m1) (rep12 m1)) /\
  (InverseTorus y1 = y3 <-> S12mul (rep12 m3) (rep12 m1) = S12one) /\
  (FrobeniusTorus y1 = y3 <-> rep12 m3 = S12pow (rep12 m1) (Z.to_N pBLS)) /\
  (FrobeniusSquareTorus y1 = y3 <-> rep12 m3 = S12pow (rep12 m1) (Z.to_N (pBLS ^ 2))).
Proof.
  rewrite !Storus_eq. intros -> -> ->. rewrite <- !rep12_mul, rep12_one.
  assert (I : forall a b : E12, rep12 a = rep12 b <-> a = b).
  { intros a b; split; [apply rep12_inj | now intros ->]. }
  assert (T : forall a b : E6, a = b <-> tval b = tval a).
  { intros a b; split; [now intros -> | intros H; symmetry; now apply tval_inj]. }
  rewrite !I. split; [apply sat_MulTorus|]. split; [apply sat_SquareTorus|]. split; [|split].
  - split.
    + intros <-. unfold InverseTorus. apply tval_neg.
    + intros H. apply T. unfold InverseTorus.
      apply (e12cancel (tval y1)); [apply tval_neq0|]. now rewrite tval_neg.
  - rewrite (T (FrobeniusTorus y1)), FrobeniusTorus_val, <- rep12_pow, I. reflexivity.
  - rewrite (T (FrobeniusSquareTorus y1)), FrobeniusSquareTorus_val.
    pose proof (to_N_exp2 pN) as E. rewrite <- pN_Z in E. rewrite E, <- rep12_pow, I. reflexivity.
Qed.

(** compression and decompression are mutually inverse *)
Lemma E12_Conj_tval y : E12_Mul (tval y) (E12_Conjugate (tval y)) = E12_One.
Proof.
  assert (E : E12_Conjugate (tval y) = tval (E6_Neg y)).
  { apply tval_unique.
    assert (D : den (E6_Neg y) = E12_Neg (E12_Conjugate (den y))).
    { unfold den. apply E12_ext; cbn [E12_Conjugate E12_Neg C0 C1]; ring. }
    assert (N : num (E6_Neg y) = E12_Neg (E12_Conjugate (num y))).
    { unfold num. apply E12_ext; cbn [E12_Conjugate E12_Neg C0 C1]; ring. }
    rewrite D, N. rewrite <- (tval_spec y), E12_Conj_mul. ring. }
  rewrite E. etransitivity; [|apply (tval_neg y)]. ring.
Qed.
Lemma compress_decompress y : y <> E6_Zero ->
  exists m, determ (DecompressTorus y) m /\ Storus (rep6 y) (rep12 m) /\ determ (CompressTorus m) y.
Proof.
  intros Hy. exists (tval y). split; [apply determ_DecompressTorus|]. split; [now apply Storus_eq|].
  assert (Z : C1 (tval y) <> E6_Zero).
  { intros E. pose proof (E12_Conj_tval y) as N. apply (f_equal C0) in N.
    pose proof (tval_spec y) as T. destruct (tval y) as [a b]. cbn [C1] in E. subst b.
    unfold num, den in T. apply (f_equal C0) in T as T0. apply (f_equal C1) in T.
    cbn [E12_Mul C0 C1] in T, T0. rewrite E6_MulByNonResidue_eq in T0.
    apply Hy. apply e6_double0.
    assert (a = E6_Neg E6_One) as ->.
    { match type of T with ?l = _ => transitivity (E6_Neg l); [ring | now rewrite T] end. }
    transitivity (E6_Sub y (E6_Neg y)); [ring|]. rewrite <- T0 at 1. ring. }
  unfold CompressTorus.
  assert (E : y = E6_div (E6_Add (C0 (tval y)) E6_One) (C1 (tval y))).
  { apply tval_inj. apply tval_surj; [apply E12_Conj_tval | exact Z]. }
  pose proof (determ_E6_Div (E6_Add (C0 (tval y)) E6_One) (C1 (tval y)) Z) as D.
  rewrite <- E in D. exact D.
Qed.
Lemma decompress_compress m : C1 m <> E6_Zero -> S12mul (rep12 m) (rep12 (E12_Conjugate m)) = S12one ->
  exists y, determ (CompressTorus m) y /\ Storus (rep6 y) (rep12 m) /\ determ (DecompressTorus y) m.
Proof.
  intros Z N. rewrite <- rep12_mul, rep12_one in N. apply rep12_inj in N.
  exists (E6_div (E6_Add (C0 m) E6_One) (C1 m)). pose proof (tval_surj m N Z) as T.
  split; [exact (determ_E6_Div (E6_Add (C0 m) E6_One) (C1 m) Z)|].
  split; [apply Storus_eq; exact T|].
  pose proof (determ_DecompressTorus (E6_div (E6_Add (C0 m) E6_One) (C1 m))) as D.
  rewrite <- T in D. exact D.
Qed.
Lemma compress_decompress' y : rep6 y <> S6zero ->
  exists m, determ (DecompressTorus y) m /\ Storus (rep6 y) (rep12 m) /\ determ (CompressTorus m) y.
Proof. intros H. apply compress_decompress. intros ->. now apply H. Qed.
