(** The Miller values of P and of -P on the same point are conjugate up to
    sign, and the pairing check of (-P, Q), (P, Q). *)
From Coq Require Import ZArith NArith List Bool Lia Field.
From Verif Require Import Primes Params ZMod RingPow ZPow Circuit Api Emulated ApiFacts FieldFacts Tower TowerSpec TowerFacts TowerProofs Frobenius TorusFacts CycloFacts Pairing CurveSpec G2 HashG2 G2Spec EcGroup G2Jac G2Mul G2Cof G2Order MillerProofs FixedQ FixedLoop FinalExp FinalExpProofs PairProofs MillerTotal.
Import ListNotations.
Open Scope Z_scope.
Add Field E2FMN : E2_ft.
Add Ring E6RMN : E6_rt.
Add Ring E12RMN : E12_rt.

Definition negG1 (P : G1Affine) : G1Affine := mkG1 (g1X P) (fopp (g1Y P)).
(** equal up to conjugation and sign *)
Definition cj (a b : E12) : Prop := b = E12_Conjugate a \/ b = E12_Neg (E12_Conjugate a).
Lemma cj_mul a b c d : cj a b -> cj c d -> cj (E12_Mul a c) (E12_Mul b d).
Proof.
  intros [->| ->] [->| ->]; unfold cj; rewrite E12_Conj_mul; [left | right | right | left]; ring.
Qed.
Lemma cj_one : cj E12_One E12_One.
Proof. left. unfold E12_Conjugate, E12_One. cbn [C0 C1]. apply E12_ext; cbn [C0 C1]; [reflexivity|]. ring. Qed.
Lemma cj_conj a b : cj a b -> cj (E12_Conjugate a) (E12_Conjugate b).
Proof.
  intros [->| ->]; [left; reflexivity | right]. unfold E12_Conjugate, E12_Neg. cbn [C0 C1]. reflexivity.
Qed.
Lemma byel_opp x c : E2_MulByElement x (fopp c) = E2_Neg (E2_MulByElement x c).
Proof. unfold E2_MulByElement, E2_Neg. cbn [A0 A1]. apply E2_ext; cbn [A0 A1]; ring. Qed.
Lemma cj_line l xy yi : cj (lineE12 (evalLine l xy yi)) (lineE12 (evalLine l (fopp xy) (fopp yi))).
Proof.
  right. unfold evalLine, lineE12. cbn [R0 R1]. rewrite !byel_opp. unfold E12_Conjugate, E12_Neg. cbn [C0 C1]. apply E12_ext; cbn [C0 C1].
  - unfold E6_Neg. cbn [B0 B1 B2]. apply E6_ext; cbn [B0 B1 B2]; ring.
  - ring.
Qed.
Lemma cj_lprod xy yi ls : cj (lprod xy yi ls) (lprod (fopp xy) (fopp yi) ls).
Proof. induction ls as [|l ls IH]; cbn [lprod fold_right]; [apply cj_one|]. apply cj_mul; [apply cj_line | exact IH]. Qed.
Lemma cj_mval xy yi lls : forall a b, cj a b -> cj (mval xy yi lls a) (mval (fopp xy) (fopp yi) lls b).
Proof.
  induction lls as [|ls lls IH]; intros a b H; cbn [mval]; [exact H|]. apply IH. apply cj_mul; [now apply cj_mul | apply cj_lprod].
Qed.
Lemma finv_opp (y : Fp) : y <> fp0 -> finv (fopp y) = fopp (finv y).
Proof.
  intros N. assert (N' : fopp y <> fp0). { intros E. apply N. transitivity (fopp (fopp y)); [ring|]. rewrite E. unfold fp0. ring. }
  pose proof (finv_l y pBLS_prime N) as H. pose proof (finv_l (fopp y) pBLS_prime N') as H'.
  transitivity (fmul (finv (fopp y)) (fmul (finv y) y)); [rewrite H; ring|].
  transitivity (fopp (fmul (finv y) (fmul (finv (fopp y)) (fopp y)))); [ring | rewrite H'; ring].
Qed.
Theorem mvalue_neg P l1 l2 lls : g1Y P <> fp0 -> cj (mvalue P l1 l2 lls) (mvalue (negG1 P) l1 l2 lls).
Proof.
  intros N. unfold mvalue. cbv zeta. apply cj_conj. unfold negG1. cbn [g1X g1Y]. rewrite (finv_opp _ N).
  replace (fmul (g1X P) (fopp (finv (g1Y P)))) with (fopp (fmul (g1X P) (finv (g1Y P)))) by ring. apply cj_mval. apply cj_lprod.
Qed.

(** the norm to Fp6 *)
Definition norm6 (f : E12) : E6 := E6_Sub (E6_Mul (C0 f) (C0 f)) (E6_MulByNonResidue (E6_Mul (C1 f) (C1 f))).
Lemma norm6_conj f : E12_Mul f (E12_Conjugate f) = e12_of (norm6 f).
Proof.
  destruct f as [c0 c1]. unfold norm6, E12_Conjugate, e12_of. cbn [C0 C1]. apply E12_ext; cbn [C0 C1 E12_Mul].
  - apply E6_ext; cbn [B0 B1 B2 E6_Add E6_Mul E6_Sub E6_Neg E6_MulByNonResidue]; e2_norm; ring.
  - ring.
Qed.

(** the square root of the easy part is degenerate exactly on multiples of v^2 *)
Opaque del.
Lemma easy_form c : let e := mkE12 c E6_One in
  E12_Mul (frobsq12 e) e = E12_Mul (frobsq12 (E12_Conjugate e)) (E12_Conjugate e) <-> B0 c = E2_Zero /\ B1 c = E2_Zero.
Proof.
  cbv zeta. destruct c as [a b c]. cbn [B0 B1]. set (e := mkE12 (mkE6 a b c) E6_One).
  assert (E1 : e = wmk a E2_One b E2_Zero c E2_Zero) by reflexivity.
  assert (E2' : E12_Conjugate e = wmk a (E2_Neg E2_One) b E2_Zero c E2_Zero).
  { unfold e, E12_Conjugate, wmk. cbn [C0 C1]. reflexivity. }
  rewrite E2', E1. clear E1 E2' e. rewrite (frobsq12_wmk a E2_One b E2_Zero c E2_Zero), (frobsq12_wmk a (E2_Neg E2_One) b E2_Zero c E2_Zero). cbv zeta. rewrite (wmk_mul _ _ _ _ _ _ a E2_One), (wmk_mul _ _ _ _ _ _ a (E2_Neg E2_One)).
  pose proof del_min2 as M. generalize dependent (e2_of del). intros d M. set (x := E2_NonResidue).
  assert (Two : forall z, E2_Mul (E2_Add E2_One E2_One) z = E2_Zero -> z = E2_Zero).
  { intros z Z. apply E2_integral in Z. destruct Z as [Z|Z]; [|exact Z]. apply (f_equal A0) in Z. destruct (fp_2_neq0 Z). }
  assert (T3 : E2_Add (E2_Add E2_One E2_One) E2_One <> E2_Zero). { intros Z. apply (f_equal A0) in Z. revert Z. discriminate. }
  assert (D1 : E2_Add E2_One d <> E2_Zero).
  { intros Y. assert (D : d = E2_Neg E2_One). { transitivity (E2_Sub (E2_Add E2_One d) E2_One); [ring | rewrite Y; ring]. }
    rewrite D in M. apply T3. rewrite <- M. ring. }
  assert (D0 : d <> E2_Zero). { intros ->. apply E2_1_neq_0. rewrite <- M. ring. }
  split.
  - intros X. apply wmk_inj in X. destruct X as (_ & X & _ & Y & _). split.
    + assert (Z : E2_Mul a (E2_Add E2_One d) = E2_Zero).
      { apply Two. match type of X with ?l = ?r => transitivity (E2_Sub l r); [ring | rewrite X; ring] end. }
      apply E2_integral in Z. tauto.
    + assert (Z : E2_Mul b (E2_Mul d (E2_Add E2_One d)) = E2_Zero).
      { apply Two. match type of Y with ?l = ?r => transitivity (E2_Sub l r); [ring | rewrite Y; ring] end. }
      apply E2_integral in Z. destruct Z as [Z|Z]; [exact Z|]. apply E2_integral in Z. tauto.
  - intros (-> & ->). clearbody x. unfold wmk. apply E12_ext; cbn [C0 C1]; apply E6_ext; cbn [B0 B1 B2]; ring.
Qed.
Transparent del.
Lemma cross1 g fg e fe : E12_Mul fe e <> E12_Zero -> E12_Mul fe e = E12_Mul (E12_Mul fg fe) (E12_Mul g e) -> E12_Mul g fg = E12_One.
Proof.
  intros Nm X. assert (Z : E12_Mul (E12_Mul fe e) (E12_Sub (E12_Mul g fg) E12_One) = E12_Zero).
  { transitivity (E12_Sub (E12_Mul (E12_Mul fg fe) (E12_Mul g e)) (E12_Mul fe e)); [ring | rewrite <- X; ring]. }
  apply E12_integral in Z. destruct Z as [Z|Z]; [destruct (Nm Z)|]. transitivity (E12_Add (E12_Sub (E12_Mul g fg) E12_One) E12_One); [ring | rewrite Z; ring].
Qed.
Lemma easy_form2 c : z12 (mkE12 c E6_One) easyE = E12_One <-> B0 c = E2_Zero /\ B1 c = E2_Zero.
Proof.
  rewrite <- easy_form. cbv zeta. set (e := mkE12 c E6_One) in *.
  assert (Ne : e <> E12_Zero). { intros Z. apply (f_equal C1) in Z. now apply E6_1_neq0. }
  pose proof (z12_p6 e Ne) as P6.
  rewrite easyE_def2, zpow_mulE12 by exact Ne.
  set (g := z12 e p6m1) in *.
  assert (Ng : g <> E12_Zero). { intros Z. apply (conj_neq0 e Ne). rewrite <- P6, Z. ring. }
  rewrite (zpow_addE12 g 1 (pBLS * pBLS) Ng), z12_p2.
  assert (H1 : z12 g 1 = g) by reflexivity. rewrite H1. clear H1.
  pose proof (f_equal frobsq12 P6) as P6'. rewrite frobsq12_mul in P6'. split.
  - intros H. exact (cross2 _ _ _ _ _ _ H P6 P6').
  - intros X. rewrite <- P6', <- P6 in X. set (m := E12_Mul (frobsq12 e) e) in *.
    assert (Nm : m <> E12_Zero).
    { intros Z. apply E12_integral in Z. destruct Z as [Z|Z]; [|exact (Ne Z)]. revert Z. rewrite <- z12_p2. apply (zpow_neq0 _ _ _ _ _ _ _ _ E12_ft). exact Ne. }
    exact (cross1 g (frobsq12 g) e (frobsq12 e) Nm X).
Qed.

Lemma cj_prod a b : cj a b -> exists s : bool, E12_Mul b a = e12_of (if s then E6_Neg (norm6 a) else norm6 a).
Proof.
  intros [->| ->]; [exists false | exists true].
  - rewrite <- norm6_conj. ring.
  - transitivity (E12_Neg (E12_Mul a (E12_Conjugate a))); [ring|]. rewrite norm6_conj. unfold e12_of, E12_Neg. cbn [C0 C1]. apply E12_ext; cbn [C0 C1]; ring.
Qed.
(** the pairing check on P and -P *)
Theorem check_neg P Q f : g1Y P <> fp0 -> g2on (aff2 Q) -> order_above 15132376222941642752 (aff2 Q) -> sat (MillerLoop [P] [Q]) f ->
  (sat (PairingCheck [negG1 P; P] [Q; Q]) tt <-> ~ (B0 (norm6 f) = E2_Zero /\ B1 (norm6 f) = E2_Zero)).
Proof.
  intros N HQ O Hf. destruct (lines_total Q HQ O) as (l1 & l2 & lls & M).
  assert (N' : g1Y (negG1 P) <> fp0). { intros E. apply N. unfold negG1 in E. cbn [g1Y] in E. transitivity (fopp (fopp (g1Y P))); [ring|]. rewrite E. unfold fp0. ring. }
  pose proof (miller_lines P Q l1 l2 lls N M) as D1. pose proof (miller_lines (negG1 P) Q l1 l2 lls N' M) as D2.
  pose proof (proj2 D1 f Hf) as ->. pose proof (mvalue_neg P l1 l2 lls N) as C. set (f := mvalue P l1 l2 lls) in *. set (f' := mvalue (negG1 P) l1 l2 lls) in *.
  destruct (cj_prod f f' C) as (s & E). set (c := if s then E6_Neg (norm6 f) else norm6 f) in *.
  assert (HF : forall F, sat (MillerLoop [negG1 P; P] [Q; Q]) F <-> F = e12_of c).
  { intros F. rewrite (miller_product (@sat) sat_bind' sat_ret' sat_fail'). split.
    - intros (_ & _ & rs & H & ->). cbn [combine] in H. inversion H as [|? r1 ? rs1 H1 H2]; subst. inversion H2 as [|? r2 ? rs2 H3 H4]; subst. inversion H4; subst. cbn [fst snd fold_right] in *.
      rewrite (proj2 D2 _ H1), (proj2 D1 _ H3), E12_1_r. exact E.
    - intros ->. split; [reflexivity|]. split; [discriminate|]. exists [f'; f]. split.
      + cbn [combine]. repeat constructor; cbn [fst snd]; [exact (run_sat _ _ (proj1 D2)) | exact (run_sat _ _ (proj1 D1))].
      + cbn [fold_right]. rewrite E12_1_r. symmetry. exact E. }
  assert (NE : e12_of c <> E12_Zero). { refine (miller_neq0 [negG1 P; P] [Q; Q] _ _). now apply HF. }
  assert (EC : B0 c = E2_Zero /\ B1 c = E2_Zero <-> B0 (norm6 f) = E2_Zero /\ B1 (norm6 f) = E2_Zero).
  { unfold c. destruct s; [|reflexivity]. unfold E6_Neg. cbn [B0 B1]. assert (Z : forall z, E2_Neg z = E2_Zero <-> z = E2_Zero).
    { intros z. split; intros H; [transitivity (E2_Neg (E2_Neg z)); [ring | rewrite H; ring] | rewrite H; ring]. }
    now rewrite !Z. }
  rewrite pair_many_sat by discriminate. rewrite <- EC, <- easy_form2. split.
  - intros (F & H & _ & H2). apply HF in H. subst F. intros H. apply H2. rewrite (proj2 (e1_spec _)) by reflexivity. exact H.
  - intros H. exists (e12_of c). split; [now apply HF|]. split; [apply C1_zero_fin; [exact NE | reflexivity]|]. rewrite (proj2 (e1_spec _)) by reflexivity. exact H.
Qed.
