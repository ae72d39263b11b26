(** Additivity of the pairing in its first argument. *)
From Coq Require Import ZArith NArith List Bool Lia Field.
From Verif Require Import FastTower Primes Params ZMod RingPow ZPow Circuit Api Emulated ApiFacts FieldFacts Tower TowerSpec TowerFacts TowerProofs Frobenius TorusFacts CycloFacts Pairing CurveSpec G2 PairSpec HashG2 G2Spec EcIdeal LfVieta EcPoly EcEval EcGroup LineFour G2Jac G2Psi G2Mul G2Cof G2Order MillerProofs FixedQ FixedLoop FinalExp FinalExpProofs FinalExpSpec PairProofs BlsSpec MillerTotal MillerNeg MillerLf Kappa.
Import ListNotations.
Open Scope Z_scope.
Add Field E2FPA : E2_ft.
Add Ring E6RPA : E6_rt.
Add Ring E12RPA : E12_rt.
Lemma Fp_ft : field_theory (f0 pBLS) (f1 pBLS) fadd fmul fsub fopp fdiv finv (@eq Fp).
Proof. exact (Fm_ft pBLS_prime). Qed.

(** two lines *)
Lemma prod3 d e x1 x2 x3 s1 s2 s3 : E12_Add (E12_Add x1 x2) x3 = s1 -> E12_Add (E12_Add (E12_Mul x1 x2) (E12_Mul x1 x3)) (E12_Mul x2 x3) = s2 -> E12_Mul (E12_Mul x1 x2) x3 = s3 ->
  E12_Mul (E12_Mul (E12_Add (E12_Mul d x1) e) (E12_Add (E12_Mul d x2) e)) (E12_Add (E12_Mul d x3) e) =
  E12_Add (E12_Add (E12_Mul (E12_Mul (E12_Mul d d) d) s3) (E12_Mul (E12_Mul (E12_Mul d d) e) s2)) (E12_Add (E12_Mul (E12_Mul (E12_Mul d e) e) s1) (E12_Mul (E12_Mul e e) e)).
Proof. intros <- <- <-. ring. Qed.
Definition vieta (L N b x1 x2 x3 : E12) : Prop :=
  E12_Add (E12_Add x1 x2) x3 = E12_Mul L L /\
  E12_Add (E12_Add (E12_Mul x1 x2) (E12_Mul x1 x3)) (E12_Mul x2 x3) = E12_Sub E12_Zero (E12_Add (E12_Mul L N) (E12_Mul L N)) /\
  E12_Mul (E12_Mul x1 x2) x3 = E12_Sub (E12_Mul N N) b.
Lemma reciprocity L N l m b x1 x2 x3 u1 u2 u3 : vieta L N b x1 x2 x3 -> vieta l m b u1 u2 u3 ->
  let P x := E12_Sub (E12_Add (E12_Mul L x) N) (E12_Add (E12_Mul l x) m) in
  let Q u := E12_Sub (E12_Add (E12_Mul l u) m) (E12_Add (E12_Mul L u) N) in
  E12_Mul (E12_Mul (P x1) (P x2)) (P x3) = E12_Neg (E12_Mul (E12_Mul (Q u1) (Q u2)) (Q u3)).
Proof.
  intros (V1 & V2 & V3) (W1 & W2 & W3). cbv beta zeta. set (d := E12_Sub L l). set (e := E12_Sub N m).
  assert (EP : forall x, E12_Sub (E12_Add (E12_Mul L x) N) (E12_Add (E12_Mul l x) m) = E12_Add (E12_Mul d x) e) by (intros x; unfold d, e; ring).
  assert (EQ : forall x, E12_Sub (E12_Add (E12_Mul l x) m) (E12_Add (E12_Mul L x) N) = E12_Neg (E12_Add (E12_Mul d x) e)) by (intros x; unfold d, e; ring).
  rewrite !EP, !EQ. transitivity (E12_Mul (E12_Mul (E12_Add (E12_Mul d u1) e) (E12_Add (E12_Mul d u2) e)) (E12_Add (E12_Mul d u3) e)); [|ring].
  rewrite (prod3 d e x1 x2 x3 _ _ _ V1 V2 V3), (prod3 d e u1 u2 u3 _ _ _ W1 W2 W3). unfold d, e. ring.
Qed.

(** the line y = lam x + nu through points of G1, seen on the twist *)
Definition w1e (x : Fp) : E12 := mkE12 E6_Zero (mkE6 (e2_of x) E2_Zero E2_Zero).
Lemma w3e_line lam nu x y : y = fadd (fmul lam x) nu -> w3e y = E12_Add (E12_Mul (w1e lam) (w2e x)) (w3e nu).
Proof.
  intros ->. unfold w1e, w2e, w3e. rewrite e2_of_add, e2_of_mul. generalize (e2_of lam) (e2_of x) (e2_of nu). intros a b c. e12_full.
Qed.
Lemma w_vieta (l m x1 x2 x3 : Fp) : fadd (fadd x1 x2) x3 = fmul l l ->
  fadd (fadd (fmul x1 x2) (fmul x1 x3)) (fmul x2 x3) = fsub (f0 pBLS) (fadd (fmul l m) (fmul l m)) ->
  fmul (fmul x1 x2) x3 = fsub (fmul m m) (ofZ pBLS 4) ->
  vieta (w1e l) (w3e m) (e12_of2 g2b) (w2e x1) (w2e x2) (w2e x3).
Proof.
  assert (S : forall a b : Fp, e2_of (fsub a b) = E2_Sub (e2_of a) (e2_of b)) by (intros a b; unfold e2_of, E2_Sub; cbn [A0 A1]; apply E2_ext; cbn [A0 A1]; [reflexivity | unfold fp0; ring]).
  intros H1 H2 H3. apply (f_equal e2_of) in H1. apply (f_equal e2_of) in H2. apply (f_equal e2_of) in H3.
  rewrite S in H2. rewrite S in H3. repeat rewrite e2_of_add in H1. repeat rewrite e2_of_add in H2. repeat rewrite e2_of_mul in H1. repeat rewrite e2_of_mul in H2. repeat rewrite e2_of_mul in H3.
  assert (B : g2b = E2_Mul E2_NonResidue (e2_of (ofZ pBLS 4))) by (apply E2_ext; reflexivity).
  unfold vieta, w1e, w2e, w3e. rewrite B. change (e2_of (f0 pBLS)) with E2_Zero in H2. revert H1 H2 H3. generalize (e2_of l) (e2_of m) (e2_of x1) (e2_of x2) (e2_of x3) (e2_of (ofZ pBLS 4)). clear.
  intros L M X1 X2 X3 b H1 H2 H3. split; [|split].
  - transitivity (mkE12 (mkE6 E2_Zero (E2_Add (E2_Add X1 X2) X3) E2_Zero) E6_Zero); [e12_full | rewrite H1; e12_full].
  - transitivity (mkE12 (mkE6 E2_Zero E2_Zero (E2_Add (E2_Add (E2_Mul X1 X2) (E2_Mul X1 X3)) (E2_Mul X2 X3))) E6_Zero); [e12_full | rewrite H2; e12_full].
  - transitivity (mkE12 (mkE6 (E2_Mul E2_NonResidue (E2_Mul (E2_Mul X1 X2) X3)) E2_Zero E2_Zero) E6_Zero); [e12_full | rewrite H3; e12_full].
Qed.
Lemma e2_vieta l m x1 x2 x3 : E2_Add (E2_Add x1 x2) x3 = E2_Mul l l ->
  E2_Add (E2_Add (E2_Mul x1 x2) (E2_Mul x1 x3)) (E2_Mul x2 x3) = E2_Sub g2a (E2_Add (E2_Mul l m) (E2_Mul l m)) ->
  E2_Mul (E2_Mul x1 x2) x3 = E2_Sub (E2_Mul m m) g2b ->
  vieta (e12_of2 l) (e12_of2 m) (e12_of2 g2b) (e12_of2 x1) (e12_of2 x2) (e12_of2 x3).
Proof.
  intros H1 H2 H3. assert (S : forall a b, e12_of2 (E2_Sub a b) = E12_Sub (e12_of2 a) (e12_of2 b)) by (intros a b; e12_full).
  apply (f_equal e12_of2) in H1. apply (f_equal e12_of2) in H2. apply (f_equal e12_of2) in H3. rewrite S in H2. rewrite S in H3.
  repeat rewrite e12_of2_add in H1. repeat rewrite e12_of2_add in H2. repeat rewrite e12_of2_mul in H1. repeat rewrite e12_of2_mul in H2. repeat rewrite e12_of2_mul in H3.
  split; [exact H1|]. split; [exact H2 | exact H3].
Qed.

Definition Lw (lam nu : Fp) (x y : E2) : E12 := E12_Sub (e12_of2 y) (E12_Add (E12_Mul (w1e lam) (e12_of2 x)) (w3e nu)).
Lemma Lw_neq0 lam nu x y : y <> E2_Zero -> Lw lam nu x y <> E12_Zero.
Proof.
  intros N E. apply N. apply (f_equal C0) in E. apply (f_equal B0) in E. change (B0 (C0 E12_Zero)) with E2_Zero in E. rewrite <- E. unfold Lw, w1e, w3e, e12_of2.
  cbn [C0 C1 B0 B1 B2 E12_Sub E12_Add E12_Mul E6_Add E6_Mul E6_Sub E6_MulByNonResidue E12_Zero E6_Zero]. e2_norm. ring.
Qed.
Lemma Lw_neg lam nu x y : Lw lam nu x (E2_Neg y) = E12_Neg (E12_Conjugate (Lw lam nu x y)).
Proof. unfold Lw, w1e, w3e. generalize (e2_of lam) (e2_of nu). intros a b. e12_full. Qed.
Definition cvL (lam nu : Fp) (R : point E2) (c : E12) : Prop := exists x y, R = Aff x y /\ g2on R /\ c = kap (Lw lam nu x y).
Lemma kap_Lw_neg lam nu x y : y <> E2_Zero -> E12_Mul (kap (Lw lam nu x y)) (kap (Lw lam nu x (E2_Neg y))) = E12_One.
Proof. intros N. pose proof (Lw_neq0 lam nu x y N) as M. rewrite Lw_neg, kap_neg by exact (conj_neq0 _ M). exact (kap_conj _ M). Qed.

Notation islf1 := (is_lf Fp (f0 pBLS) (f1 pBLS) fadd fmul fsub fopp (f0 pBLS)).
Definition H3 (x1 y1 x2 y2 x3 y3 : Fp) (f : lfun E2) : E12 := E12_Mul (E12_Mul (hP x1 y1 f) (hP x2 y2 f)) (hP x3 (fopp y3) f).
Lemma Lw_line lam nu l m x y : y = E2_Add (E2_Mul l x) m ->
  Lw lam nu x y = E12_Sub (E12_Add (E12_Mul (e12_of2 l) (e12_of2 x)) (e12_of2 m)) (E12_Add (E12_Mul (w1e lam) (e12_of2 x)) (w3e nu)).
Proof. intros ->. unfold Lw. rewrite e12_of2_add, e12_of2_mul. reflexivity. Qed.
Lemma lev_w lam nu l m x y : y = fadd (fmul lam x) nu -> lev12 (w2e x) (w3e y) (LLine l m) =
  E12_Sub (E12_Add (E12_Mul (w1e lam) (w2e x)) (w3e nu)) (E12_Add (E12_Mul (e12_of2 l) (w2e x)) (e12_of2 m)).
Proof. intros E. unfold lev. rewrite (w3e_line lam nu x y E). reflexivity. Qed.
Lemma kap3 a b c : a <> E12_Zero -> b <> E12_Zero -> c <> E12_Zero -> kap (E12_Mul (E12_Mul a b) c) = E12_Mul (E12_Mul (kap a) (kap b)) (kap c).
Proof. intros A B C. rewrite (kap_mul _ _ (nz_mul _ _ A B) C), (kap_mul _ _ A B). reflexivity. Qed.
Section Fixed.
Variables x1 y1 x2 y2 x3 y3 lam nu : Fp.
Hypothesis C1 : oncurve1 (Aff x1 y1).
Hypothesis C2 : oncurve1 (Aff x2 y2).
Hypothesis N1 : y1 <> fp0.
Hypothesis N2 : y2 <> fp0.
Hypothesis N3 : y3 <> fp0.
Hypothesis Hl : islf1 (Aff x1 y1) (Aff x2 y2) (Aff x3 y3) (LLine lam nu).
Lemma tel_P A B C f : isln A B C f -> forall a b c, cvL lam nu A a -> cvL lam nu B b -> cvL lam nu C c -> E12_Mul (H3 x1 y1 x2 y2 x3 y3 f) c = E12_Mul a b.
Proof.
  intros (HA & HB & HF & l & m & ->) a b c (xa & ya & EA & _ & ->) (xb & yb & EB & _ & ->) (xc & yc & EC & HC & ->).
  destruct (lf_vieta _ _ _ _ _ _ _ _ _ E2_ft g2a g2b _ _ _ _ _ HA HB HF) as (u1 & v1 & u2 & v2 & u3 & v3 & EA' & EB' & EC' & L1 & L2 & L3 & V1 & V2 & V3).
  rewrite EA in EA'. rewrite EB in EB'. rewrite EC in EC'. injection EA' as <- <-. injection EB' as <- <-. injection EC' as <- <-.
  destruct (lf_vieta _ _ _ _ _ _ _ _ _ Fp_ft (f0 pBLS) (ofZ pBLS 4) _ _ _ _ _ C1 C2 Hl) as (p1 & q1 & p2 & q2 & p3 & q3 & EP1 & EP2 & EP3 & M1 & M2 & M3 & W1 & W2 & W3).
  injection EP1 as <- <-. injection EP2 as <- <-. injection EP3 as <- <-.
  pose proof (reciprocity _ _ _ _ _ _ _ _ _ _ _ (w_vieta lam nu x1 x2 x3 W1 W2 W3) (e2_vieta l m xa xb xc V1 V2 V3)) as R. cbv beta zeta in R.
  rewrite <- (lev_w lam nu l m x1 y1 M1), <- (lev_w lam nu l m x2 y2 M2), <- (lev_w lam nu l m x3 (fopp y3) M3) in R.
  rewrite <- (Lw_line lam nu l m xa ya L1), <- (Lw_line lam nu l m xb yb L2), <- (Lw_line lam nu l m xc (E2_Neg yc) L3) in R.
  subst A B C. pose proof (g2_y_nz _ _ HA) as Na. pose proof (g2_y_nz _ _ HB) as Nb. pose proof (g2_y_nz _ _ HC) as Nc.
  pose proof (g2_y_nz _ _ (g2_neg_on _ HC) : E2_Neg yc <> E2_Zero) as Nc'.
  pose proof (Lw_neq0 lam nu xa ya Na) as Ka. pose proof (Lw_neq0 lam nu xb yb Nb) as Kb. pose proof (Lw_neq0 lam nu xc _ Nc') as Kc.
  apply (f_equal kap) in R. rewrite (kap_neg _ (nz_mul _ _ (nz_mul _ _ Ka Kb) Kc)), (kap3 _ _ _ Ka Kb Kc) in R.
  rewrite (kap3 _ _ _ (lev_line_neq0 x1 y1 l m N1) (lev_line_neq0 x2 y2 l m N2) (lev_line_neq0 x3 _ l m (fopp_neq0 _ N3))) in R.
  unfold H3, hP. rewrite R. pose proof (kap_Lw_neg lam nu xc yc Nc) as I.
  transitivity (E12_Mul (E12_Mul (kap (Lw lam nu xa ya)) (kap (Lw lam nu xb yb))) (E12_Mul (kap (Lw lam nu xc yc)) (kap (Lw lam nu xc (E2_Neg yc))))); [ring | rewrite I; ring].
Qed.
Lemma cvL_ex A B C f : isln A B C f -> exists c, cvL lam nu C c.
Proof.
  intros (HA & HB & HF & l & m & ->). pose proof (lf_on _ _ _ _ HA HB HF) as HC.
  destruct (lf_vieta _ _ _ _ _ _ _ _ _ E2_ft g2a g2b _ _ _ _ _ HA HB HF) as (u1 & v1 & u2 & v2 & u3 & v3 & _ & _ & -> & _).
  eexists. exists u3, v3. split; [reflexivity|]. split; [exact HC | reflexivity].
Qed.
Lemma cvL_neq0 A a : cvL lam nu A a -> a <> E12_Zero.
Proof. intros (x & y & -> & H & ->). apply kap_neq0, Lw_neq0. exact (g2_y_nz _ _ H). Qed.
End Fixed.

(** the end of the loop: [n]Q = - psi(Q) *)
Local Opaque gam.
Lemma psi_gam : E2_Mul psi_v (E2_Mul (E2_Mul gam gam) gam) = E2_One /\ E2_Mul psi_u (E2_Mul gam gam) = E2_One.
Proof. Transparent gam. split; unfold psi_u, psi_v, gam; cbn [E2_nonResidues]; fast_e2. Qed.
Local Opaque gam.
Lemma Lw_eq lam nu x y : Lw lam nu x y = mkE12 (mkE6 y E2_Zero E2_Zero) (mkE6 (E2_Neg (E2_Mul (e2_of lam) x)) (E2_Neg (e2_of nu)) E2_Zero).
Proof. unfold Lw, w1e, w3e. generalize (e2_of lam) (e2_of nu). intros a b. e12_full. Qed.
Lemma conj_of a : E2_Conjugate (e2_of a) = e2_of a.
Proof. unfold E2_Conjugate, e2_of. cbn [A0 A1]. apply E2_ext; cbn [A0 A1]; [reflexivity | unfold fp0; ring]. Qed.
Lemma conj_neg a : E2_Conjugate (E2_Neg a) = E2_Neg (E2_Conjugate a).
Proof. unfold E2_Conjugate, E2_Neg. cbn [A0 A1]. reflexivity. Qed.
Lemma conj_mul a b : E2_Conjugate (E2_Mul a b) = E2_Mul (E2_Conjugate a) (E2_Conjugate b).
Proof. unfold E2_Conjugate, E2_Mul. cbn [A0 A1]. apply E2_ext; cbn [A0 A1]; ring. Qed.
Lemma conj_zero : E2_Conjugate E2_Zero = E2_Zero.
Proof. apply E2_ext; reflexivity. Qed.
Lemma Lw_psi lam nu x y : E12_Mul (e12_of2 (E2_Mul (E2_Mul gam gam) gam)) (Lw lam nu (E2_Mul (E2_Conjugate x) psi_u) (E2_Mul (E2_Conjugate y) psi_v)) = frob12 (Lw lam nu x y).
Proof.
  destruct psi_gam as (Gv & Gu). rewrite !Lw_eq, e12_of2_mulx. unfold frob12. cbv zeta. cbn [C0 C1 B0 B1 B2]. rewrite (conj_neg (E2_Mul (e2_of lam) x)), (conj_neg (e2_of nu)), (conj_mul (e2_of lam) x), (conj_of lam), (conj_of nu), conj_zero.
  revert Gv Gu. generalize gam psi_u psi_v (e2_of lam) (e2_of nu) (E2_Conjugate x) (E2_Conjugate y). clear. intros g u v l n x y Gv Gu.
  apply E12_ext; cbn [C0 C1]; apply E6_ext; cbn [B0 B1 B2]; try ring.
  - transitivity (E2_Mul y (E2_Mul v (E2_Mul (E2_Mul g g) g))); [ring | rewrite Gv; ring].
  - transitivity (E2_Neg (E2_Mul (E2_Mul g (E2_Mul l x)) (E2_Mul u (E2_Mul g g)))); [ring | rewrite Gu; ring].
Qed.
Lemma gam3_neq0 : E2_Mul (E2_Mul gam gam) gam <> E2_Zero.
Proof. intros E. apply E2_1_neq_0. rewrite <- (proj1 psi_gam), E. ring. Qed.
Lemma end_neg q t : in_G2 (aff2 q) -> kmul (aff2 q) 15132376222941642752 t -> aff2 t = g2neg (psiP (aff2 q)).
Proof.
  intros (HQ & _ & R & Hp & HR) H. apply psiP_spec in Hp. subst R. apply g2_mul_neg in HR. exact (g2_mul_fun _ _ _ _ HQ H HR).
Qed.
Lemma kap_scale u a b : u <> E2_Zero -> a <> E12_Zero -> E12_Mul (e12_of2 u) a = b -> kap a = kap b.
Proof. intros U A <-. rewrite kap_mul, (kap_of2 _ U); [ring | now apply e12_of2_neq0 | exact A]. Qed.
Lemma psi_y x y : g2on (Aff x y) -> E2_Mul (E2_Conjugate y) psi_v <> E2_Zero.
Proof. intros H. exact (g2_y_nz _ _ (psiP_on _ H)). Qed.
(** a telescoped value at the end of the loop *)
Lemma tel_gen h t m n : E12_Mul h t = n -> E12_Mul m t = E12_One -> E12_Mul n m = E12_One -> h = E12_One.
Proof.
  intros H1 H2 H3. transitivity (E12_Mul h (E12_Mul m t)); [rewrite H2; ring|]. rewrite <- H3, <- H1. ring.
Qed.
Lemma tel_end h q t : q <> E12_Zero -> E12_Mul h t = z12 q loopN -> E12_Mul (z12 q pBLS) t = E12_One -> z12 q (loopN + pBLS) = E12_One -> h = E12_One.
Proof.
  intros N H1 H2 H3. apply (tel_gen h t _ _ H1 H2). exact (eq_trans (eq_sym (zpow_addE12 q loopN pBLS N)) H3).
Qed.
Section FixedP.
Variables x1 y1 x2 y2 x3 y3 lam nu : Fp.
Hypothesis C1 : oncurve1 (Aff x1 y1).
Hypothesis C2 : oncurve1 (Aff x2 y2).
Hypothesis N1 : y1 <> fp0.
Hypothesis N2 : y2 <> fp0.
Hypothesis N3 : y3 <> fp0.
Hypothesis Hl : islf1 (Aff x1 y1) (Aff x2 y2) (Aff x3 y3) (LLine lam nu).
Lemma lines_P q f1 f2 fss t : in_G2 (aff2 q) -> plines (aff2 q) f1 f2 fss (aff2 t) -> kmul (aff2 q) 15132376222941642752 t ->
  hvalue (H3 x1 y1 x2 y2 x3 y3) f1 f2 fss = E12_One.
Proof.
  intros HG HL HT. pose proof (end_neg q t HG HT) as E. pose proof (proj1 HG) as HQ. destruct q as [x y]. unfold aff2 at 1 in HQ. cbn [g2X g2Y] in HQ.
  pose proof (g2_y_nz _ _ HQ) as Ny. pose proof (psi_y _ _ HQ) as Npy.
  set (X := E2_Mul (E2_Conjugate x) psi_u) in *. set (Y := E2_Mul (E2_Conjugate y) psi_v) in *.
  assert (ET : aff2 t = Aff X (E2_Neg Y)) by exact E. clear E.
  assert (HTon : g2on (aff2 t)) by (rewrite ET; exact (g2_neg_on _ (psiP_on _ HQ))).
  pose proof (Lw_neq0 lam nu x y Ny) as NL. pose proof (Lw_neq0 lam nu X Y Npy) as NL'.
  apply (tel_end _ (kap (Lw lam nu x y)) (kap (Lw lam nu X (E2_Neg Y)))); [exact (kap_neq0 _ NL)| | |exact (kap_end _ NL)].
  - apply (telescope isln _ (cvL lam nu) (cvL_ex lam nu) (cvL_neq0 lam nu) (tel_P x1 y1 x2 y2 x3 y3 lam nu C1 C2 N1 N2 N3 Hl) (aff2 (mkG2 x y)) _ _ _ _ (aff2 t) _ HL).
    + exists x, y. split; [reflexivity|]. split; [exact HQ | reflexivity].
    + exists X, (E2_Neg Y). split; [exact ET|]. split; [exact HTon | reflexivity].
  - rewrite <- (kap_frob _ NL), <- (kap_scale _ _ _ gam3_neq0 NL' (Lw_psi lam nu x y)). apply kap_Lw_neg. exact Npy.
Qed.
End FixedP.

(** no point of the curve over Fp has y = 0 *)
Lemma g1_y_nz x y : oncurve1 (Aff x y) -> y <> fp0.
Proof.
  unfold oncurve1. cbn [on_curve]. intros H ->. set (n := fopp x). assert (C : fpow n 3 = fmul (fpZ 2) (fpZ 2)).
  { transitivity (fmul n (fmul n n)); [reflexivity|]. transitivity (fsub (ofZ pBLS 4) (fadd (fadd (fmul (fmul x x) x) (fmul (f0 pBLS) x)) (ofZ pBLS 4))); [unfold n; ring|]. rewrite <- H. apply fval_inj. reflexivity. }
  assert (Nn : n <> fp0). { intros E. rewrite E in C. apply (f_equal fval) in C. vm_compute in C. discriminate. }
  assert (N2 : fpZ 2 <> fp0). { intros E. apply (f_equal fval) in E. vm_compute in E. discriminate. }
  destruct two_cube as (k & Hk & Hn). apply Hn.
  assert (N : fpow n (3 * k) = fp1) by (rewrite <- Hk; now apply fpow_p1).
  assert (F : fpow (fpZ 2) (3 * k) = fp1) by (rewrite <- Hk; now apply fpow_p1).
  rewrite npow_mulF in N. rewrite C, (npow_mulb _ _ _ _ _ _ Fm_rt) in N. rewrite npow_mulF in F.
  replace (fpow (fpZ 2) 3) with (fmul (fpZ 2) (fmul (fpZ 2) (fpZ 2))) in F by reflexivity. rewrite !(npow_mulb _ _ _ _ _ _ Fm_rt), N in F.
  transitivity (fmul (fpow (fpZ 2) k) fp1); [unfold fp1; ring | exact F].
Qed.
Lemma g1_line P1 P2 P3 : oncurve1 (g1aff P1) -> oncurve1 (g1aff P2) -> add1 (g1aff P1) (g1aff P2) (g1aff P3) ->
  exists lam nu, islf1 (g1aff P1) (g1aff P2) (g1aff P3) (LLine lam nu).
Proof.
  intros H1 H2 A. destruct (lf_ex _ _ _ _ _ _ _ _ _ Fp_ft _ _ _ _ A) as (f & F). unfold g1aff in *.
  destruct f as [|x|l m]; [inversion F | inversion F | eauto].
Qed.
Lemma g1_sum_on P1 P2 P3 : oncurve1 (g1aff P1) -> oncurve1 (g1aff P2) -> add1 (g1aff P1) (g1aff P2) (g1aff P3) -> oncurve1 (g1aff P3).
Proof. intros H1 H2 A. exact (@plain_closed _ _ _ _ _ _ _ _ _ Fp_ft (f0 pBLS) (ofZ pBLS 4) _ _ _ H1 H2 A). Qed.
Lemma kap_cj a b : a <> E12_Zero -> cj a b -> E12_Mul (kap a) (kap b) = E12_One.
Proof. intros N [->| ->]; [exact (kap_conj a N)|]. rewrite (kap_neg _ (conj_neq0 _ N)). exact (kap_conj a N). Qed.
Lemma in_G2_above P : in_G2 P -> order_above 15132376222941642752 P.
Proof.
  intros H. apply (order_le (rBLS - 1)); [vm_compute; discriminate|]. apply prime_order; [exact (proj1 H) | exact (proj1 (proj2 H)) | exact (in_G2_order P H)].
Qed.
(** the lines of a point of G2, and every Miller value on it *)
Theorem miller_kap q : in_G2 (aff2 q) -> exists f1 f2 fss t, plines (aff2 q) f1 f2 fss (aff2 t) /\ kmul (aff2 q) 15132376222941642752 t /\
  forall P, g1Y P <> fp0 -> exists m, determ (MillerLoop [P] [q]) m /\ m <> E12_Zero /\ E12_Mul (hvalue (hP (g1X P) (g1Y P)) f1 f2 fss) (kap m) = E12_One.
Proof.
  intros HG. destruct (lines_lf q (proj1 HG) (in_G2_above _ HG)) as (l1 & l2 & lls & f1 & f2 & fss & t & M & PL & K1 & K2 & CC & KM).
  exists f1, f2, fss, t. split; [exact PL|]. split; [exact KM|]. intros P N. exists (mvalue P l1 l2 lls).
  split; [exact (miller_lines P q l1 l2 lls N M)|]. exact (kap_mvalue P l1 l2 lls f1 f2 fss N K1 K2 CC).
Qed.
(** the value at P and the value at -P *)
Lemma hvalue_neg q f1 f2 fss T : plines q f1 f2 fss T -> forall x y, y <> fp0 -> E12_Mul (hvalue (hP x y) f1 f2 fss) (hvalue (hP x (fopp y)) f1 f2 fss) = E12_One.
Proof.
  intros HL x y N. rewrite <- hvalue_mul.
  assert (G : forall A B C f, isln A B C f -> E12_Mul (hP x y f) (hP x (fopp y) f) = E12_One) by (intros A B C f (HA & HB & HF & _); exact (hP_inv x y A B C f N HA HB HF)).
  assert (T1 : E12_Mul (hvalue (fun f => E12_Mul (hP x y f) (hP x (fopp y) f)) f1 f2 fss) E12_One = z12 E12_One loopN).
  { apply (telescope isln _ (fun _ c => c = E12_One)) with (Q := q) (T' := T).
    - intros. now exists E12_One.
    - intros A a ->. exact E12_1_neq_0.
    - intros A B C f HF a b c -> -> ->. rewrite (G _ _ _ _ HF). ring.
    - exact HL.
    - reflexivity.
    - reflexivity. }
  rewrite zpow_one, E12_1_r in T1. exact T1.
Qed.
Lemma inv4 a b c d e1 e2 e3 : E12_Mul a e1 = E12_One -> E12_Mul b e2 = E12_One -> E12_Mul d e3 = E12_One -> E12_Mul d c = E12_One -> E12_Mul (E12_Mul a b) c = E12_One -> E12_Mul e1 e2 = e3.
Proof.
  intros A B D C H. transitivity (E12_Mul (E12_Mul e1 e2) (E12_Mul d e3)); [rewrite D; ring|].
  transitivity (E12_Mul (E12_Mul (E12_Mul e1 e2) (E12_Mul d e3)) (E12_Mul (E12_Mul a b) c)); [rewrite H; ring|].
  transitivity (E12_Mul (E12_Mul (E12_Mul (E12_Mul a e1) (E12_Mul b e2)) (E12_Mul d c)) e3); [ring|]. rewrite A, B, C. ring.
Qed.
Theorem add_first P1 P2 P3 q m1 m2 m3 : oncurve1 (g1aff P1) -> oncurve1 (g1aff P2) -> add1 (g1aff P1) (g1aff P2) (g1aff P3) -> in_G2 (aff2 q) ->
  sat (MillerLoop [P1] [q]) m1 -> sat (MillerLoop [P2] [q]) m2 -> sat (MillerLoop [P3] [q]) m3 -> E12_Mul (kap m1) (kap m2) = kap m3.
Proof.
  intros H1 H2 A HG S1 S2 S3. pose proof (g1_sum_on _ _ _ H1 H2 A) as HP3. destruct (g1_line _ _ _ H1 H2 A) as (lam & nu & HL).
  pose proof (g1_y_nz _ _ H1) as N1. pose proof (g1_y_nz _ _ H2) as N2. pose proof (g1_y_nz _ _ HP3) as N3.
  destruct (miller_kap q HG) as (f1 & f2 & fss & t & PL & KM & V).
  destruct (V P1 N1) as (k1 & D1 & _ & E1). destruct (V P2 N2) as (k2 & D2 & _ & E2). destruct (V P3 N3) as (k3 & D3 & _ & E3).
  apply (proj2 D1) in S1. apply (proj2 D2) in S2. apply (proj2 D3) in S3. subst m1 m2 m3.
  pose proof (lines_P _ _ _ _ _ _ lam nu H1 H2 N1 N2 N3 HL q f1 f2 fss t HG PL KM) as T. unfold H3 in T. rewrite hvalue_mul in T. rewrite hvalue_mul in T.
  exact (inv4 _ _ _ _ _ _ _ E1 E2 E3 (hvalue_neg _ _ _ _ _ PL (g1X P3) (g1Y P3) N3) T).
Qed.
