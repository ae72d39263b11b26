(** Values after the final exponentiation, and telescoping along the loop. *)
From Coq Require Import ZArith NArith List Bool Lia Field.
From Verif Require Import Primes Params ZMod RingPow ZPow Circuit Api Emulated ApiFacts FieldFacts Tower TowerSpec TowerFacts TowerProofs Frobenius TorusFacts CycloFacts Pairing CurveSpec G2 HashG2 G2Spec EcIdeal EcEval EcGroup LineFour G2Jac G2Psi G2Mul G2Cof G2Order MillerProofs FixedQ FixedLoop FinalExp FinalExpProofs FinalExpSpec PairProofs MillerTotal MillerNeg MillerLf.
Import ListNotations.
Open Scope Z_scope.
Add Field E2FKA : E2_ft.
Add Ring E6RKA : E6_rt.
Add Ring E12RKA : E12_rt.

Definition kap (x : E12) : E12 := z12 x finE.
Notation zpow_mulbE12 := (zpow_mulb _ _ _ _ _ _ _ _ E12_ft).
Lemma nz_mul a b : a <> E12_Zero -> b <> E12_Zero -> E12_Mul a b <> E12_Zero.
Proof. intros A B E. apply E12_integral in E. destruct E as [E|E]; [exact (A E) | exact (B E)]. Qed.
Lemma nz_l a b : E12_Mul a b <> E12_Zero -> a <> E12_Zero.
Proof. intros N E. apply N. rewrite E. ring. Qed.
Lemma nz_r a b : E12_Mul a b <> E12_Zero -> b <> E12_Zero.
Proof. intros N E. apply N. rewrite E. ring. Qed.
Lemma kap_mul a b : a <> E12_Zero -> b <> E12_Zero -> kap (E12_Mul a b) = E12_Mul (kap a) (kap b).
Proof. intros A B. exact (zpow_mulbE12 a b finE A B). Qed.
Lemma kap_neq0 a : a <> E12_Zero -> kap a <> E12_Zero.
Proof. intros A. exact (zpow_neq0E12 a finE A). Qed.
Lemma kap_6 a : a <> E12_Zero -> C1 a = E6_Zero -> kap a = E12_One.
Proof. exact (C1_zero_fin a). Qed.
Lemma kap_one : kap E12_One = E12_One.
Proof. exact (zpow_one finE). Qed.
Lemma frob12_neq0 a : a <> E12_Zero -> frob12 a <> E12_Zero.
Proof. intros N. rewrite <- e12pow_p, <- z12_p. exact (zpow_neq0E12 a pBLS N). Qed.
Lemma kap_frob a : a <> E12_Zero -> kap (frob12 a) = z12 (kap a) pBLS.
Proof.
  intros N. unfold kap. rewrite <- e12pow_p, <- z12_p, <- (zpow_mulE12 a pBLS finE N), <- (zpow_mulE12 a finE pBLS N). rewrite Z.mul_comm. reflexivity.
Qed.
Definition loopN : Z := 15132376222941642752.
Lemma kap_end a : a <> E12_Zero -> z12 (kap a) (loopN + pBLS) = E12_One.
Proof.
  intros N. assert (E : loopN + pBLS = rBLS * ((loopN + pBLS) / rBLS)) by reflexivity. rewrite E.
  rewrite zpow_mulE12 by now apply kap_neq0. unfold kap. rewrite fin_order by exact N. apply zpow_one.
Qed.
Global Opaque kap.
Lemma kap_of2 u : u <> E2_Zero -> kap (e12_of2 u) = E12_One.
Proof. intros N. apply kap_6; [now apply e12_of2_neq0 | reflexivity]. Qed.
Lemma kap_neg a : a <> E12_Zero -> kap (E12_Neg a) = kap a.
Proof.
  intros N. assert (E : E12_Neg a = E12_Mul (e12_of2 (E2_Neg E2_One)) a) by (transitivity (E12_Mul (E12_Neg E12_One) a); [ring|]; f_equal; e12_full).
  assert (M : E2_Neg E2_One <> E2_Zero) by (intros Z; apply E2_1_neq_0; transitivity (E2_Neg (E2_Neg E2_One)); [ring | rewrite Z; ring]).
  rewrite E, kap_mul, (kap_of2 _ M); [ring | now apply e12_of2_neq0 | exact N].
Qed.
Lemma kap_conj a : a <> E12_Zero -> E12_Mul (kap a) (kap (E12_Conjugate a)) = E12_One.
Proof.
  intros N. pose proof (conj_neq0 a N) as M. rewrite <- kap_mul by assumption. apply kap_6; [now apply nz_mul|]. rewrite norm6_conj. reflexivity.
Qed.
Lemma e12_one_l a b : E12_Mul a b = E12_One -> a <> E12_Zero.
Proof. intros H E. rewrite E in H. apply E12_1_neq_0. rewrite <- H. ring. Qed.

Local Opaque E12_Mul.
(** the value of the loop for a function on the lines *)
Fixpoint hval {V : Type} (H : V -> E12) (vss : list (list V)) (r : E12) : E12 :=
  match vss with [] => r | vs :: vss => hval H vss (E12_Mul (E12_Mul r r) (fold_right (fun v m => E12_Mul (H v) m) E12_One vs)) end.
Definition hvalue {V : Type} (H : V -> E12) (v1 v2 : V) (vss : list (list V)) : E12 := hval H vss (E12_Mul (H v1) (H v2)).
Lemma hprod_mul {V : Type} (H1 H2 : V -> E12) vs :
  fold_right (fun v m => E12_Mul (E12_Mul (H1 v) (H2 v)) m) E12_One vs =
  E12_Mul (fold_right (fun v m => E12_Mul (H1 v) m) E12_One vs) (fold_right (fun v m => E12_Mul (H2 v) m) E12_One vs).
Proof. induction vs as [|v vs IH]; cbn [fold_right]; [ring | rewrite IH; ring]. Qed.
Lemma hshuf a b c d : E12_Mul (E12_Mul (E12_Mul a b) (E12_Mul a b)) (E12_Mul c d) = E12_Mul (E12_Mul (E12_Mul a a) c) (E12_Mul (E12_Mul b b) d).
Proof. ring. Qed.
Lemma hval_cons {V : Type} (H : V -> E12) vs vss r : hval H (vs :: vss) r = hval H vss (E12_Mul (E12_Mul r r) (fold_right (fun v m => E12_Mul (H v) m) E12_One vs)).
Proof. reflexivity. Qed.
Lemma hval_mul {V : Type} (H1 H2 : V -> E12) vss : forall r1 r2, hval (fun v => E12_Mul (H1 v) (H2 v)) vss (E12_Mul r1 r2) = E12_Mul (hval H1 vss r1) (hval H2 vss r2).
Proof.
  induction vss as [|vs vss IH]; intros r1 r2; [reflexivity|]. rewrite !hval_cons, <- IH, hprod_mul, hshuf. reflexivity.
Qed.
Lemma hvalue_mul {V : Type} (H1 H2 : V -> E12) v1 v2 vss : hvalue (fun v => E12_Mul (H1 v) (H2 v)) v1 v2 vss = E12_Mul (hvalue H1 v1 v2 vss) (hvalue H2 v1 v2 vss).
Proof.
  unfold hvalue. rewrite <- hval_mul. assert (E : forall a b c d, E12_Mul (E12_Mul a b) (E12_Mul c d) = E12_Mul (E12_Mul a c) (E12_Mul b d)) by (intros; ring).
  rewrite E. reflexivity.
Qed.

Section Tel.
Context {U V : Type}.
Variable Lf : U -> U -> U -> V -> Prop.
Variable H : V -> E12.
Variable cv : U -> E12 -> Prop.
Hypothesis cv_ex : forall A B C v, Lf A B C v -> exists c, cv C c.
Hypothesis cv_neq0 : forall A a, cv A a -> a <> E12_Zero.
Hypothesis tel : forall A B C v, Lf A B C v -> forall a b c, cv A a -> cv B b -> cv C c -> E12_Mul (H v) c = E12_Mul a b.
Lemma cancel_r12 a b t : t <> E12_Zero -> E12_Mul a t = E12_Mul b t -> a = b.
Proof. intros N E. apply (e12cancel t); [exact N|]. exact E. Qed.
Lemma tel_trace Q q L : cv Q q -> forall T T' vss k r, gtrace Lf Q L T vss T' -> (exists t, cv T t) -> (forall t, cv T t -> E12_Mul r t = z12 q k) ->
  forall t', cv T' t' -> E12_Mul (hval H vss r) t' = z12 q (fold_left knext L k).
Proof.
  intros Hq. pose proof (cv_neq0 _ _ Hq) as Nq. induction L as [|i L IH]; intros T T' [|vs vss] k r; cbn [gtrace hval fold_left]; try tauto.
  - intros -> _ E t' Ht. exact (E t' Ht).
  - intros (S & St & Tr) (t & Ht) E t' Ht'. pose proof (E t Ht) as Et. pose proof (cv_neq0 _ _ Ht) as Nt.
    assert (G : (exists s, cv S s) /\ forall s, cv S s -> E12_Mul (E12_Mul (E12_Mul r r) (fold_right (fun v m => E12_Mul (H v) m) E12_One vs)) s = z12 q (knext k i)).
    { revert St. unfold gstep, knext. destruct (Z.eqb _ _).
      - intros (f & F & ->). cbn [fold_right]. split; [exact (cv_ex _ _ _ _ F)|]. intros s Hs. pose proof (tel _ _ _ _ F t t s Ht Ht Hs) as X.
        replace (2 * k) with (k + k) by lia. rewrite zpow_addE12, <- Et by exact Nq.
        transitivity (E12_Mul (E12_Mul r r) (E12_Mul (H f) s)); [ring | rewrite X; ring].
      - intros (M & f1 & f2 & F1 & F2 & ->). cbn [fold_right]. split; [exact (cv_ex _ _ _ _ F2)|]. intros s Hs.
        destruct (cv_ex _ _ _ _ F1) as (m & Hm). pose proof (tel _ _ _ _ F1 t q m Ht Hq Hm) as X1. pose proof (tel _ _ _ _ F2 m t s Hm Ht Hs) as X2.
        replace (2 * k + 1) with (k + k + 1) by lia. rewrite (zpow_addE12 q (k + k) 1), (zpow_addE12 q k k), <- Et by exact Nq.
        assert (Z1 : z12 q 1 = q) by reflexivity. rewrite Z1.
        transitivity (E12_Mul (E12_Mul (E12_Mul r r) (H f1)) (E12_Mul (H f2) s)); [ring | rewrite X2].
        transitivity (E12_Mul (E12_Mul (E12_Mul r r) t) (E12_Mul (H f1) m)); [ring | rewrite X1; ring]. }
    destruct G as (G1 & G2). exact (IH S T' vss _ _ Tr G1 G2 t' Ht').
Qed.
Theorem telescope Q q v1 v2 vss T' t' : glines Lf Q v1 v2 vss T' -> cv Q q -> cv T' t' ->
  E12_Mul (hvalue H v1 v2 vss) t' = z12 q loopN.
Proof.
  intros (S & T & F1 & F2 & Tr) Hq Ht'. pose proof (cv_neq0 _ _ Hq) as Nq. unfold loopN. rewrite <- kend.
  refine (tel_trace Q q fixedRange Hq T T' vss 3 _ Tr (cv_ex _ _ _ _ F2) _ t' Ht').
  intros t Ht. destruct (cv_ex _ _ _ _ F1) as (m & Hm). pose proof (tel _ _ _ _ F1 q q m Hq Hq Hm) as X1. pose proof (tel _ _ _ _ F2 m q t Hm Hq Ht) as X2.
  assert (Z1 : z12 q 1 = q) by reflexivity.
  replace 3 with (1 + 1 + 1) by lia. rewrite (zpow_addE12 q (1 + 1) 1), (zpow_addE12 q 1 1), Z1 by exact Nq.
  transitivity (E12_Mul (H v1) (E12_Mul (H v2) t)); [ring|]. rewrite X2. transitivity (E12_Mul (E12_Mul (H v1) m) q); [ring|]. rewrite X1. ring.
Qed.
End Tel.

Local Transparent E12_Mul.
(** the image of a point of G1 on the twisted curve over Fp12 *)
Definition w2e (x : Fp) : E12 := mkE12 (mkE6 E2_Zero (e2_of x) E2_Zero) E6_Zero.
Definition w3e (y : Fp) : E12 := mkE12 E6_Zero (mkE6 E2_Zero (e2_of y) E2_Zero).
Lemma on12_w x y : fmul y y = fadd (fmul (fmul x x) x) (fpZ 4) -> on12 (w2e x) (w3e y).
Proof.
  intros E. assert (E' : E2_Mul (e2_of y) (e2_of y) = E2_Add (E2_Mul (E2_Mul (e2_of x) (e2_of x)) (e2_of x)) (e2_of (fpZ 4))) by (rewrite <- !e2_of_mul, <- e2_of_add, E; reflexivity).
  assert (B : g2b = E2_Mul E2_NonResidue (e2_of (fpZ 4))) by (apply E2_ext; reflexivity).
  unfold on12, w2e, w3e. rewrite B. revert E'. generalize (e2_of x) (e2_of y) (e2_of (fpZ 4)). intros X Y b E'.
  apply E12_ext; apply E6_ext;
  cbn [C0 C1 E12_Add E12_Mul E12_Sub e12_of2 B0 B1 B2 E6_Add E6_Mul E6_Sub E6_Neg E6_One E6_Zero E6_MulByNonResidue];
  e2_norm; rewrite ?E2_MulByNonResidue_eq; try ring.
  transitivity (E2_Mul E2_NonResidue (E2_Mul Y Y)); [ring | rewrite E'; ring].
Qed.
(** the values of a line at P and -P *)
Definition hP (x y : Fp) (f : lfun E2) : E12 := kap (lev12 (w2e x) (w3e y) f).
Lemma w3e_opp y : w3e (fopp y) = E12_Neg (w3e y).
Proof. unfold w3e, E12_Neg, e2_of. cbn [C0 C1]. apply E12_ext; cbn [C0 C1]; apply E6_ext; cbn [E6_Neg E6_Zero B0 B1 B2]; try ring. unfold E2_Neg. cbn [A0 A1]. apply E2_ext; cbn [A0 A1]; [reflexivity | unfold fp0; ring]. Qed.
Lemma lev_conj x y f : lev12 (w2e x) (w3e (fopp y)) f = E12_Conjugate (lev12 (w2e x) (w3e y) f).
Proof.
  rewrite w3e_opp. unfold lev. destruct f as [|x1|l m]; unfold w2e, w3e.
  - e12_full.
  - e12_full.
  - e12_full.
Qed.
Lemma g2b_x x y : g2on (Aff x y) -> x <> E2_Zero.
Proof.
  unfold g2on. cbn [on_curve]. intros H ->. set (h := e2_of (finv (fpZ 2))). apply (xi_nonsquare (E2_Mul h y)).
  transitivity (E2_Mul (E2_Mul h h) (E2_Mul y y)); [ring|]. rewrite H. transitivity (E2_Mul (E2_Mul h h) g2b); [unfold g2a; ring|].
  assert (B : g2b = E2_Mul E2_NonResidue (E2_Mul (e2_of (fpZ 2)) (e2_of (fpZ 2)))) by (apply E2_ext; reflexivity).
  assert (HH : E2_Mul h (e2_of (fpZ 2)) = E2_One).
  { unfold h. rewrite <- e2_of_mul, finv_l; [reflexivity | exact pBLS_prime | discriminate]. }
  rewrite B. transitivity (E2_Mul E2_NonResidue (E2_Mul (E2_Mul h (e2_of (fpZ 2))) (E2_Mul h (e2_of (fpZ 2))))); [ring | rewrite HH; ring].
Qed.
Lemma lev_vert_neq0 x y x1 : x1 <> E2_Zero -> lev12 (w2e x) y (LVert x1) <> E12_Zero.
Proof.
  intros N E. apply N. apply (f_equal C0) in E. apply (f_equal B0) in E. unfold lev, w2e, e12_of2 in E. cbn [C0 B0 E12_Sub E6_Sub E12_Zero E6_Zero] in E.
  transitivity (E2_Neg (E2_Sub E2_Zero x1)); [ring | rewrite E; ring].
Qed.
Lemma lev_line_neq0 x y l m : y <> fp0 -> lev12 (w2e x) (w3e y) (LLine l m) <> E12_Zero.
Proof.
  intros N E. apply N. apply (f_equal C1) in E. apply (f_equal B1) in E. apply e2_of_inj. rewrite e2_of_0, <- E at 1. unfold lev, w2e, w3e, e12_of2.
  cbn [C0 C1 B0 B1 B2 E12_Sub E12_Add E12_Mul E6_Add E6_Mul E6_Sub E12_Zero E6_Zero]. e2_norm. ring.
Qed.
Lemma lev_neq0 x y A B C f : y <> fp0 -> g2on A -> g2on B -> islf A B C f -> lev12 (w2e x) (w3e y) f <> E12_Zero.
Proof.
  intros N HA HB H. destruct H as [ | x1 y1 | x1 y1 | x1 y1 y' | x1 y1 x2 y2 l m | x1 y1 l m].
  - exact E12_1_neq_0.
  - apply lev_vert_neq0. exact (g2b_x _ _ HB).
  - apply lev_vert_neq0. exact (g2b_x _ _ HA).
  - apply lev_vert_neq0. exact (g2b_x _ _ HA).
  - now apply lev_line_neq0.
  - now apply lev_line_neq0.
Qed.
Lemma lev_lvert x y A : g2on A -> lev12 (w2e x) y (lvert E2 A) <> E12_Zero /\ kap (lev12 (w2e x) y (lvert E2 A)) = E12_One.
Proof.
  intros HA. destruct A as [|x1 y1]; cbn [lvert].
  - split; [exact E12_1_neq_0 | exact kap_one].
  - pose proof (lev_vert_neq0 x y x1 (g2b_x _ _ HA)) as N. split; [exact N|]. apply kap_6; [exact N|].
    unfold lev, w2e, e12_of2. cbn [C1 E12_Sub]. ring.
Qed.
Lemma hP_inv x y A B C f : y <> fp0 -> g2on A -> g2on B -> islf A B C f -> E12_Mul (hP x y f) (hP x (fopp y) f) = E12_One.
Proof. intros N HA HB H. unfold hP. rewrite lev_conj. apply kap_conj. exact (lev_neq0 _ _ _ _ _ _ N HA HB H). Qed.
Lemma fopp_neq0 (y : Fp) : y <> fp0 -> fopp y <> fp0.
Proof. intros N E. apply N. transitivity (fopp (fopp y)); [ring|]. rewrite E. unfold fp0. ring. Qed.

(** the loop of the code, after the final exponentiation *)
Lemma line_lev x y ln f : y <> fp0 -> codeLine ln f ->
  E12_Mul (e12_of2 (e2_of y)) (lineE12 (evalLine ln (fmul x (finv y)) (finv y))) = lev12 (w2e x) (w3e y) f.
Proof.
  intros N. destruct f as [|x1|l m]; [intros []..|]. intros ->. pose proof (finv_l y pBLS_prime N) as I.
  assert (M : forall z : E2, E2_Mul (e2_of y) (E2_MulByElement z (finv y)) = z).
  { intros z. transitivity (E2_Mul z (e2_of (fmul (finv y) y))); [|rewrite I, e2_of_1; ring].
    rewrite e2_of_mul. assert (E : E2_MulByElement z (finv y) = E2_Mul z (e2_of (finv y))) by (unfold E2_MulByElement, e2_of; apply E2_ext; cbn [A0 A1 E2_Mul]; unfold fp0; ring). rewrite E. ring. }
  assert (M2 : forall z : E2, E2_Mul (e2_of y) (E2_MulByElement z (fmul x (finv y))) = E2_Mul z (e2_of x)).
  { intros z. assert (E : E2_MulByElement z (fmul x (finv y)) = E2_MulByElement (E2_Mul z (e2_of x)) (finv y)) by (unfold E2_MulByElement, e2_of; apply E2_ext; cbn [A0 A1 E2_Mul]; unfold fp0; ring).
    rewrite E. apply M. }
  unfold lineE12, evalLine. cbn [R0 R1]. rewrite e12_of2_mulx, M, M2. unfold lev, w2e, w3e.
  generalize (e2_of x) (e2_of y). intros X Y. e12_full.
Qed.
Lemma lineE12_neq0 l : lineE12 l <> E12_Zero.
Proof. intros E. apply (f_equal C1) in E. apply (f_equal B1) in E. exact (E2_1_neq_0 E). Qed.
Lemma kap_line x y ln f : y <> fp0 -> codeLine ln f -> kap (lineE12 (evalLine ln (fmul x (finv y)) (finv y))) = hP x y f.
Proof.
  intros N C. unfold hP. rewrite <- (line_lev x y ln f N C). assert (Ny : e2_of y <> E2_Zero) by (intros E; apply N, e2_of_inj; exact E).
  rewrite kap_mul, (kap_of2 _ Ny); [ring | now apply e12_of2_neq0 | apply lineE12_neq0].
Qed.
Lemma kap_lprod x y ls fs : y <> fp0 -> codeLines ls fs ->
  lprod (fmul x (finv y)) (finv y) ls <> E12_Zero /\ kap (lprod (fmul x (finv y)) (finv y) ls) = fold_right (fun f m => E12_Mul (hP x y f) m) E12_One fs.
Proof.
  intros N. induction 1 as [|ln f ls fs C _ (IH1 & IH2)]; cbn [lprod fold_right]; [split; [exact E12_1_neq_0 | exact kap_one]|].
  fold (lprod (fmul x (finv y)) (finv y) ls). pose proof (lineE12_neq0 (evalLine ln (fmul x (finv y)) (finv y))) as M. split; [now apply nz_mul|].
  rewrite kap_mul, IH2, (kap_line x y ln f N C) by assumption. reflexivity.
Qed.
Lemma mval_cons xy yi ls lls r : mval xy yi (ls :: lls) r = mval xy yi lls (E12_Mul (E12_Mul r r) (lprod xy yi ls)).
Proof. reflexivity. Qed.
Lemma kap_mval x y : y <> fp0 -> forall lls fss, Forall2 codeLines lls fss -> forall r, r <> E12_Zero ->
  mval (fmul x (finv y)) (finv y) lls r <> E12_Zero /\ kap (mval (fmul x (finv y)) (finv y) lls r) = hval (hP x y) fss (kap r).
Proof.
  intros N. induction 1 as [|ls fs lls fss C _ IH]; intros r Nr; [split; [exact Nr | reflexivity]|]. rewrite mval_cons, hval_cons.
  destruct (kap_lprod x y ls fs N C) as (M & E). specialize (IH _ (nz_mul _ _ (nz_mul _ _ Nr Nr) M)). rewrite (kap_mul _ _ (nz_mul _ _ Nr Nr) M), (kap_mul _ _ Nr Nr), E in IH. exact IH.
Qed.
Theorem kap_mvalue P l1 l2 lls f1 f2 fss : g1Y P <> fp0 -> codeLine l1 f1 -> codeLine l2 f2 -> Forall2 codeLines lls fss ->
  mvalue P l1 l2 lls <> E12_Zero /\ E12_Mul (hvalue (hP (g1X P) (g1Y P)) f1 f2 fss) (kap (mvalue P l1 l2 lls)) = E12_One.
Proof.
  intros N K1 K2 CC. unfold mvalue. cbv zeta. destruct (kap_lprod (g1X P) (g1Y P) [l1; l2] [f1; f2] N) as (M & E); [now repeat constructor|].
  destruct (kap_mval (g1X P) (g1Y P) N lls fss CC _ M) as (M' & E'). split; [exact (conj_neq0 _ M')|].
  unfold hvalue. cbn [fold_right] in E. rewrite E12_1_r in E. rewrite <- E, <- E'. exact (kap_conj _ M').
Qed.
