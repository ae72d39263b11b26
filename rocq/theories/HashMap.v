(** MapElementToCurve2 (C29, C30): the simplified SWU map. *)
From Coq Require Import ZArith NArith List Bool Lia Field.
From Verif Require Import Params ZMod RingPow Circuit Api Emulated ApiFacts FieldFacts Tower TowerFacts TowerProofs FastTower Pairing CurveSpec G2 HashG2 G2Spec HashSpec G2Pred HashSgn HashSqrt HashIso.
Import ListNotations.
Open Scope Z_scope.
Add Field E2FM : E2_ft.

(** ** constants *)
Lemma cA : SswuIsoCurveCoeffA = isoA. Proof. unfold SswuIsoCurveCoeffA, isoA, fpMont. fast_e2. Qed.
Lemma cB : SswuIsoCurveCoeffB = isoB. Proof. unfold SswuIsoCurveCoeffB, isoB, fpMont. fast_e2. Qed.
Lemma cZ : Tv4Z = isoZ. Proof. unfold Tv4Z, isoZ, fpMont. fast_e2. Qed.
Lemma isoA_neq0 : isoA <> E2_Zero. Proof. unfold isoA, E2_Zero. fast_e2. Qed.
Lemma isoB_neq0 : isoB <> E2_Zero. Proof. unfold isoB, E2_Zero. fast_e2. Qed.
Lemma isoZ_neq0 : isoZ <> E2_Zero. Proof. unfold isoZ, E2_Zero. fast_e2. Qed.
Lemma isoZ_half : e2pow isoZ (4 * sqrtT) = E2_Neg E2_One.
Proof. let n := eval vm_compute in (4 * sqrtT)%N in change (4 * sqrtT)%N with n. unfold isoZ, E2_Neg, E2_One. cbn [A0 A1]. fast_e2. Qed.
Local Opaque E2_Mul E2_Add E2_Sub E2_Neg isoA isoB isoZ E2_One E2_Zero sqrtT.
Lemma isoZ_nonsquare : ~ is_square isoZ.
Proof.
  intros (s & Hs). assert (N : s <> E2_Zero). { intros ->. apply isoZ_neq0. rewrite <- Hs. ring. }
  pose proof isoZ_half as H. rewrite <- Hs in H. change (E2_Mul s s) with (e2pow s 2) in H. rewrite <- npow_mulE2 in H. assert (Q : (2 * (4 * sqrtT) = pN * pN - 1)%N) by (rewrite sqrtT_8; lia).
  rewrite Q, (e2pow_order s N) in H. symmetry in H. exact (neg1_neq1 H).
Qed.
Lemma square_mul x y : is_square x -> is_square y -> is_square (E2_Mul x y).
Proof. intros (a & <-) (b & <-). exists (E2_Mul a b). ring. Qed.
Lemma square_inv x y : x <> E2_Zero -> is_square x -> is_square (E2_Mul x y) -> is_square y.
Proof.
  intros N (a & <-) (b & E). assert (Na : a <> E2_Zero). { intros ->. apply N. ring. }
  exists (E2_div b a). transitivity (E2_div (E2_Mul b b) (E2_Mul a a)); [field; exact Na|]. rewrite E. field. exact Na.
Qed.

(** ** the registers *)
Definition mt u := E2_Mul (E2_Mul u u) isoZ.
Definition md u := E2_Add (E2_Mul (mt u) (mt u)) (mt u).
Definition mn u := E2_Mul (E2_Add (md u) E2_One) isoB.
Definition mm u := E2_Mul (E2_Neg (md u)) isoA.
Definition gn u := E2_Add (E2_Mul (E2_Add (E2_Mul (mn u) (mn u)) (E2_Mul (E2_Mul (mm u) (mm u)) isoA)) (mn u)) (E2_Mul (E2_Mul (E2_Mul (mm u) (mm u)) (mm u)) isoB).
Definition gd u := E2_Mul (E2_Mul (mm u) (mm u)) (mm u).
Definition mapTail u (r : E2 * Fr) : Circ G2Affine :=
  let '(y1, f) := r in
  let y := E2_Mul (E2_Mul (mt u) u) y1 in
  x <- E2_Select f (E2_Mul (mt u) (mn u)) (mn u) ;;
  y <- E2_Select f y y1 ;;
  let y1 := E2_Neg y in
  g2Sgn0U <- g2Sgn0 u ;;
  g2Sgn0Y <- g2Sgn0 y ;;
  useY1 <- api_Xor g2Sgn0U g2Sgn0Y ;;
  y <- E2_Select useY1 y1 y ;;
  x <- E2_Div x (mm u) ;;
  Ret (mkG2 x y).
Local Opaque g2SqrtRatio E2_Select g2Sgn0 api_Xor E2_Div E2_Square E2NotOne E2Exp SswuIsoCurveCoeffA SswuIsoCurveCoeffB Tv4Z.
Lemma map_unfold u : MapElementToCurve2 u = bind (g2SqrtRatio (gn u) (gd u)) (mapTail u).
Proof. unfold MapElementToCurve2. cbv zeta. rewrite cA, cB, cZ. rewrite !E2_Square_eq. reflexivity. Qed.
Local Opaque mapTail.

Definition mX u (b : bool) := if b then E2_Mul (mt u) (mn u) else mn u.
Definition mY u (b : bool) z := if b then E2_Mul (E2_Mul (mt u) u) z else z.
Definition negif (b : bool) y := if b then E2_Neg y else y.
Lemma sat_div_bind {B} x y (f : E2 -> Circ B) r : sat (bind (E2_Div x y) f) r <-> y <> E2_Zero /\ sat (f (E2_div x y)) r.
Proof.
  Local Transparent E2_Div. unfold E2_Div. Local Opaque E2_Div. rewrite sat_bind. split.
  - intros (a & Ha & Hb). apply sat_bind in Ha. destruct Ha as (i & Hi & Ha). cbn [sat] in Ha.
    assert (N : y <> E2_Zero). { intros ->. exact (unsat_E2_Inverse0 _ Hi). } split; [exact N|].
    apply (proj2 (determ_E2_Inverse y N)) in Hi. subst i a. exact Hb.
  - intros [N Hb]. exists (E2_div x y). split; [|exact Hb]. apply sat_bind. exists (E2_inv y). split; [apply run_sat, (determ_E2_Inverse y N) | reflexivity].
Qed.
Lemma run_div_bind {B} x y (f : E2 -> Circ B) : y <> E2_Zero -> run (bind (E2_Div x y) f) = run (f (E2_div x y)).
Proof.
  intros N. Local Transparent E2_Div. unfold E2_Div. Local Opaque E2_Div. rewrite run_bind, run_bind, (proj1 (determ_E2_Inverse y N)). reflexivity.
Qed.
Lemma sat_sgn_bind {B} x (f : Fr -> Circ B) r : sat (bind (g2Sgn0 x) f) r <-> exists s, sat (g2Sgn0 x) (bF s) /\ sat (f (bF s)) r.
Proof.
  rewrite sat_bind. split; [|intros (s & H & H'); now exists (bF s)]. intros (a & Ha & Hb). pose proof Ha as Ha'. apply sat_sgn0 in Ha'.
  destruct Ha' as [->|[_ ->]]; [exists (Z.odd (fval (A0 x))) | exists (negb (Z.odd (fval (A0 x))))]; split; assumption.
Qed.
Lemma sat_xor_bind {B} a b (f : Fr -> Circ B) r : sat (bind (api_Xor (bF a) (bF b)) f) r <-> sat (f (bF (xorb a b))) r.
Proof.
  rewrite sat_bind. destruct (determ_Xor a b) as [R U]. split.
  - intros (c & Hc & Hb). apply U in Hc. subst c. exact Hb.
  - intros Hb. exists (bF (xorb a b)). split; [now apply run_sat | exact Hb].
Qed.
Lemma run_xor_bind {B} a b (f : Fr -> Circ B) : run (bind (api_Xor (bF a) (bF b)) f) = run (f (bF (xorb a b))).
Proof. rewrite run_bind, (proj1 (determ_Xor a b)). reflexivity. Qed.
(** every accepted output *)
Lemma sat_map u r : sat (MapElementToCurve2 u) r <->
  exists z b s s', sat (g2SqrtRatio (gn u) (gd u)) (z, bF b) /\ sat (g2Sgn0 u) (bF s) /\ sat (g2Sgn0 (mY u b z)) (bF s') /\ mm u <> E2_Zero /\
    r = mkG2 (E2_div (mX u b) (mm u)) (negif (xorb s s') (mY u b z)).
Proof.
  rewrite map_unfold, sat_bind. Local Transparent mapTail. split.
  - intros ([z f] & Hs & H). assert (F : exists b, f = bF b). { apply sat_sqrt in Hs. destruct Hs as (b & b1 & b2 & _ & _ & _ & E). injection E as _ ->. now exists b. }
    destruct F as (b & ->). unfold mapTail in H. cbv zeta in H.
    apply (proj1 (sat_sel_bind _ _ _ _ _)) in H. apply (proj1 (sat_sel_bind _ _ _ _ _)) in H. apply (proj1 (sat_sgn_bind _ _ _)) in H. destruct H as (s & Hs1 & H).
    apply (proj1 (sat_sgn_bind _ _ _)) in H. destruct H as (s' & Hs2 & H). apply (proj1 (sat_xor_bind _ _ _ _)) in H. apply (proj1 (sat_sel_bind _ _ _ _ _)) in H. change (if b then E2_Mul (mt u) (mn u) else mn u) with (mX u b) in H. rewrite (sat_div_bind (mX u b) (mm u)) in H. destruct H as (N & H). cbn [sat] in H.
    exists z, b, s, s'. split; [exact Hs|]. split; [exact Hs1|]. split; [exact Hs2|]. split; [exact N | symmetry; exact H].
  - intros (z & b & s & s' & Hs & Hs1 & Hs2 & N & ->). exists (z, bF b). split; [exact Hs|]. unfold mapTail. cbv zeta.
    apply (proj2 (sat_sel_bind _ _ _ _ _)). apply (proj2 (sat_sel_bind _ _ _ _ _)). apply (proj2 (sat_sgn_bind _ _ _)). exists s. split; [exact Hs1|].
    apply (proj2 (sat_sgn_bind _ _ _)). exists s'. split; [exact Hs2|]. apply (proj2 (sat_xor_bind _ _ _ _)). apply (proj2 (sat_sel_bind _ _ _ _ _)). apply (proj2 (sat_div_bind _ _ _ _)). split; [exact N | reflexivity].
Qed.
Lemma run_map u z b : mm u <> E2_Zero -> run (g2SqrtRatio (gn u) (gd u)) = Some (z, bF b) ->
  run (MapElementToCurve2 u) = Some (mkG2 (E2_div (mX u b) (mm u)) (negif (xorb (Z.odd (fval (A0 u))) (Z.odd (fval (A0 (mY u b z))))) (mY u b z))).
Proof.
  intros N R. rewrite map_unfold, run_bind, R. unfold mapTail. cbv zeta. rewrite run_sel_bind, run_sel_bind, run_bind, run_sgn0.
  change (if b then E2_Mul (E2_Mul (mt u) u) z else z) with (mY u b z). rewrite run_bind, run_sgn0, run_xor_bind, run_sel_bind, (run_div_bind _ _ _ N). reflexivity.
Qed.
Local Opaque mapTail.

(** ** algebra *)
Lemma md_neq0 u : u <> E2_Zero -> md u <> E2_Zero.
Proof.
  intros N E. assert (F : md u = E2_Mul (mt u) (E2_Add (mt u) E2_One)) by (unfold md; ring). rewrite F in E. apply E2_integral in E.
  assert (U : E2_Mul u u <> E2_Zero) by (now apply E2_mul_neq0).
  destruct E as [E|E].
  - unfold mt in E. apply E2_integral in E. destruct E as [E|E]; [exact (U E) | exact (isoZ_neq0 E)].
  - apply isoZ_nonsquare. apply (square_inv (E2_Mul u u)); [exact U | now exists u|]. exists e2_u. rewrite e2_u2. fold (mt u).
    transitivity (E2_Sub (E2_Add (mt u) E2_One) (E2_Add E2_One E2_Zero)); [rewrite E; ring | ring].
Qed.
Lemma md_0 : md E2_Zero = E2_Zero. Proof. unfold md, mt. ring. Qed.
Lemma neg_neq0 x : x <> E2_Zero -> E2_Neg x <> E2_Zero.
Proof. intros N E. apply N. transitivity (E2_Neg (E2_Neg x)); [ring|]. rewrite E. ring. Qed.
Lemma mm_neq0 u : u <> E2_Zero -> mm u <> E2_Zero.
Proof.
  intros N. unfold mm. apply E2_mul_neq0; [|exact isoA_neq0]. now apply neg_neq0, md_neq0.
Qed.
Lemma mm_0 : mm E2_Zero = E2_Zero. Proof. unfold mm. rewrite md_0. ring. Qed.
Definition x1 u := E2_div (mn u) (mm u).
Lemma gd_neq0 u : u <> E2_Zero -> gd u <> E2_Zero.
Proof. intros N. pose proof (mm_neq0 u N). unfold gd. apply E2_mul_neq0; [|assumption]. now apply E2_mul_neq0. Qed.
Lemma gn_eq u : u <> E2_Zero -> gn u = E2_Mul (gd u) (iso_g (x1 u)).
Proof. intros N. pose proof (mm_neq0 u N). unfold gn, gd, iso_g, x1. field. assumption. Qed.
Lemma gn_neq0 u : u <> E2_Zero -> gn u <> E2_Zero.
Proof. intros N. rewrite (gn_eq u N). apply E2_mul_neq0; [now apply gd_neq0 | apply iso_no_root]. Qed.
Lemma ratio_iso u : u <> E2_Zero -> (ratio_square (gn u) (gd u) <-> is_square (iso_g (x1 u))).
Proof.
  intros N. pose proof (gd_neq0 u N) as G. rewrite (gn_eq u N). split; intros (s & H).
  - exists s. transitivity (E2_div (E2_Mul (E2_Mul s s) (gd u)) (gd u)); [field; exact G|]. rewrite H. field. exact G.
  - exists s. rewrite H. ring.
Qed.
Lemma x1_spec u : u <> E2_Zero -> sswu_x1 u (x1 u).
Proof.
  intros N. pose proof (md_neq0 u N) as D. assert (E : E2_Add (E2_Mul (E2_Mul isoZ isoZ) (E2_Mul (E2_Mul u u) (E2_Mul u u))) (E2_Mul isoZ (E2_Mul u u)) = md u) by (unfold md, mt; ring).
  unfold sswu_x1. cbv zeta. rewrite E. split; [intros _|intros Z; exact (False_ind _ (D Z))]. exists (E2_inv (md u)). split; [now apply E2_inv_l|].
  unfold x1, mn, mm. field. split; [exact D|]. split; [exact isoA_neq0 | now apply neg_neq0].
Qed.
(** the SSWU identity: g(t x1) = t^3 g(x1) *)
Lemma sswu_ident u : u <> E2_Zero -> iso_g (E2_Mul (mt u) (x1 u)) = E2_Mul (E2_Mul (E2_Mul (mt u) (mt u)) (mt u)) (iso_g (x1 u)).
Proof.
  intros N. assert (K : E2_Mul (E2_Mul (x1 u) isoA) (md u) = E2_Neg (E2_Mul isoB (E2_Add (md u) E2_One))).
  { unfold x1, mn, mm. field. split; [exact isoA_neq0 | now apply neg_neq0, md_neq0]. }
  unfold md in K. set (t := mt u) in *. set (x := x1 u) in *. clearbody t x. unfold iso_g.
  transitivity (E2_Add (E2_Mul (E2_Mul (E2_Mul t t) t) (E2_Add (E2_Add (E2_Mul (E2_Mul x x) x) (E2_Mul isoA x)) isoB))
    (E2_Mul (E2_Sub E2_One t) (E2_Add (E2_Mul (E2_Mul x isoA) (E2_Add (E2_Mul t t) t)) (E2_Mul isoB (E2_Add (E2_Add (E2_Mul t t) t) E2_One))))); [ring|].
  rewrite K. ring.
Qed.
Lemma mX_div u b : u <> E2_Zero -> E2_div (mX u b) (mm u) = if b then E2_Mul (mt u) (x1 u) else x1 u.
Proof. intros N. pose proof (mm_neq0 u N). unfold mX, x1. destruct b; [field; assumption | reflexivity]. Qed.
(** the ordinate: if z^2 gd = (Z) gn t then y^2 = g(x) t *)
Lemma mY_sq u b z t : u <> E2_Zero -> E2_Mul (E2_Mul z z) (gd u) = E2_Mul (zif b (gn u)) t ->
  E2_Mul (mY u b z) (mY u b z) = E2_Mul (iso_g (E2_div (mX u b) (mm u))) t.
Proof.
  intros N H. pose proof (gd_neq0 u N) as G. rewrite (mX_div u b N). rewrite (gn_eq u N) in H.
  assert (Z2 : E2_Mul z z = E2_Mul (zif b (iso_g (x1 u))) t).
  { transitivity (E2_div (E2_Mul (E2_Mul z z) (gd u)) (gd u)); [field; exact G|]. rewrite H. destruct b; cbn [zif]; field; exact G. }
  destruct b; cbn [mY zif] in *; [|exact Z2]. rewrite (sswu_ident u N).
  transitivity (E2_Mul (E2_Mul (E2_Mul (mt u) (mt u)) (E2_Mul u u)) (E2_Mul z z)); [ring|]. rewrite Z2. unfold mt. ring.
Qed.
Lemma negif_sq b y : E2_Mul (negif b y) (negif b y) = E2_Mul y y.
Proof. destruct b; cbn [negif]; [ring | reflexivity]. Qed.

(** ** honest prover *)
Lemma sgn_par (x : E2) : A0 x <> fp0 -> sgn0 x = Z.odd (fval (A0 x)).
Proof.
  intros Hx. unfold sgn0. assert (F : fval (A0 x) <> 0) by (intros E; apply Hx, fval_inj; rewrite E; reflexivity). apply Z.eqb_neq in F. now rewrite F, orb_false_r.
Qed.
Lemma neg_par (x : E2) : A0 (E2_Neg x) <> fp0 -> Z.odd (fval (A0 (E2_Neg x))) = negb (Z.odd (fval (A0 x))).
Proof.
  Local Transparent E2_Neg. unfold E2_Neg. cbn [A0]. Local Opaque E2_Neg. generalize (A0 x). clear. intros a Ha.
  assert (F : fval (fopp a) <> 0) by (intros E; apply Ha, fval_inj; rewrite E; reflexivity).
  assert (V : fval (fopp a) = pBLS - fval a).
  { assert (R : 0 <= fval a < pBLS) by (apply fval_range; reflexivity). revert F. unfold fopp. rewrite fval_ofZ. intros F.
    destruct (Z.eq_dec (fval a) 0) as [E|E]; [rewrite E in F; exfalso; apply F; reflexivity|].
    rewrite <- (Z.mod_add _ 1) by discriminate. rewrite Z.mul_1_l. rewrite Z.mod_small by (generalize dependent pBLS; intros; lia). generalize dependent pBLS; intros; lia. }
  rewrite V, Z.odd_sub. change (Z.odd pBLS) with true. now destruct (Z.odd (fval a)).
Qed.
(** the honest point is the SSWU point up to sign, and its sign is fixed by the
    parities of the real parts alone *)
Theorem map_parity u : u <> E2_Zero -> exists x y, run (MapElementToCurve2 u) = Some (mkG2 x y) /\ sswu_xy u x y /\
  (A0 y <> fp0 -> Z.odd (fval (A0 y)) = Z.odd (fval (A0 u))).
Proof.
  intros N. destruct (sqrt_honest (gn u) (gd u) (gn_neq0 u N) (gd_neq0 u N)) as (z & b & R & C).
  exists (E2_div (mX u b) (mm u)), (negif (xorb (Z.odd (fval (A0 u))) (Z.odd (fval (A0 (mY u b z))))) (mY u b z)).
  split; [apply run_map; [now apply mm_neq0 | exact R]|].
  assert (S : forall k, sswu_xy u (E2_div (mX u b) (mm u)) (negif k (mY u b z))).
  { intros k. exists (x1 u), (E2_Mul (mt u) (x1 u)). split; [now apply x1_spec|]. split; [unfold sswu_x2, mt; ring|]. rewrite (mX_div u b N), negif_sq.
    assert (E : E2_Mul (mY u b z) (mY u b z) = iso_g (if b then E2_Mul (mt u) (x1 u) else x1 u)).
    { rewrite (mY_sq u b z E2_One N); [rewrite (mX_div u b N); ring|]. destruct C as [(-> & _ & E)|(-> & _ & E)]; cbn [zif]; rewrite E; ring. }
    rewrite <- (ratio_iso u N). destruct C as [(-> & Q & _)|(-> & Q & _)].
    - split; [intros _; reflexivity|]. split; [intros Q'; exact (False_ind _ (Q' Q)) | exact E].
    - split; [intros Q'; exact (False_ind _ (Q Q'))|]. split; [intros _; reflexivity | exact E]. }
  split; [apply S|]. intros Hy. set (Y := mY u b z) in *. clearbody Y. clear S.
  destruct (Z.odd (fval (A0 u))) eqn:Eu, (Z.odd (fval (A0 Y))) eqn:Ey; cbn [xorb negif] in *.
  - exact Ey.
  - rewrite (neg_par _ Hy), Ey. reflexivity.
  - rewrite (neg_par _ Hy), Ey. reflexivity.
  - exact Ey.
Qed.
Theorem map_honest u : u <> E2_Zero -> exists x y, run (MapElementToCurve2 u) = Some (mkG2 x y) /\ sswu_xy u x y /\
  (A0 u <> fp0 -> A0 y <> fp0 -> sswu u x y).
Proof.
  intros N. destruct (map_parity u N) as (x & y & R & S & P). exists x, y. split; [exact R|]. split; [exact S|].
  intros Hu Hy. split; [exact S|]. rewrite (sgn_par u Hu), (sgn_par y Hy). symmetry. exact (P Hy).
Qed.
Lemma sswu_on u x y : sswu_xy u x y -> isoon (Aff x y).
Proof. intros (a & b & _ & _ & _ & _ & E). exact E. Qed.
(** ** any prover *)
Theorem map_any u x y : sat (MapElementToCurve2 u) (mkG2 x y) ->
  u <> E2_Zero /\ exists a b t, sswu_x1 u a /\ sswu_x2 u a b /\ (x = a \/ x = b) /\ e2pow t 8 = E2_One /\ E2_Mul y y = E2_Mul (iso_g x) t.
Proof.
  intros S. apply sat_map in S. destruct S as (z & b & s & s' & Hs & _ & _ & Nm & E). injection E as -> ->.
  assert (N : u <> E2_Zero). { intros ->. exact (Nm mm_0). } split; [exact N|].
  destruct (sqrt_any _ _ _ _ (gn_neq0 u N) (gd_neq0 u N) Hs) as (b' & t & F & Ht & E & _).
  assert (b' = b) as -> by (destruct b, b'; reflexivity || discriminate F).
  exists (x1 u), (E2_Mul (mt u) (x1 u)), t. split; [now apply x1_spec|]. split; [unfold sswu_x2, mt; ring|]. split; [rewrite (mX_div u b N); destruct b; [now right | now left]|]. split; [exact Ht|].
  rewrite negif_sq. now apply mY_sq.
Qed.
Theorem map_unsat0 : unsat (MapElementToCurve2 E2_Zero).
Proof. intros r S. apply sat_map in S. destruct S as (z & b & s & s' & _ & _ & _ & Nm & _). exact (Nm mm_0). Qed.
Theorem map_satisfiable u : satisfiable (MapElementToCurve2 u) <-> u <> E2_Zero.
Proof.
  split; [intros (r & S) ->; exact (map_unsat0 r S)|]. intros N. destruct (map_honest u N) as (x & y & R & _). exists (mkG2 x y). now apply run_sat.
Qed.
(** a prover leaves the curve whenever g(x1) is a square *)
Theorem map_cheat u : u <> E2_Zero -> is_square (iso_g (x1 u)) -> exists x y, sat (MapElementToCurve2 u) (mkG2 x y) /\ ~ isoon (Aff x y).
Proof.
  intros N Q. set (z := sr3c (gn u) (gd u) true true true).
  assert (Hz : sat (g2SqrtRatio (gn u) (gd u)) (z, bF true)) by (apply sat_sqrt; exists true, true, true; split; [discriminate|]; split; [discriminate|]; split; [discriminate | reflexivity]).
  exists (E2_div (mX u true) (mm u)), (negif (xorb (Z.odd (fval (A0 u))) (Z.odd (fval (A0 (mY u true z))))) (mY u true z)). split.
  - apply sat_map. exists z, true, (Z.odd (fval (A0 u))), (Z.odd (fval (A0 (mY u true z)))). split; [exact Hz|]. split; [apply sat_sgn0; now left|]. split; [apply sat_sgn0; now left|]. split; [now apply mm_neq0 | reflexivity].
  - intros O. change (E2_Mul (negif (xorb (Z.odd (fval (A0 u))) (Z.odd (fval (A0 (mY u true z))))) (mY u true z)) (negif (xorb (Z.odd (fval (A0 u))) (Z.odd (fval (A0 (mY u true z))))) (mY u true z)) = iso_g (E2_div (mX u true) (mm u))) in O.
    rewrite negif_sq, (mX_div u true N), (sswu_ident u N) in O.
    assert (S : is_square (E2_Mul (E2_Mul (E2_Mul (mt u) (mt u)) (mt u)) (iso_g (x1 u)))) by (eexists; exact O).
    assert (R : E2_Mul (E2_Mul (E2_Mul (mt u) (mt u)) (mt u)) (iso_g (x1 u)) = E2_Mul (E2_Mul (iso_g (x1 u)) (E2_Mul (E2_Mul (mt u) u) (E2_Mul (mt u) u))) isoZ) by (unfold mt; ring).
    rewrite R in S. apply isoZ_nonsquare. revert S. apply square_inv.
    + assert (U : E2_Mul (mt u) u <> E2_Zero). { apply E2_mul_neq0; [|exact N]. unfold mt. apply E2_mul_neq0; [now apply E2_mul_neq0 | exact isoZ_neq0]. }
      apply E2_mul_neq0; [apply iso_no_root | now apply E2_mul_neq0].
    + apply square_mul; [exact Q | eexists; reflexivity].
Qed.
