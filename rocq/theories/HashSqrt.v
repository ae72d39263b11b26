(** g2SqrtRatio (C28): the exact set of accepted outputs, and the honest one. *)
From Coq Require Import ZArith NArith List Bool Lia.
From Verif Require Import Params ZMod RingPow Circuit Api Emulated ApiFacts FieldFacts Tower TowerFacts TowerProofs FastTower Pairing G2 HashG2 G2Spec G2Pred HashSgn.
Import ListNotations.
Open Scope Z_scope.
Add Field E2FQ : E2_ft.

(** ** the constants *)
Lemma montRinv_ok : zmod pBLS (montRinv * 2 ^ 384) = 1. Proof. vm_compute. reflexivity. Qed.
Notation c6 := sqrtTv1.
Notation c7 := sqrtC7.
Lemma c6_4 : e2pow c6 4 = E2_Neg E2_One.
Proof. unfold sqrtTv1, fpMont, E2_Neg, E2_One. cbn [A0 A1]. fast_e2. Qed.
Lemma c7_2 : E2_Mul c7 c7 = E2_Mul isoZ c6.
Proof. unfold sqrtC7, sqrtTv1, fpMont, isoZ. fast_e2. Qed.
Lemma c6_8 : e2pow c6 8 = E2_One.
Proof. unfold sqrtTv1, fpMont. fast_e2. Qed.
Definition sqrtT : N := (2 * Z.to_N sqrtC3 + 1)%N.
Lemma sqrtT_8 : (pN * pN - 1 = 8 * sqrtT)%N.
Proof. vm_compute. reflexivity. Qed.
Lemma neg1_neq1 : E2_Neg E2_One <> E2_One.
Proof. unfold E2_Neg, E2_One. cbn [A0 A1]. fast_e2. Qed.

Local Opaque E2_Mul E2_Add E2_Sub E2_Neg E2_Square sqrtTv1 sqrtC7 sqrtC3 E2NotOne E2Exp E2_Select E2_One E2_Zero.

(** ** the computation, with the three answers of E2NotOne as parameters *)
Definition sr_w u v : E2 := E2_Mul (e2pow (E2_Mul u (E2_Mul (E2_Mul (e2pow v 7) (e2pow v 7)) v)) (Z.to_N sqrtC3)) (e2pow v 7).
Definition sr3 u v : E2 := E2_Mul (sr_w u v) u.
Definition sr4 u v : E2 := E2_Mul (sr3 u v) (E2_Mul (sr_w u v) v).
Definition mulif (b : bool) (x c : E2) : E2 := if b then E2_Mul x c else x.
Definition sr3a u v b0 := mulif b0 (sr3 u v) c7.
Definition sr4a u v b0 := mulif b0 (sr4 u v) c6.
Definition sr3b u v b0 b1 := mulif b1 (sr3a u v b0) c6.
Definition sr4b u v b0 b1 := mulif b1 (sr4a u v b0) (E2_Mul c6 c6).
Definition sr3c u v b0 b1 b2 := mulif b2 (sr3b u v b0 b1) (E2_Mul c6 c6).
Definition sr4c u v b0 b1 b2 := mulif b2 (sr4b u v b0 b1) (E2_Mul (E2_Mul c6 c6) (E2_Mul c6 c6)).

(** A step of the circuit whose only free answer is a bit. *)
Lemma sat_exp_bind {B} x k (f : E2 -> Circ B) b : 0 <= k -> (sat (bind (E2Exp x k) f) b <-> sat (f (e2pow x (Z.to_N k))) b).
Proof.
  intros H. rewrite sat_bind. destruct (exp_nonneg x k H) as [R U]. split.
  - intros (a & Ha & Hb). apply U in Ha. subst a. exact Hb.
  - intros Hb. exists (e2pow x (Z.to_N k)). split; [now apply run_sat | exact Hb].
Qed.
Lemma run_exp_bind {B} x k (f : E2 -> Circ B) : 0 <= k -> run (bind (E2Exp x k) f) = run (f (e2pow x (Z.to_N k))).
Proof. intros H. rewrite run_bind, (proj1 (exp_nonneg x k H)). reflexivity. Qed.
Lemma sat_one_bind {B} x (f : Fr -> Circ B) b : sat (bind (E2NotOne x) f) b <-> exists t, (t = false -> x = E2_One) /\ sat (f (bF t)) b.
Proof.
  rewrite sat_bind. split.
  - intros (a & Ha & Hb). apply sat_E2NotOne in Ha. destruct Ha as [->|[E ->]]; [exists true | exists false]; split; [discriminate | exact Hb | intros _; exact E | exact Hb].
  - intros (t & Ht & Hb). exists (bF t). split; [|exact Hb]. apply sat_E2NotOne. destruct t; [left; reflexivity | right; split; [apply Ht; reflexivity | reflexivity]].
Qed.
Lemma run_one_bind {B} x (f : Fr -> Circ B) : run (bind (E2NotOne x) f) = run (f (bF (negb (E2_eqb x E2_One)))).
Proof. rewrite run_bind, run_E2NotOne. reflexivity. Qed.
Lemma sat_sel_bind {B} t x y (f : E2 -> Circ B) b : sat (bind (E2_Select (bF t) x y) f) b <-> sat (f (if t then x else y)) b.
Proof.
  rewrite sat_bind. destruct (determ_E2_Select t x y) as [R U]. split.
  - intros (a & Ha & Hb). apply U in Ha. subst a. exact Hb.
  - intros Hb. exists (if t then x else y). split; [now apply run_sat | exact Hb].
Qed.
Lemma run_sel_bind {B} t x y (f : E2 -> Circ B) : run (bind (E2_Select (bF t) x y) f) = run (f (if t then x else y)).
Proof. rewrite run_bind, (proj1 (determ_E2_Select t x y)). reflexivity. Qed.

Lemma sat_step_bind {B} t1 t3 t4 e i (f : E2 * E2 * E2 * Z -> Circ B) b : 0 <= e ->
  (sat (bind (sqrtStep (t1, t3, t4, e) i) f) b <->
   exists t, (t = false -> e2pow t4 (Z.to_N e) = E2_One) /\
     sat (f (E2_Mul t1 t1, mulif t t3 t1, mulif t t4 (E2_Mul t1 t1), if Nat.ltb 2 i then Z.shiftr e 1 else e)) b).
Proof.
  intros He. unfold sqrtStep. rewrite sat_bind. split.
  - intros (a & Ha & Hb). apply (proj1 (sat_exp_bind _ _ _ _ He)) in Ha. apply (proj1 (sat_one_bind _ _ _)) in Ha. destruct Ha as (t & Ht & Ha).
    apply (proj1 (sat_sel_bind _ _ _ _ _)) in Ha. apply (proj1 (sat_sel_bind _ _ _ _ _)) in Ha. cbn [sat] in Ha. subst a. exists t. split; [exact Ht | exact Hb].
  - intros (t & Ht & Hb). eexists. split; [|exact Hb]. apply (proj2 (sat_exp_bind _ _ _ _ He)). apply (proj2 (sat_one_bind _ _ _)). exists t. split; [exact Ht|].
    apply (proj2 (sat_sel_bind _ _ _ _ _)). apply (proj2 (sat_sel_bind _ _ _ _ _)). cbn [sat]. reflexivity.
Qed.
Lemma run_step_bind {B} t1 t3 t4 e i (f : E2 * E2 * E2 * Z -> Circ B) : 0 <= e ->
  run (bind (sqrtStep (t1, t3, t4, e) i) f) =
  let t := negb (E2_eqb (e2pow t4 (Z.to_N e)) E2_One) in
  run (f (E2_Mul t1 t1, mulif t t3 t1, mulif t t4 (E2_Mul t1 t1), if Nat.ltb 2 i then Z.shiftr e 1 else e)).
Proof.
  intros He. unfold sqrtStep. rewrite run_bind, (run_exp_bind _ _ _ He), run_one_bind, run_sel_bind, run_sel_bind. reflexivity.
Qed.

Lemma sqrtC3_nonneg : 0 <= sqrtC3. Proof. discriminate. Qed.
(** every accepted output *)
Lemma sat_sqrt u v r : sat (g2SqrtRatio u v) r <->
  exists b0 b1 b2, (b0 = false -> e2pow (sr4 u v) 4 = E2_One) /\ (b1 = false -> e2pow (sr4a u v b0) 2 = E2_One) /\ (b2 = false -> sr4b u v b0 b1 = E2_One) /\
    r = (sr3c u v b0 b1 b2, bF b0).
Proof.
  unfold g2SqrtRatio. rewrite (sat_exp_bind v 7) by lia. cbv zeta. rewrite E2_Square_eq. change (Z.to_N 7) with 7%N. rewrite (sat_exp_bind _ _ _ _ sqrtC3_nonneg). fold (sr_w u v). fold (sr3 u v). fold (sr4 u v).
  rewrite (sat_exp_bind _ 4) by lia. change (Z.to_N 4) with 4%N. rewrite sat_one_bind. change (Z.shiftl 1 (3 - 2)) with 2. split.
  - intros (b0 & H0 & H). apply (proj1 (sat_sel_bind _ _ _ _ _)) in H. apply (proj1 (sat_sel_bind _ _ _ _ _)) in H. fold (mulif b0 (sr3 u v) c7) in H. fold (mulif b0 (sr4 u v) c6) in H. fold (sr3a u v b0) in H. fold (sr4a u v b0) in H.
    apply sat_bind in H. destruct H as (q & Hq & H). cbn [mfold] in Hq.
    apply sat_step_bind in Hq; [|lia]. destruct Hq as (b1 & H1 & Hq). change (Nat.ltb 2 3) with true in Hq. cbv iota in Hq. change (Z.shiftr 2 1) with 1 in Hq.
    apply sat_step_bind in Hq; [|lia]. destruct Hq as (b2 & H2 & Hq). cbn [sat] in Hq. subst q. cbn [sat] in H.
    exists b0, b1, b2. split; [exact H0|]. split; [exact H1|]. split; [exact H2 | symmetry; exact H].
  - intros (b0 & b1 & b2 & H0 & H1 & H2 & ->). exists b0. split; [exact H0|]. apply (proj2 (sat_sel_bind _ _ _ _ _)). apply (proj2 (sat_sel_bind _ _ _ _ _)).
    apply sat_bind. exists (E2_Mul (E2_Mul c6 c6) (E2_Mul c6 c6), sr3c u v b0 b1 b2, sr4c u v b0 b1 b2, 1). split; [|reflexivity]. cbn [mfold].
    apply sat_step_bind; [lia|]. exists b1. split; [exact H1|]. change (Nat.ltb 2 3) with true. cbv iota. change (Z.shiftr 2 1) with 1.
    apply sat_step_bind; [lia|]. exists b2. split; [exact H2 | reflexivity].
Qed.
Definition hb0 u v := negb (E2_eqb (e2pow (sr4 u v) 4) E2_One).
Definition hb1 u v := negb (E2_eqb (e2pow (sr4a u v (hb0 u v)) 2) E2_One).
Definition hb2 u v := negb (E2_eqb (sr4b u v (hb0 u v) (hb1 u v)) E2_One).
Lemma run_sqrt u v : run (g2SqrtRatio u v) = Some (sr3c u v (hb0 u v) (hb1 u v) (hb2 u v), bF (hb0 u v)).
Proof.
  unfold g2SqrtRatio. rewrite (run_exp_bind v 7) by lia. cbv zeta. rewrite E2_Square_eq. change (Z.to_N 7) with 7%N. rewrite (run_exp_bind _ _ _ sqrtC3_nonneg). fold (sr_w u v). fold (sr3 u v). fold (sr4 u v).
  rewrite (run_exp_bind _ 4) by lia. change (Z.to_N 4) with 4%N. rewrite run_one_bind. fold (hb0 u v). change (Z.shiftl 1 (3 - 2)) with 2. rewrite run_sel_bind, run_sel_bind.
  fold (mulif (hb0 u v) (sr3 u v) c7). fold (mulif (hb0 u v) (sr4 u v) c6). fold (sr3a u v (hb0 u v)). fold (sr4a u v (hb0 u v)).
  rewrite run_bind. cbn [mfold]. rewrite run_step_bind by lia. cbv zeta. change (Nat.ltb 2 3) with true. cbv iota. change (Z.shiftr 2 1) with 1. change (Z.to_N 2) with 2%N. fold (hb1 u v).
  rewrite run_step_bind by lia. cbv zeta. change (Z.to_N 1) with 1%N. rewrite npow_1. fold (sr4b u v (hb0 u v) (hb1 u v)). fold (hb2 u v). reflexivity.
Qed.

(** ** algebra *)
(** z^2 v = u' t, where u' is u or Zu and t is the fourth register *)
Definition zif (b : bool) (u : E2) : E2 := if b then E2_Mul isoZ u else u.
Lemma inv0 u v : E2_Mul (E2_Mul (sr3 u v) (sr3 u v)) v = E2_Mul u (sr4 u v).
Proof. unfold sr4, sr3. ring. Qed.
Lemma inv1 u v b0 : E2_Mul (E2_Mul (sr3a u v b0) (sr3a u v b0)) v = E2_Mul (zif b0 u) (sr4a u v b0).
Proof.
  pose proof (inv0 u v) as H. unfold sr3a, sr4a, zif, mulif. destruct b0; [|exact H].
  transitivity (E2_Mul (E2_Mul (E2_Mul (sr3 u v) (sr3 u v)) v) (E2_Mul c7 c7)); [ring|]. rewrite H, c7_2. ring.
Qed.
Lemma inv2 u v b0 b1 : E2_Mul (E2_Mul (sr3b u v b0 b1) (sr3b u v b0 b1)) v = E2_Mul (zif b0 u) (sr4b u v b0 b1).
Proof.
  pose proof (inv1 u v b0) as H. unfold sr3b, sr4b. destruct b1; cbn [mulif]; [|exact H].
  transitivity (E2_Mul (E2_Mul (E2_Mul (sr3a u v b0) (sr3a u v b0)) v) (E2_Mul c6 c6)); [ring|]. rewrite H. ring.
Qed.
Lemma inv3 u v b0 b1 b2 : E2_Mul (E2_Mul (sr3c u v b0 b1 b2) (sr3c u v b0 b1 b2)) v = E2_Mul (zif b0 u) (sr4c u v b0 b1 b2).
Proof.
  pose proof (inv2 u v b0 b1) as H. unfold sr3c, sr4c. destruct b2; cbn [mulif]; [|exact H].
  transitivity (E2_Mul (E2_Mul (E2_Mul (sr3b u v b0 b1) (sr3b u v b0 b1)) v) (E2_Mul (E2_Mul c6 c6) (E2_Mul c6 c6))); [ring|]. rewrite H. ring.
Qed.
Lemma sr4_pow u v : sr4 u v = e2pow (E2_Mul u (e2pow v 15)) sqrtT.
Proof.
  assert (A : E2_Mul (E2_Mul (e2pow v 7) (e2pow v 7)) v = e2pow v 15).
  { rewrite <- npow_addE2. transitivity (E2_Mul (e2pow v (7 + 7)) (e2pow v 1)); [rewrite npow_1; reflexivity|]. rewrite <- npow_addE2. reflexivity. }
  assert (B : e2pow v 15 = E2_Mul (E2_Mul (e2pow v 7) (e2pow v 7)) v) by (symmetry; exact A).
  unfold sr4, sr3, sr_w. rewrite A. set (g := E2_Mul u (e2pow v 15)) in *. unfold sqrtT. rewrite npow_addE2, npow_1. replace (2 * Z.to_N sqrtC3)%N with (Z.to_N sqrtC3 + Z.to_N sqrtC3)%N by lia. rewrite npow_addE2.
  set (h := e2pow g (Z.to_N sqrtC3)). assert (G : g = E2_Mul u (E2_Mul (E2_Mul (e2pow v 7) (e2pow v 7)) v)) by (unfold g; rewrite B; reflexivity). clearbody h. rewrite G. ring.
Qed.
Lemma E2_mul_neq0 x y : x <> E2_Zero -> y <> E2_Zero -> E2_Mul x y <> E2_Zero.
Proof. intros Hx Hy H. apply E2_integral in H. destruct H as [H|H]; contradiction. Qed.
Lemma e2pow_neq0 x n : x <> E2_Zero -> e2pow x n <> E2_Zero.
Proof.
  intros Hx. induction n as [|n IH] using N.peano_ind; [exact E2_1_neq_0|]. rewrite (npow_succ _ _ _ _ _ _ E2_rt). now apply E2_mul_neq0.
Qed.
Lemma sr4_8 u v : u <> E2_Zero -> v <> E2_Zero -> e2pow (sr4 u v) 8 = E2_One.
Proof.
  intros Hu Hv. rewrite sr4_pow, <- npow_mulE2, N.mul_comm, <- sqrtT_8. apply e2pow_order. apply E2_mul_neq0; [exact Hu | now apply e2pow_neq0].
Qed.
Lemma sq_pm x : E2_Mul x x = E2_One -> x = E2_One \/ x = E2_Neg E2_One.
Proof.
  intros H. assert (Z : E2_Mul (E2_Sub x E2_One) (E2_Add x E2_One) = E2_Zero). { transitivity (E2_Sub (E2_Mul x x) E2_One); [ring|]. rewrite H. ring. }
  apply E2_integral in Z. destruct Z as [Z|Z]; [left | right].
  - transitivity (E2_Add (E2_Sub x E2_One) E2_One); [ring|]. rewrite Z. ring.
  - transitivity (E2_Sub (E2_Add x E2_One) E2_One); [ring|]. rewrite Z. ring.
Qed.
Lemma pow_dbl x n : e2pow x (2 * n) = E2_Mul (e2pow x n) (e2pow x n).
Proof. rewrite <- npow_addE2. replace (2 * n)%N with (n + n)%N by lia. reflexivity. Qed.
Lemma c6_sq2 : E2_Mul (E2_Mul c6 c6) (E2_Mul c6 c6) = E2_Neg E2_One.
Proof. rewrite <- c6_4. change 4%N with (2 * 2)%N. rewrite pow_dbl, npow_2. reflexivity. Qed.
Lemma eqb_false x y : negb (E2_eqb x y) = false <-> x = y.
Proof. rewrite negb_false_iff. apply E2_eqb_eq. Qed.
Lemma eqb_true x y : negb (E2_eqb x y) = true <-> x <> y.
Proof. rewrite negb_true_iff, <- not_true_iff_false, E2_eqb_eq. reflexivity. Qed.

(** the honest fourth register ends at 1 *)
Lemma honest4a u v : u <> E2_Zero -> v <> E2_Zero -> e2pow (sr4a u v (hb0 u v)) 4 = E2_One.
Proof.
  intros Hu Hv. pose proof (sr4_8 u v Hu Hv) as H8. change 8%N with (2 * 4)%N in H8. rewrite pow_dbl in H8. apply sq_pm in H8.
  unfold sr4a. destruct (hb0 u v) eqn:E; unfold hb0 in E; cbn [mulif].
  - apply eqb_true in E. destruct H8 as [H8|H8]; [contradiction|]. rewrite npow_mulbE2, H8, c6_4. ring.
  - apply eqb_false in E. exact E.
Qed.
Lemma honest4b u v : u <> E2_Zero -> v <> E2_Zero -> e2pow (sr4b u v (hb0 u v) (hb1 u v)) 2 = E2_One.
Proof.
  intros Hu Hv. pose proof (honest4a u v Hu Hv) as H4. change 4%N with (2 * 2)%N in H4. rewrite pow_dbl in H4. apply sq_pm in H4.
  unfold sr4b. destruct (hb1 u v) eqn:E; unfold hb1 in E; cbn [mulif].
  - apply eqb_true in E. destruct H4 as [H4|H4]; [contradiction|]. rewrite npow_mulbE2, H4, npow_2, c6_sq2. ring.
  - apply eqb_false in E. exact E.
Qed.
Lemma honest4c u v : u <> E2_Zero -> v <> E2_Zero -> sr4c u v (hb0 u v) (hb1 u v) (hb2 u v) = E2_One.
Proof.
  intros Hu Hv. pose proof (honest4b u v Hu Hv) as H2. rewrite npow_2 in H2. apply sq_pm in H2.
  unfold sr4c. destruct (hb2 u v) eqn:E; unfold hb2 in E; cbn [mulif].
  - apply eqb_true in E. destruct H2 as [H2|H2]; [contradiction|]. rewrite H2, c6_sq2. ring.
  - apply eqb_false in E. exact E.
Qed.
(** u/v is a square iff the first answer is 0 *)
Definition ratio_square (u v : E2) : Prop := exists s, E2_Mul (E2_Mul s s) v = u.
Lemma qr_pow u v : u <> E2_Zero -> v <> E2_Zero -> ratio_square u v -> e2pow (sr4 u v) 4 = E2_One.
Proof.
  intros Hu Hv (s & Hs). assert (E : E2_Mul u (e2pow v 15) = e2pow (E2_Mul s (e2pow v 8)) 2).
  { rewrite npow_2, <- Hs. transitivity (E2_Mul (E2_Mul s s) (E2_Mul (e2pow v 1) (e2pow v 15))); [rewrite npow_1; ring|]. rewrite <- npow_addE2. change (1 + 15)%N with (8 + 8)%N. rewrite npow_addE2. ring. }
  rewrite sr4_pow, E, <- npow_mulE2, <- npow_mulE2. assert (Q : (2 * (sqrtT * 4) = pN * pN - 1)%N) by (rewrite sqrtT_8; lia). rewrite Q. apply e2pow_order.
  apply E2_mul_neq0; [|now apply e2pow_neq0]. intros ->. apply Hu. rewrite <- Hs. ring.
Qed.
Theorem sqrt_honest u v : u <> E2_Zero -> v <> E2_Zero -> exists z b, run (g2SqrtRatio u v) = Some (z, bF b) /\
  ((b = false /\ ratio_square u v /\ E2_Mul (E2_Mul z z) v = u) \/ (b = true /\ ~ ratio_square u v /\ E2_Mul (E2_Mul z z) v = E2_Mul isoZ u)).
Proof.
  intros Hu Hv. exists (sr3c u v (hb0 u v) (hb1 u v) (hb2 u v)), (hb0 u v). split; [apply run_sqrt|].
  pose proof (inv3 u v (hb0 u v) (hb1 u v) (hb2 u v)) as I. rewrite (honest4c u v Hu Hv) in I.
  set (z := sr3c u v (hb0 u v) (hb1 u v) (hb2 u v)) in *. clearbody z.
  destruct (hb0 u v) eqn:E; cbn [zif] in I.
  - right. split; [reflexivity|]. split; [|rewrite I; ring]. intros S. unfold hb0 in E. apply eqb_true in E. apply E. now apply qr_pow.
  - left. split; [reflexivity|]. assert (I' : E2_Mul (E2_Mul z z) v = u) by (rewrite I; ring). split; [now exists z | exact I'].
Qed.
(** with u = 0 the flag says "not a square" *)
Theorem sqrt_zero v : run (g2SqrtRatio E2_Zero v) = Some (E2_Zero, bF true).
Proof.
  assert (Z4 : sr4 E2_Zero v = E2_Zero) by (unfold sr4, sr3; ring). assert (Z3 : sr3 E2_Zero v = E2_Zero) by (unfold sr3; ring).
  assert (B0 : hb0 E2_Zero v = true). { unfold hb0. rewrite Z4. apply eqb_true. rewrite (npow_0l _ _ _ _ _ _ E2_rt) by discriminate. intros E. symmetry in E. exact (E2_1_neq_0 E). }
  rewrite run_sqrt, B0. unfold sr3c, sr3b, sr3a. rewrite Z3.
  assert (M : forall b c, mulif b E2_Zero c = E2_Zero) by (intros [] c; cbn [mulif]; [ring | reflexivity]). rewrite !M. reflexivity.
Qed.

(** what any accepted output satisfies *)
Theorem sqrt_any u v z f : u <> E2_Zero -> v <> E2_Zero -> sat (g2SqrtRatio u v) (z, f) ->
  exists b t, f = bF b /\ e2pow t 8 = E2_One /\ E2_Mul (E2_Mul z z) v = E2_Mul (zif b u) t /\ (b = false -> ratio_square u v).
Proof.
  intros Hu Hv S. apply sat_sqrt in S. destruct S as (b0 & b1 & b2 & H0 & H1 & H2 & E). injection E as -> ->.
  exists b0, (sr4c u v b0 b1 b2). split; [reflexivity|]. split; [|split; [apply inv3|]].
  - assert (M : forall b x c, e2pow x 8 = E2_One -> e2pow c 8 = E2_One -> e2pow (mulif b x c) 8 = E2_One).
    { intros [] x c Hx Hc; cbn [mulif]; [rewrite npow_mulbE2, Hx, Hc; ring | exact Hx]. }
    assert (C2 : e2pow (E2_Mul c6 c6) 8 = E2_One) by (rewrite npow_mulbE2, c6_8; ring).
    apply M; [apply M; [apply M; [now apply sr4_8 | exact c6_8] | exact C2]|]. rewrite npow_mulbE2, C2. ring.
  - intros ->. specialize (H0 eq_refl).
    (* the honest run has the same first answer *)
    destruct (sqrt_honest u v Hu Hv) as (z & b & R & [(-> & Q & _)|(-> & _ & _)]); [exact Q|].
    exfalso. rewrite run_sqrt in R. injection R as _ R. assert (hb0 u v = false) as F by (unfold hb0; apply eqb_false; exact H0). rewrite F in R. discriminate R.
Qed.
(** a prover can claim that a square is not one, or change the root *)
Lemma one_run0 : sr4 E2_One E2_One = E2_One.
Proof. rewrite sr4_pow. assert (E : E2_Mul E2_One (e2pow E2_One 15) = E2_One) by (rewrite (npow_1l _ _ _ _ _ _ E2_rt 15); ring). rewrite E. apply (npow_1l _ _ _ _ _ _ E2_rt). Qed.
Theorem sqrt_cheat : exists z, sat (g2SqrtRatio E2_One E2_One) (z, bF false) /\ E2_Mul (E2_Mul z z) E2_One = E2_Neg E2_One.
Proof.
  exists (sr3c E2_One E2_One false false true). split.
  - apply sat_sqrt. exists false, false, true. unfold sr4a, sr4b. cbn [mulif]. rewrite one_run0, !(npow_1l _ _ _ _ _ _ E2_rt). split; [intros _; reflexivity|]. split; [intros _; reflexivity|]. split; [discriminate | reflexivity].
  - rewrite inv3. unfold sr4c, sr4b, sr4a. cbn [mulif zif]. rewrite one_run0, c6_sq2. ring.
Qed.
