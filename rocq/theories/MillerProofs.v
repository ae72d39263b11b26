(** Proofs about the step functions and the multi-pair Miller loop (C33, C34). *)
From Coq Require Import ZArith List Bool Lia Ring Field Permutation.
From Verif Require Import Params ZMod RingPow Circuit Api Emulated Tower TowerSpec FieldFacts TowerFacts ApiFacts TowerProofs CurveSpec PrecompTable Pairing.
Import ListNotations.
Open Scope Z_scope.

Notation add2 := (ec_add E2 E2_Zero E2_One E2_Add E2_Mul E2_Sub E2_Neg).
Notation meets2 := (meets E2 E2_Zero E2_Add E2_Mul E2_Sub).
Notation online2 := (on_line E2 E2_Zero E2_Add E2_Mul).
Notation oncurve2 := (on_curve E2 E2_Add E2_Mul).
Definition aff (p : G2Affine) : point E2 := Aff (g2X p) (g2Y p).

Lemma third_eq l x1 y1 x2 X Y :
  X = E2_Sub (E2_Sub (E2_Mul l l) x1) x2 -> Y = E2_Sub (E2_Mul l (E2_Sub x1 X)) y1 ->
  third E2 E2_Mul E2_Sub l x1 y1 x2 = Aff X Y.
Proof. intros -> ->. reflexivity. Qed.

Lemma three_e2 : e2_of (fpZ 3) = E2_Add (E2_Add E2_One E2_One) E2_One.
Proof. apply E2_ext; unfold e2_of, E2_One, E2_Add; cbn [A0 A1]; unfold fpZ, fp1, fp0; ring. Qed.
Ltac e2n := rewrite ?E2_Square_eq, ?E2_Double_eq, ?E2_MulByConstElement_eq, ?three_e2 in *.

Lemma double_law x y l X Y :
  E2_Mul l (E2_Add y y) = E2_Mul (E2_Mul x x) (E2_Add (E2_Add E2_One E2_One) E2_One) ->
  E2_Add y y <> E2_Zero ->
  X = E2_Sub (E2_Sub (E2_Mul l l) x) x -> Y = E2_Sub (E2_Mul l (E2_Sub x X)) y ->
  add2 E2_Zero (Aff x y) (Aff x y) (Aff X Y).
Proof.
  intros H N HX HY. rewrite <- (third_eq l x y x X Y HX HY).
  apply add_tangent; [exact N|]. rewrite H. ring.
Qed.

Lemma chord_law x1 y1 x2 y2 l X Y :
  x1 <> x2 -> E2_Mul l (E2_Sub x2 x1) = E2_Sub y2 y1 ->
  X = E2_Sub (E2_Sub (E2_Mul l l) x1) x2 -> Y = E2_Sub (E2_Mul l (E2_Sub x1 X)) y1 ->
  add2 E2_Zero (Aff x1 y1) (Aff x2 y2) (Aff X Y).
Proof.
  intros N H HX HY. rewrite <- (third_eq l x1 y1 x2 X Y HX HY). now apply add_chord.
Qed.

(** the line with slope l through (x1,y1) *)
Definition lineOf (l x1 y1 : E2) : lineEvaluation := mkLine (E2_Neg l) (E2_Sub (E2_Mul l x1) y1).
Notation cuts b l := (meets2 E2_Zero b (R0 l) (R1 l)).

Lemma E2_sub_neq x y : x <> y -> E2_Sub x y <> E2_Zero.
Proof. intros H E. apply H. replace x with (E2_Add (E2_Sub x y) y) by ring. rewrite E. ring. Qed.

Lemma E2_cancel a x y : a <> E2_Zero -> E2_Mul a x = E2_Mul a y -> x = y.
Proof.
  intros N H. assert (Z : E2_Mul a (E2_Sub x y) = E2_Zero).
  { replace (E2_Mul a (E2_Sub x y)) with (E2_Sub (E2_Mul a x) (E2_Mul a y)) by ring. rewrite H. ring. }
  apply E2_integral in Z. destruct Z as [Z|Z]; [tauto|].
  replace x with (E2_Add (E2_Sub x y) y) by ring. rewrite Z. ring.
Qed.

Lemma tangent_cuts b x y l :
  E2_Mul l (E2_Add y y) = E2_Mul (E2_Mul x x) (E2_Add (E2_Add E2_One E2_One) E2_One) ->
  oncurve2 E2_Zero b (Aff x y) ->
  cuts b (lineOf l x y) x x (E2_Sub (E2_Sub (E2_Mul l l) x) x).
Proof.
  intros H C X Y L. cbn [on_curve] in C. unfold on_line in L. cbn [lineOf R0 R1] in L.
  assert (EY : Y = E2_Add (E2_Mul l (E2_Sub X x)) y).
  { replace Y with (E2_Sub (E2_Add (E2_Add Y (E2_Mul (E2_Neg l) X)) (E2_Sub (E2_Mul l x) y))
                     (E2_Add (E2_Mul (E2_Neg l) X) (E2_Sub (E2_Mul l x) y))) by ring.
    rewrite L. ring. }
  subst Y.
  assert (Eb : b = E2_Sub (E2_Mul y y) (E2_Mul (E2_Mul x x) x)) by (rewrite C; ring). subst b.
  replace (E2_Mul (E2_Add (E2_Mul l (E2_Sub X x)) y) (E2_Add (E2_Mul l (E2_Sub X x)) y))
    with (E2_Add (E2_Add (E2_Mul (E2_Mul l l) (E2_Mul (E2_Sub X x) (E2_Sub X x)))
           (E2_Mul (E2_Mul l (E2_Add y y)) (E2_Sub X x))) (E2_Mul y y)) by ring.
  rewrite H. ring.
Qed.

Lemma chord_cuts b x1 y1 x2 y2 l :
  x1 <> x2 -> E2_Mul l (E2_Sub x2 x1) = E2_Sub y2 y1 ->
  oncurve2 E2_Zero b (Aff x1 y1) -> oncurve2 E2_Zero b (Aff x2 y2) ->
  cuts b (lineOf l x1 y1) x1 x2 (E2_Sub (E2_Sub (E2_Mul l l) x1) x2).
Proof.
  intros N H C1 C2 X Y L. cbn [on_curve] in C1, C2. unfold on_line in L. cbn [lineOf R0 R1] in L.
  assert (EY : Y = E2_Add (E2_Mul l (E2_Sub X x1)) y1).
  { replace Y with (E2_Sub (E2_Add (E2_Add Y (E2_Mul (E2_Neg l) X)) (E2_Sub (E2_Mul l x1) y1))
                     (E2_Add (E2_Mul (E2_Neg l) X) (E2_Sub (E2_Mul l x1) y1))) by ring.
    rewrite L. ring. }
  subst Y.
  assert (Eb : b = E2_Sub (E2_Mul y1 y1) (E2_Mul (E2_Mul x1 x1) x1)) by (rewrite C1; ring). subst b.
  assert (Ey : y2 = E2_Add (E2_Mul l (E2_Sub x2 x1)) y1) by (rewrite H; ring). subst y2.
  apply (E2_cancel (E2_Sub x2 x1)); [apply E2_sub_neq; congruence|].
  (* the relation C2 divided by (x2-x1): x2^2+x1x2+x1^2 = l(l(x2-x1)+2y1) *)
  assert (R : E2_Mul (E2_Sub x2 x1) (E2_Sub (E2_Mul l (E2_Add (E2_Mul l (E2_Sub x2 x1)) (E2_Add y1 y1)))
                (E2_Add (E2_Add (E2_Mul x2 x2) (E2_Mul x1 x2)) (E2_Mul x1 x1))) = E2_Zero).
  { match type of C2 with ?A = ?B => transitivity (E2_Sub A B); [ring | rewrite C2; ring] end. }
  match goal with |- ?A = ?B =>
    transitivity (E2_Add B (E2_Neg (E2_Mul (E2_Sub X x1) (E2_Mul (E2_Sub x2 x1) (E2_Sub (E2_Mul l (E2_Add (E2_Mul l (E2_Sub x2 x1)) (E2_Add y1 y1)))
                (E2_Add (E2_Add (E2_Mul x2 x2) (E2_Mul x1 x2)) (E2_Mul x1 x1))))))) end.
  { ring. }
  rewrite R. ring.
Qed.

(** ** the step functions *)
Lemma sat_doubleStep p q ln :
  sat (doubleStep p) (q, ln) ->
  exists l, E2_Mul l (E2_Add (g2Y p) (g2Y p)) = E2_Mul (E2_Mul (g2X p) (g2X p)) (E2_Add (E2_Add E2_One E2_One) E2_One) /\
    ln = lineOf l (g2X p) (g2Y p) /\
    g2X q = E2_Sub (E2_Sub (E2_Mul l l) (g2X p)) (g2X p) /\
    g2Y q = E2_Sub (E2_Mul l (E2_Sub (g2X p) (g2X q))) (g2Y p).
Proof.
  unfold doubleStep. intros H. apply sat_bind in H. destruct H as (l & H & R).
  apply sat_E2_Div in H. apply sat_ret_inv in R. injection R as <- <-. exists l.
  cbn [g2X g2Y]. e2n. repeat split; try reflexivity. exact H.
Qed.

Lemma sat_tangent p ln :
  sat (tangentCompute p) ln ->
  exists l, E2_Mul l (E2_Add (g2Y p) (g2Y p)) = E2_Mul (E2_Mul (g2X p) (g2X p)) (E2_Add (E2_Add E2_One E2_One) E2_One) /\
    ln = lineOf l (g2X p) (g2Y p).
Proof.
  unfold tangentCompute. intros H. apply sat_bind in H. destruct H as (l & H & R).
  apply sat_E2_Div in H. apply sat_ret_inv in R. subst ln. exists l.
  e2n. split; [exact H | reflexivity].
Qed.

Lemma sat_addStep p1 p2 q ln :
  sat (addStep p1 p2) (q, ln) ->
  exists l, E2_Mul l (E2_Sub (g2X p2) (g2X p1)) = E2_Sub (g2Y p2) (g2Y p1) /\
    ln = lineOf l (g2X p1) (g2Y p1) /\
    g2X q = E2_Sub (E2_Sub (E2_Mul l l) (g2X p1)) (g2X p2) /\
    g2Y q = E2_Sub (E2_Mul l (E2_Sub (g2X p1) (g2X q))) (g2Y p1).
Proof.
  unfold addStep. intros H. apply sat_bind in H. destruct H as (l & H & R).
  apply sat_E2_Div in H. apply sat_ret_inv in R. injection R as <- <-. exists l.
  cbn [g2X g2Y]. e2n. repeat split; try reflexivity; [exact H | ring].
Qed.

Lemma sat_doubleAndAdd p1 p2 q ln1 ln2 :
  sat (doubleAndAddStep p1 p2) (q, ln1, ln2) ->
  exists l1 m x3, E2_Mul l1 (E2_Sub (g2X p1) (g2X p2)) = E2_Sub (g2Y p1) (g2Y p2) /\
    x3 = E2_Sub (E2_Sub (E2_Mul l1 l1) (g2X p1)) (g2X p2) /\
    E2_Mul m (E2_Sub x3 (g2X p1)) = E2_Add (g2Y p1) (g2Y p1) /\
    let l2 := E2_Neg (E2_Add m l1) in
    ln1 = lineOf l1 (g2X p1) (g2Y p1) /\ ln2 = lineOf l2 (g2X p1) (g2Y p1) /\
    g2X q = E2_Sub (E2_Sub (E2_Mul l2 l2) (g2X p1)) x3 /\
    g2Y q = E2_Sub (E2_Mul l2 (E2_Sub (g2X p1) (g2X q))) (g2Y p1).
Proof.
  unfold doubleAndAddStep. intros H. apply sat_bind in H. destruct H as (l1 & H1 & R).
  apply sat_bind in R. destruct R as (m & H2 & R).
  apply sat_E2_Div in H1, H2. apply sat_ret_inv in R. injection R as <- <- <-.
  e2n. exists l1, m. eexists. split; [exact H1|]. split; [reflexivity|]. split; [exact H2|].
  cbn [g2X g2Y]. e2n. repeat split; reflexivity.
Qed.

Lemma sat_triple p q ln1 ln2 :
  sat (tripleStep p) (q, ln1, ln2) ->
  exists l1 m x2, E2_Mul l1 (E2_Add (g2Y p) (g2Y p)) = E2_Mul (E2_Mul (g2X p) (g2X p)) (E2_Add (E2_Add E2_One E2_One) E2_One) /\
    x2 = E2_Sub (E2_Sub (E2_Mul l1 l1) (g2X p)) (g2X p) /\
    E2_Mul m (E2_Sub (g2X p) x2) = E2_Add (g2Y p) (g2Y p) /\
    let l2 := E2_Sub m l1 in
    ln1 = lineOf l1 (g2X p) (g2Y p) /\ ln2 = lineOf l2 (g2X p) (g2Y p) /\
    g2X q = E2_Sub (E2_Sub (E2_Mul l2 l2) (g2X p)) x2 /\
    g2Y q = E2_Sub (E2_Mul l2 (E2_Sub (g2X p) (g2X q))) (g2Y p).
Proof.
  unfold tripleStep. intros H. apply sat_bind in H. destruct H as (l1 & H1 & R).
  apply sat_bind in R. destruct R as (m & H2 & R).
  apply sat_E2_Div in H1, H2. apply sat_ret_inv in R. injection R as <- <- <-.
  e2n. exists l1, m. eexists. split; [exact H1|]. split; [reflexivity|]. split; [exact H2|].
  cbn [g2X g2Y]. e2n. repeat split; try reflexivity. ring.
Qed.

Lemma two_neq0 y : y <> E2_Zero -> E2_Add y y <> E2_Zero.
Proof.
  intros H E. assert (Z : E2_Mul (E2_Add E2_One E2_One) y = E2_Zero) by (rewrite <- E; ring).
  apply E2_integral in Z. destruct Z as [Z|Z]; [|tauto]. revert Z. discriminate.
Qed.
Lemma two_neq0' y : E2_Add y y <> E2_Zero -> y <> E2_Zero.
Proof. intros H ->. apply H. ring. Qed.

Lemma oncurve_pred b p : oncurve2 E2_Zero b (Aff (g2X p) (g2Y p)) -> oncurve2 E2_Zero b (aff p).
Proof. exact (fun H => H). Qed.

Lemma third_on_chord b x1 y1 x2 y2 l X Y :
  x1 <> x2 -> E2_Mul l (E2_Sub x2 x1) = E2_Sub y2 y1 ->
  oncurve2 E2_Zero b (Aff x1 y1) -> oncurve2 E2_Zero b (Aff x2 y2) ->
  X = E2_Sub (E2_Sub (E2_Mul l l) x1) x2 -> Y = E2_Sub (E2_Mul l (E2_Sub x1 X)) y1 ->
  oncurve2 E2_Zero b (Aff X Y).
Proof.
  intros N H C1 C2 HX HY.
  pose proof (chord_cuts b x1 y1 x2 y2 l N H C1 C2 X (E2_Neg Y)) as M.
  cbn [on_curve]. rewrite <- HX in M.
  assert (L : online2 (R0 (lineOf l x1 y1)) (R1 (lineOf l x1 y1)) X (E2_Neg Y)).
  { unfold on_line. cbn [lineOf R0 R1]. rewrite HY. ring. }
  specialize (M L). replace (E2_Sub X X) with E2_Zero in M by ring.
  match type of M with ?A = ?B => replace B with E2_Zero in M by ring end.
  match goal with |- ?A = ?B => transitivity (E2_Sub B (E2_Sub B (E2_Mul (E2_Neg Y) (E2_Neg Y)))); [ring|] end.
  rewrite M. ring.
Qed.
Lemma third_on_tangent b x y l X Y :
  E2_Mul l (E2_Add y y) = E2_Mul (E2_Mul x x) (E2_Add (E2_Add E2_One E2_One) E2_One) ->
  oncurve2 E2_Zero b (Aff x y) ->
  X = E2_Sub (E2_Sub (E2_Mul l l) x) x -> Y = E2_Sub (E2_Mul l (E2_Sub x X)) y ->
  oncurve2 E2_Zero b (Aff X Y).
Proof.
  intros H C1 HX HY.
  pose proof (tangent_cuts b x y l H C1 X (E2_Neg Y)) as M.
  cbn [on_curve]. rewrite <- HX in M.
  assert (L : online2 (R0 (lineOf l x y)) (R1 (lineOf l x y)) X (E2_Neg Y)).
  { unfold on_line. cbn [lineOf R0 R1]. rewrite HY. ring. }
  specialize (M L). replace (E2_Sub X X) with E2_Zero in M by ring.
  match type of M with ?A = ?B => replace B with E2_Zero in M by ring end.
  match goal with |- ?A = ?B => transitivity (E2_Sub B (E2_Sub B (E2_Mul (E2_Neg Y) (E2_Neg Y)))); [ring|] end.
  rewrite M. ring.
Qed.

(** ** C33 *)
Lemma doubleStep_spec p q ln b :
  sat (doubleStep p) (q, ln) -> g2Y p <> E2_Zero ->
  add2 E2_Zero (aff p) (aff p) (aff q) /\
  (oncurve2 E2_Zero b (aff p) ->
   oncurve2 E2_Zero b (aff q) /\ cuts b ln (g2X p) (g2X p) (g2X q)) /\
  online2 (R0 ln) (R1 ln) (g2X p) (g2Y p).
Proof.
  intros H N. apply sat_doubleStep in H. destruct H as (l & H & -> & HX & HY).
  split; [|split].
  - eapply double_law; [exact H | now apply two_neq0 | exact HX | exact HY].
  - intros C. split; [eapply third_on_tangent; eassumption|].
    rewrite HX. now apply tangent_cuts.
  - unfold on_line. cbn [lineOf R0 R1]. ring.
Qed.

Lemma tangent_spec p ln b :
  sat (tangentCompute p) ln -> g2Y p <> E2_Zero ->
  exists q, add2 E2_Zero (aff p) (aff p) (aff q) /\
  (oncurve2 E2_Zero b (aff p) -> cuts b ln (g2X p) (g2X p) (g2X q)) /\
  online2 (R0 ln) (R1 ln) (g2X p) (g2Y p).
Proof.
  intros H N. apply sat_tangent in H. destruct H as (l & H & ->).
  set (X := E2_Sub (E2_Sub (E2_Mul l l) (g2X p)) (g2X p)).
  exists (mkG2 X (E2_Sub (E2_Mul l (E2_Sub (g2X p) X)) (g2Y p))).
  split; [|split].
  - eapply double_law; [exact H | now apply two_neq0 | reflexivity | reflexivity].
  - intros C. now apply tangent_cuts.
  - unfold on_line. cbn [lineOf R0 R1]. ring.
Qed.

Lemma addStep_spec p1 p2 q ln b :
  sat (addStep p1 p2) (q, ln) -> g2X p1 <> g2X p2 ->
  add2 E2_Zero (aff p1) (aff p2) (aff q) /\
  (oncurve2 E2_Zero b (aff p1) -> oncurve2 E2_Zero b (aff p2) ->
   oncurve2 E2_Zero b (aff q) /\ cuts b ln (g2X p1) (g2X p2) (g2X q)) /\
  online2 (R0 ln) (R1 ln) (g2X p1) (g2Y p1) /\ online2 (R0 ln) (R1 ln) (g2X p2) (g2Y p2).
Proof.
  intros H N. apply sat_addStep in H. destruct H as (l & H & -> & HX & HY).
  split; [|split; [|split]].
  - eapply chord_law; eassumption.
  - intros C1 C2. split; [eapply third_on_chord; try eassumption|].
    rewrite HX. eapply chord_cuts; eassumption.
  - unfold on_line. cbn [lineOf R0 R1]. ring.
  - unfold on_line. cbn [lineOf R0 R1].
    transitivity (E2_Sub (E2_Sub (g2Y p2) (g2Y p1)) (E2_Mul l (E2_Sub (g2X p2) (g2X p1)))); [ring|].
    rewrite H. ring.
Qed.

Lemma doubleAndAdd_spec p1 p2 q ln1 ln2 b :
  sat (doubleAndAddStep p1 p2) (q, ln1, ln2) -> g2X p1 <> g2X p2 ->
  exists s, add2 E2_Zero (aff p1) (aff p2) (aff s) /\
  (g2X s <> g2X p1 -> add2 E2_Zero (aff s) (aff p1) (aff q)) /\
  (g2X s = g2X p1 -> g2Y p1 = E2_Zero) /\
  (g2X s <> g2X p1 -> oncurve2 E2_Zero b (aff p1) -> oncurve2 E2_Zero b (aff p2) ->
   oncurve2 E2_Zero b (aff q) /\
   cuts b ln1 (g2X p1) (g2X p2) (g2X s) /\ cuts b ln2 (g2X s) (g2X p1) (g2X q)).
Proof.
  intros H N. apply sat_doubleAndAdd in H.
  destruct H as (l1 & m & x3 & H1 & E3 & H2 & -> & -> & HX & HY).
  set (l2 := E2_Neg (E2_Add m l1)) in *.
  set (y3 := E2_Sub (E2_Mul l1 (E2_Sub (g2X p1) x3)) (g2Y p1)).
  assert (H1' : E2_Mul l1 (E2_Sub (g2X p2) (g2X p1)) = E2_Sub (g2Y p2) (g2Y p1)).
  { transitivity (E2_Neg (E2_Mul l1 (E2_Sub (g2X p1) (g2X p2)))); [ring|]. rewrite H1. ring. }
  assert (H2' : E2_Mul l2 (E2_Sub (g2X p1) x3) = E2_Sub (g2Y p1) y3).
  { unfold l2, y3. transitivity (E2_Sub (E2_Mul m (E2_Sub x3 (g2X p1))) (E2_Mul l1 (E2_Sub (g2X p1) x3))); [ring|].
    rewrite H2. ring. }
  assert (HX' : g2X q = E2_Sub (E2_Sub (E2_Mul l2 l2) x3) (g2X p1)) by (rewrite HX; ring).
  assert (HY' : g2Y q = E2_Sub (E2_Mul l2 (E2_Sub x3 (g2X q))) y3).
  { rewrite HY. transitivity (E2_Sub (E2_Add (E2_Mul l2 (E2_Sub x3 (g2X q))) (E2_Mul l2 (E2_Sub (g2X p1) x3))) (g2Y p1)); [ring|].
    rewrite H2'. ring. }
  exists (mkG2 x3 y3). cbn [g2X g2Y aff]. split; [|split; [|split]].
  - eapply chord_law; [exact N | exact H1' | exact E3 | reflexivity].
  - intros N3. unfold aff. eapply chord_law; [exact N3 | exact H2' | exact HX' | exact HY'].
  - intros E. rewrite E in H2. destruct (E2_eq_dec (g2Y p1) E2_Zero) as [Z|Z]; [exact Z|].
    exfalso. apply (two_neq0 _ Z). rewrite <- H2. ring.
  - intros N3 C1 C2.
    assert (C3 : oncurve2 E2_Zero b (Aff x3 y3)).
    { eapply third_on_chord; [exact N | exact H1' | exact C1 | exact C2 | exact E3 | reflexivity]. }
    split; [|split].
    + eapply (third_on_chord b x3 y3 (g2X p1) (g2Y p1) l2); [exact N3 | exact H2' | exact C3 | exact C1 | exact HX' | exact HY'].
    + rewrite E3. eapply chord_cuts; eassumption.
    + replace (lineOf l2 (g2X p1) (g2Y p1)) with (lineOf l2 x3 y3).
      * rewrite HX'. eapply chord_cuts; [exact N3 | exact H2' | exact C3 | exact C1].
      * unfold lineOf. f_equal.
        transitivity (E2_Sub (E2_Sub (E2_Sub (g2Y p1) y3) (E2_Mul l2 (E2_Sub (g2X p1) x3)))
                             (E2_Sub (g2Y p1) (E2_Mul l2 (g2X p1)))); [ring|]. rewrite H2'. ring.
Qed.

Lemma triple_spec p q ln1 ln2 b :
  sat (tripleStep p) (q, ln1, ln2) -> g2Y p <> E2_Zero ->
  exists s, add2 E2_Zero (aff p) (aff p) (aff s) /\ g2X s <> g2X p /\
  add2 E2_Zero (aff s) (aff p) (aff q) /\
  (oncurve2 E2_Zero b (aff p) ->
   oncurve2 E2_Zero b (aff q) /\
   cuts b ln1 (g2X p) (g2X p) (g2X s) /\ cuts b ln2 (g2X s) (g2X p) (g2X q)).
Proof.
  intros H N. apply sat_triple in H.
  destruct H as (l1 & m & x3 & H1 & E3 & H2 & -> & -> & HX & HY).
  set (l2 := E2_Sub m l1) in *.
  set (y3 := E2_Sub (E2_Mul l1 (E2_Sub (g2X p) x3)) (g2Y p)).
  assert (N3 : x3 <> g2X p).
  { intros E. apply (two_neq0 _ N). rewrite <- H2, E. ring. }
  assert (H2' : E2_Mul l2 (E2_Sub (g2X p) x3) = E2_Sub (g2Y p) y3).
  { unfold l2, y3. transitivity (E2_Sub (E2_Mul m (E2_Sub (g2X p) x3)) (E2_Mul l1 (E2_Sub (g2X p) x3))); [ring|].
    rewrite H2. ring. }
  assert (HX' : g2X q = E2_Sub (E2_Sub (E2_Mul l2 l2) x3) (g2X p)) by (rewrite HX; ring).
  assert (HY' : g2Y q = E2_Sub (E2_Mul l2 (E2_Sub x3 (g2X q))) y3).
  { rewrite HY. transitivity (E2_Sub (E2_Add (E2_Mul l2 (E2_Sub x3 (g2X q))) (E2_Mul l2 (E2_Sub (g2X p) x3))) (g2Y p)); [ring|].
    rewrite H2'. ring. }
  exists (mkG2 x3 y3). cbn [g2X g2Y aff]. split; [|split; [|split]].
  - eapply double_law; [exact H1 | now apply two_neq0 | exact E3 | reflexivity].
  - exact N3.
  - unfold aff. eapply chord_law; [exact N3 | exact H2' | exact HX' | exact HY'].
  - intros C1.
    assert (C3 : oncurve2 E2_Zero b (Aff x3 y3)).
    { eapply third_on_tangent; [exact H1 | exact C1 | exact E3 | reflexivity]. }
    split; [|split].
    + eapply (third_on_chord b x3 y3 (g2X p) (g2Y p) l2); [exact N3 | exact H2' | exact C3 | exact C1 | exact HX' | exact HY'].
    + rewrite E3. now apply tangent_cuts.
    + replace (lineOf l2 (g2X p) (g2Y p)) with (lineOf l2 x3 y3).
      * rewrite HX'. eapply chord_cuts; [exact N3 | exact H2' | exact C3 | exact C1].
      * unfold lineOf. f_equal.
        transitivity (E2_Sub (E2_Sub (E2_Sub (g2Y p) y3) (E2_Mul l2 (E2_Sub (g2X p) x3)))
                             (E2_Sub (g2Y p) (E2_Mul l2 (g2X p)))); [ring|]. rewrite H2'. ring.
Qed.

(** the honest prover succeeds on non-degenerate inputs, with one outcome *)
Lemma doubleStep_total p : g2Y p <> E2_Zero -> exists r, determ (doubleStep p) r.
Proof.
  intros N. eexists. unfold doubleStep.
  eapply determ_bind; [apply determ_E2_Div; rewrite E2_Double_eq; now apply two_neq0 | apply determ_ret].
Qed.
Lemma tangent_total p : g2Y p <> E2_Zero -> exists r, determ (tangentCompute p) r.
Proof.
  intros N. eexists. unfold tangentCompute.
  eapply determ_bind; [apply determ_E2_Div; rewrite E2_Double_eq; now apply two_neq0 | apply determ_ret].
Qed.
Lemma addStep_total p1 p2 : g2X p1 <> g2X p2 -> exists r, determ (addStep p1 p2) r.
Proof.
  intros N. eexists. unfold addStep.
  eapply determ_bind; [apply determ_E2_Div; apply E2_sub_neq; congruence | apply determ_ret].
Qed.

(** ** C34: the multi-pair loop is the product of the single-pair loops *)
Notation Prod := (fold_right E12_Mul E12_One).
Definition lineE12 (l : lineEvaluation) : E12 :=
  mkE12 (mkE6 (R1 l) (R0 l) E2_Zero) (mkE6 E2_Zero E2_One E2_Zero).
Lemma mulLine_eq r l : mulLine r l = E12_Mul r (lineE12 l).
Proof. unfold mulLine, lineE12. exact (E12_MulBy014_eq r (R1 l) (R0 l)). Qed.
Lemma E12_assoc a b c : E12_Mul a (E12_Mul b c) = E12_Mul (E12_Mul a b) c.
Proof. exact (Rmul_assoc E12_rt a b c). Qed.
Lemma E12_comm a b : E12_Mul a b = E12_Mul b a.
Proof. exact (Rmul_comm E12_rt a b). Qed.
Lemma E12_1_l a : E12_Mul E12_One a = a.
Proof. exact (Rmul_1_l E12_rt a). Qed.
Lemma E12_1_r a : E12_Mul a E12_One = a.
Proof. rewrite E12_comm. apply E12_1_l. Qed.
Lemma E12_swap a b c : E12_Mul (E12_Mul a b) c = E12_Mul (E12_Mul a c) b.
Proof. rewrite <- !E12_assoc. f_equal. apply E12_comm. Qed.
Lemma E12_4 a b c d : E12_Mul (E12_Mul a b) (E12_Mul c d) = E12_Mul (E12_Mul a c) (E12_Mul b d).
Proof. rewrite !E12_assoc. f_equal. apply E12_swap. Qed.

Definition st (xs : list (E12 * pairState)) : E12 * list pairState := (Prod (map fst xs), map snd xs).

(** The argument works for any semantics that commutes with [bind] and [Ret];
    it is used for [sat] (any prover) and for [run] (the honest one). *)
Section Sem.
Variable sem : forall {A : Type}, Circ A -> A -> Prop.
Hypothesis sem_bind : forall (A B : Type) (c : Circ A) (f : A -> Circ B) b,
  sem (bind c f) b <-> exists a, sem c a /\ sem (f a) b.
Hypothesis sem_ret : forall (A : Type) (a b : A), sem (Ret a) b <-> a = b.
Hypothesis sem_fail : forall (A : Type) (a : A), sem (@Fail A) a -> False.
Lemma sem_ret_inv (A : Type) (a b : A) : sem (Ret a) b -> a = b.
Proof. apply sem_ret. Qed.

(** One pass of a per-pair step [f] over all pairs.  [f] multiplies the
    running product by a factor that depends only on the pair. *)
Section Pass.
Variable f : E12 * list pairState -> pairState -> Circ (E12 * list pairState).
Variable g : pairState -> E12 -> pairState -> Prop.
Hypothesis Hf : forall r acc s o, sem (f (r, acc) s) o <->
  exists m s', g s m s' /\ o = (E12_Mul r m, acc ++ [s']).

Lemma pass_split xs : forall ys0 o,
  sem (mfold f (map snd xs) (E12_Mul (Prod (map fst ys0)) (Prod (map fst xs)), map snd ys0)) o <->
  exists ys, o = st (ys0 ++ ys) /\
    Forall2 (fun x y => exists m, g (snd x) m (snd y) /\ fst y = E12_Mul (fst x) m) xs ys.
Proof.
  induction xs as [|[r s] xs IH]; intros ys0 o; cbn [map mfold fold_right fst snd].
  - rewrite sem_ret. split.
    + intros <-. exists []. rewrite app_nil_r, E12_1_r. split; [reflexivity | constructor].
    + intros (ys & -> & F). inversion F; subst. rewrite app_nil_r, E12_1_r. reflexivity.
  - rewrite sem_bind. split.
    + intros (a & Ha & Hb). apply Hf in Ha. destruct Ha as (m & s' & G & ->).
      assert (E : (E12_Mul (E12_Mul (Prod (map fst ys0)) (E12_Mul r (Prod (map fst xs)))) m, map snd ys0 ++ [s'])
                = (E12_Mul (Prod (map fst (ys0 ++ [(E12_Mul r m, s')]))) (Prod (map fst xs)), map snd (ys0 ++ [(E12_Mul r m, s')]))).
      { rewrite !map_app. cbn [map fst snd]. f_equal. rewrite fold_right_app. cbn [fold_right].
        assert (PM : forall l a, fold_right E12_Mul a l = E12_Mul (Prod l) a).
        { induction l as [|z l IHl]; intros a; cbn [fold_right]; [now rewrite E12_1_l|].
          now rewrite IHl, E12_assoc. }
        rewrite (PM _ (E12_Mul (E12_Mul r m) E12_One)), E12_1_r.
        rewrite !E12_assoc. rewrite (E12_swap (E12_Mul (Prod (map fst ys0)) r)). reflexivity. }
      rewrite E in Hb. apply IH in Hb. destruct Hb as (ys & -> & F).
      exists ((E12_Mul r m, s') :: ys). rewrite <- app_assoc. split; [reflexivity|].
      constructor; [|exact F]. exists m. split; [exact G | reflexivity].
    + intros (ys & -> & F). inversion F as [|x y ? ys' (m & G & Em) F' E1 E2]; subst.
      destruct y as [r' s']. cbn [fst snd] in *. subst r'.
      exists (E12_Mul (E12_Mul (Prod (map fst ys0)) (E12_Mul r (Prod (map fst xs)))) m, map snd ys0 ++ [s']).
      split; [apply Hf; exists m, s'; split; [exact G | reflexivity]|].
      assert (E : (E12_Mul (E12_Mul (Prod (map fst ys0)) (E12_Mul r (Prod (map fst xs)))) m, map snd ys0 ++ [s'])
                = (E12_Mul (Prod (map fst (ys0 ++ [(E12_Mul r m, s')]))) (Prod (map fst xs)), map snd (ys0 ++ [(E12_Mul r m, s')]))).
      { rewrite !map_app. cbn [map fst snd]. f_equal. rewrite fold_right_app. cbn [fold_right].
        assert (PM : forall l a, fold_right E12_Mul a l = E12_Mul (Prod l) a).
        { induction l as [|z l IHl]; intros a; cbn [fold_right]; [now rewrite E12_1_l|].
          now rewrite IHl, E12_assoc. }
        rewrite (PM _ (E12_Mul (E12_Mul r m) E12_One)), E12_1_r.
        rewrite !E12_assoc. rewrite (E12_swap (E12_Mul (Prod (map fst ys0)) r)). reflexivity. }
      rewrite E. apply IH. exists ys'. rewrite <- app_assoc. split; [reflexivity | exact F'].
Qed.

Lemma pass_st xs o :
  sem (mfold f (map snd xs) (Prod (map fst xs), [])) o <->
  exists ys, o = st ys /\
    Forall2 (fun x y => exists m, g (snd x) m (snd y) /\ fst y = E12_Mul (fst x) m) xs ys.
Proof.
  pose proof (pass_split xs [] o) as H. cbn [map fold_right] in H. rewrite E12_1_l in H. exact H.
Qed.
End Pass.

(** factors contributed by one pair *)
Definition gTriple (s : pairState) (m : E12) (s' : pairState) : Prop :=
  exists q l1 l2, sem (tripleStep (psAcc s)) (q, l1, l2) /\
    s' = mkPS (psQ s) q (psXY s) (psYI s) /\
    m = E12_Mul (lineE12 (evalLine l1 (psXY s) (psYI s))) (lineE12 (evalLine l2 (psXY s) (psYI s))).
Definition gDouble (s : pairState) (m : E12) (s' : pairState) : Prop :=
  exists q l1, sem (doubleStep (psAcc s)) (q, l1) /\
    s' = mkPS (psQ s) q (psXY s) (psYI s) /\
    m = lineE12 (evalLine l1 (psXY s) (psYI s)).
Definition gDoubleAdd (s : pairState) (m : E12) (s' : pairState) : Prop :=
  exists q l1 l2, sem (doubleAndAddStep (psAcc s) (psQ s)) (q, l1, l2) /\
    s' = mkPS (psQ s) q (psXY s) (psYI s) /\
    m = E12_Mul (lineE12 (evalLine l1 (psXY s) (psYI s))) (lineE12 (evalLine l2 (psXY s) (psYI s))).
Definition gTangent (s : pairState) (m : E12) : Prop :=
  exists l1, sem (tangentCompute (psAcc s)) l1 /\ m = lineE12 (evalLine l1 (psXY s) (psYI s)).

Lemma Hf_triple r acc s o : sem (tripleOne (r, acc) s) o <->
  exists m s', gTriple s m s' /\ o = (E12_Mul r m, acc ++ [s']).
Proof.
  unfold tripleOne. rewrite sem_bind. split.
  - intros ([[q l1] l2] & H & R). apply sem_ret_inv in R. subst o.
    eexists _, _. split; [exists q, l1, l2; split; [exact H | split; reflexivity]|].
    rewrite !mulLine_eq, E12_assoc. reflexivity.
  - intros (m & s' & (q & l1 & l2 & H & -> & ->) & ->). exists (q, l1, l2). split; [exact H|].
    apply sem_ret. rewrite !mulLine_eq, E12_assoc. reflexivity.
Qed.
Lemma Hf_double r acc s o : sem (doubleOne (r, acc) s) o <->
  exists m s', gDouble s m s' /\ o = (E12_Mul r m, acc ++ [s']).
Proof.
  unfold doubleOne. rewrite sem_bind. split.
  - intros ([q l1] & H & R). apply sem_ret_inv in R. subst o.
    eexists _, _. split; [exists q, l1; split; [exact H | split; reflexivity]|].
    rewrite !mulLine_eq. reflexivity.
  - intros (m & s' & (q & l1 & H & -> & ->) & ->). exists (q, l1). split; [exact H|].
    apply sem_ret. rewrite !mulLine_eq. reflexivity.
Qed.
Lemma Hf_doubleAdd r acc s o : sem (doubleAddOne (r, acc) s) o <->
  exists m s', gDoubleAdd s m s' /\ o = (E12_Mul r m, acc ++ [s']).
Proof.
  unfold doubleAddOne. rewrite sem_bind. split.
  - intros ([[q l1] l2] & H & R). apply sem_ret_inv in R. subst o.
    eexists _, _. split; [exists q, l1, l2; split; [exact H | split; reflexivity]|].
    rewrite !mulLine_eq, E12_assoc. reflexivity.
  - intros (m & s' & (q & l1 & l2 & H & -> & ->) & ->). exists (q, l1, l2). split; [exact H|].
    apply sem_ret. rewrite !mulLine_eq, E12_assoc. reflexivity.
Qed.

Definition gIter (i : nat) : pairState -> E12 -> pairState -> Prop :=
  if Z.eqb (nth i loopCounter 0) 0 then gDouble else gDoubleAdd.
Definition sqx (x : E12 * pairState) : E12 * pairState := (E12_Mul (fst x) (fst x), snd x).
Lemma Prod_sq xs : E12_Mul (Prod (map fst xs)) (Prod (map fst xs)) = Prod (map fst (map sqx xs)).
Proof.
  induction xs as [|[r s] xs IH]; cbn [map fold_right fst snd]; [apply E12_1_l|].
  rewrite E12_4, IH. reflexivity.
Qed.
Lemma snd_sq xs : map snd (map sqx xs) = map snd xs.
Proof. rewrite map_map. reflexivity. Qed.

(** one pair, one iteration *)
Definition iter1 (i : nat) (x y : E12 * pairState) : Prop :=
  exists m, gIter i (snd x) m (snd y) /\ fst y = E12_Mul (E12_Mul (fst x) (fst x)) m.

Lemma iter_split i xs o :
  sem (millerIter (st xs) i) o <-> exists ys, o = st ys /\ Forall2 (iter1 i) xs ys.
Proof.
  assert (F2 : forall (Rel : pairState -> E12 -> pairState -> Prop) ys,
    Forall2 (fun x y => exists m, Rel (snd x) m (snd y) /\ fst y = E12_Mul (fst x) m) (map sqx xs) ys <->
    Forall2 (fun x y => exists m, Rel (snd x) m (snd y) /\ fst y = E12_Mul (E12_Mul (fst x) (fst x)) m) xs ys).
  { intros Rel. induction xs as [|x xs IH]; intros ys; cbn [map].
    - split; intros H; inversion H; constructor.
    - split; intros H; inversion H; subst; constructor; try assumption; apply IH; assumption. }
  unfold millerIter, st, iter1, gIter. rewrite E12_Square_eq, Prod_sq, <- snd_sq.
  destruct (nth i loopCounter 0 =? 0).
  - rewrite (pass_st doubleOne gDouble Hf_double).
    split; intros (ys & -> & F); exists ys; (split; [reflexivity | now apply F2]).
  - rewrite (pass_st doubleAddOne gDoubleAdd Hf_doubleAdd).
    split; intros (ys & -> & F); exists ys; (split; [reflexivity | now apply F2]).
Qed.

(** several iterations *)
Fixpoint iters1 (L : list nat) (x y : E12 * pairState) : Prop :=
  match L with
  | [] => x = y
  | i :: L => exists z, iter1 i x z /\ iters1 L z y
  end.
Lemma Forall2_comp {A B C} (R : A -> B -> Prop) (S : B -> C -> Prop) xs zs :
  Forall2 (fun x z => exists y, R x y /\ S y z) xs zs <-> exists ys, Forall2 R xs ys /\ Forall2 S ys zs.
Proof.
  split.
  - induction 1 as [|x z xs zs (y & H1 & H2) F (ys & F1 & F2)].
    + exists []. split; constructor.
    + exists (y :: ys). split; constructor; assumption.
  - intros (ys & F1 & F2). revert zs F2. induction F1; intros zs F2; inversion F2; subst; constructor; eauto.
Qed.
Lemma Forall2_eq {A} (xs ys : list A) : Forall2 eq xs ys <-> xs = ys.
Proof.
  split; [induction 1; congruence | intros ->; induction ys; constructor; auto].
Qed.
Lemma iters_split L : forall xs o,
  sem (mfold millerIter L (st xs)) o <-> exists ys, o = st ys /\ Forall2 (iters1 L) xs ys.
Proof.
  induction L as [|i L IH]; intros xs o; cbn [mfold].
  - rewrite sem_ret. split.
    + intros <-. exists xs. split; [reflexivity | now apply Forall2_eq].
    + intros (ys & -> & F). apply Forall2_eq in F. now subst.
  - rewrite sem_bind. cbn [iters1]. split.
    + intros (a & Ha & Hb). apply iter_split in Ha. destruct Ha as (zs & -> & F).
      apply IH in Hb. destruct Hb as (ys & -> & G). exists ys. split; [reflexivity|].
      apply (Forall2_comp (iter1 i) (iters1 L)). exists zs. split; assumption.
    + intros (ys & -> & F). apply (Forall2_comp (iter1 i) (iters1 L)) in F. destruct F as (zs & F & G).
      exists (st zs). split; [apply iter_split; exists zs; split; [reflexivity | exact F] | apply IH; exists ys; split; [reflexivity | exact G]].
Qed.

(** closing tangents *)
Definition fin1 (x : E12 * pairState) (r : E12) : Prop :=
  exists m, gTangent (snd x) m /\ r = E12_Mul (E12_Mul (fst x) (fst x)) m.
Lemma sat_tangentOne r s o : sem (tangentOne r s) o <-> exists m, gTangent s m /\ o = E12_Mul r m.
Proof.
  unfold tangentOne. rewrite sem_bind. split.
  - intros (l & H & R). apply sem_ret_inv in R. subst o. eexists. split; [exists l; split; [exact H | reflexivity]|].
    apply mulLine_eq.
  - intros (m & (l & H & ->) & ->). exists l. split; [exact H|]. apply sem_ret. apply mulLine_eq.
Qed.
Lemma tangent_split xs : forall r0 o,
  sem (mfold tangentOne (map snd xs) (E12_Mul r0 (Prod (map fst (map sqx xs))))) o <->
  exists rs, o = E12_Mul r0 (Prod rs) /\ Forall2 fin1 xs rs.
Proof.
  induction xs as [|[r s] xs IH]; intros r0 o; cbn [map mfold fold_right fst snd].
  - rewrite sem_ret. split.
    + intros <-. exists []. split; [reflexivity | constructor].
    + intros (rs & -> & F). inversion F; subst. reflexivity.
  - rewrite sem_bind. unfold sqx at 1. cbn [fst snd].
    assert (E : forall m, E12_Mul (E12_Mul r0 (E12_Mul (E12_Mul r r) (Prod (map fst (map sqx xs))))) m
      = E12_Mul (E12_Mul r0 (E12_Mul (E12_Mul r r) m)) (Prod (map fst (map sqx xs)))).
    { intros m. rewrite !E12_assoc. apply E12_swap. }
    split.
    + intros (a & Ha & Hb). apply sat_tangentOne in Ha. destruct Ha as (m & G & ->).
      rewrite E in Hb. apply IH in Hb. destruct Hb as (rs & -> & F).
      exists (E12_Mul (E12_Mul r r) m :: rs). split; [cbn [fold_right]; now rewrite !E12_assoc|].
      constructor; [exists m; split; [exact G | reflexivity] | exact F].
    + intros (rs & -> & F). inversion F as [|x y ? rs' (m & G & Em) F' E1 E2]; subst.
      cbn [fst snd] in *.
      exists (E12_Mul (E12_Mul r0 (E12_Mul (E12_Mul r r) (Prod (map fst (map sqx xs))))) m).
      split; [apply sat_tangentOne; exists m; split; [exact G | reflexivity]|]. rewrite E. apply IH. exists rs'.
      split; [cbn [fold_right]; now rewrite !E12_assoc | exact F'].
Qed.

(** ** the whole loop *)
Definition init1 (pq : G1Affine * G2Affine) (s : pairState) : Prop := sem (initPair pq) s.
Definition start1 (s : pairState) (x : E12 * pairState) : Prop := gTriple s (fst x) (snd x).
Definition loop1 (pq : G1Affine * G2Affine) (r : E12) : Prop :=
  exists s, init1 pq s /\ exists x, start1 s x /\ exists y, iters1 millerRange x y /\
  exists z, fin1 y z /\ r = E12_Conjugate z.

Lemma sat_mmap {A B} (f : A -> Circ B) l o : sem (mmap f l) o <-> Forall2 (fun x y => sem (f x) y) l o.
Proof.
  revert o. induction l as [|x l IH]; intros o; cbn [mmap].
  - rewrite sem_ret. split; [intros <-; constructor | now inversion 1].
  - rewrite sem_bind. split.
    + intros (y & H1 & H2). apply sem_bind in H2. destruct H2 as (ys & H2 & R).
      apply sem_ret_inv in R. subst o. constructor; [exact H1 | now apply IH].
    + inversion 1; subst. eexists. split; [eassumption|]. apply sem_bind. eexists.
      split; [apply IH; eassumption | now apply sem_ret].
Qed.
Lemma sat_firstPair s o : sem (firstPair s) o <-> start1 s o.
Proof.
  assert (E : forall l1 l2, mkE12 (mkE6 (s0 (E12_Mul014By014 (R1 l2) (R0 l2) (R1 l1) (R0 l1)))
        (s1 (E12_Mul014By014 (R1 l2) (R0 l2) (R1 l1) (R0 l1))) (s2 (E12_Mul014By014 (R1 l2) (R0 l2) (R1 l1) (R0 l1))))
        (mkE6 (B0 (C1 E12_One)) (s3 (E12_Mul014By014 (R1 l2) (R0 l2) (R1 l1) (R0 l1))) (s4 (E12_Mul014By014 (R1 l2) (R0 l2) (R1 l1) (R0 l1))))
      = E12_Mul (lineE12 l1) (lineE12 l2)).
  { intros l1 l2. rewrite E12_comm. unfold lineE12. exact (E12_Mul014By014_eq (R1 l2) (R0 l2) (R1 l1) (R0 l1)). }
  unfold firstPair, start1, gTriple. rewrite sem_bind. split.
  - intros ([[q l1] l2] & H & R). apply sem_ret_inv in R. subst o. cbn [fst snd].
    exists q, l1, l2. split; [exact H|]. split; [reflexivity|]. apply E.
  - destruct o as [r s']. cbn [fst snd]. intros (q & l1 & l2 & H & -> & ->).
    exists (q, l1, l2). split; [exact H|]. apply sem_ret. f_equal. apply E.
Qed.

Lemma Conj_Prod rs : E12_Conjugate (Prod rs) = Prod (map E12_Conjugate rs).
Proof.
  induction rs as [|r rs IH]; cbn [map fold_right].
  - reflexivity.
  - rewrite E12_Conj_mul, IH. reflexivity.
Qed.

Lemma start_split p0 ps o :
  sem ('(res, p0) <- firstPair p0 ;; mfold tripleOne ps (res, [p0])) o <->
  exists xs, o = st xs /\ Forall2 start1 (p0 :: ps) xs.
Proof.
  rewrite sem_bind.
  assert (F2 : forall ys, Forall2 (fun (x y : E12 * pairState) => exists m, gTriple (snd x) m (snd y) /\ fst y = E12_Mul (fst x) m)
     (map (fun s => (E12_One, s)) ps) ys <-> Forall2 start1 ps ys).
  { induction ps as [|p ps IH]; intros ys; cbn [map].
    - split; intros H; inversion H; constructor.
    - split; intros H; inversion H as [|x y xs' ys' Q F' E1 E2]; subst; constructor; try (apply IH; assumption).
      + destruct Q as (m & G & E). cbn [fst snd] in *. rewrite E12_1_l in E. unfold start1. now rewrite E.
      + exists (fst y). split; [exact Q | cbn [fst]; now rewrite E12_1_l]. }
  assert (E1 : map snd (map (fun s : pairState => (E12_One, s)) ps) = ps) by (rewrite map_map; apply map_id).
  assert (E2 : Prod (map fst (map (fun s : pairState => (E12_One, s)) ps)) = E12_One).
  { rewrite map_map. cbn [fst]. induction ps as [|p ps' IH]; [reflexivity|]. cbn [map fold_right].
    rewrite E12_1_l. apply IH.
    - intros ys. specialize (F2 ys). clear - F2. split; intros H.
      + revert H. clear F2. revert ys. induction ps' as [|q qs IHq]; intros ys H; inversion H as [|x y xs' ys' Q F' E1 E2]; subst; constructor; auto.
        destruct Q as (m & G & E). cbn [fst snd] in *. rewrite E12_1_l in E. unfold start1. now rewrite E.
      + revert H. clear F2. revert ys. induction ps' as [|q qs IHq]; intros ys H; inversion H; subst; constructor; auto.
        eexists. split; [eassumption | cbn [fst]; now rewrite E12_1_l].
    - cbn [map] in E1. injection E1. auto. }
  split.
  - intros ([r p0'] & H & R). apply sat_firstPair in H.
    pose proof (pass_split tripleOne gTriple Hf_triple (map (fun s => (E12_One, s)) ps) [(r, p0')] o) as P.
    rewrite E1, E2 in P. cbn [map fold_right fst snd] in P. rewrite !E12_1_r in P.
    apply P in R. destruct R as (ys & -> & F). exists ((r, p0') :: ys). split; [reflexivity|].
    constructor; [exact H | now apply F2].
  - intros (xs & -> & F). inversion F as [|x [r p0'] xs' ys' Q F' X1 X2]; subst.
    exists (r, p0'). split; [now apply sat_firstPair|].
    pose proof (pass_split tripleOne gTriple Hf_triple (map (fun s => (E12_One, s)) ps) [(r, p0')] (st ((r, p0') :: ys'))) as P.
    rewrite E1, E2 in P. cbn [map fold_right fst snd] in P. rewrite !E12_1_r in P.
    apply P. exists ys'. split; [reflexivity | now apply F2].
Qed.

Lemma miller_split Ps Qs o :
  sem (MillerLoop Ps Qs) o <->
  length Ps = length Qs /\ Ps <> [] /\ exists rs, Forall2 loop1 (combine Ps Qs) rs /\ o = Prod rs.
Proof.
  assert (F0 : forall A (a : A), sem (@Fail A) a -> False).
  { exact sem_fail. }
  unfold MillerLoop.
  destruct (Nat.eqb_spec (length Ps) 0) as [E|E]; cbn [orb].
  { split; [intros H; destruct (F0 _ _ H)|]. intros (_ & N & _). destruct Ps; [tauto | discriminate]. }
  destruct (Nat.eqb_spec (length Ps) (length Qs)) as [L|L]; cbn [negb].
  2:{ split; [intros H; destruct (F0 _ _ H)|]. intros (L' & _). tauto. }
  assert (N : Ps <> []) by (intros ->; apply E; reflexivity).
  transitivity (exists rs, Forall2 loop1 (combine Ps Qs) rs /\ o = Prod rs); [|tauto].
  assert (NC : combine Ps Qs <> []).
  { destruct Ps; [tauto|]. destruct Qs; [discriminate L | discriminate]. }
  revert NC. generalize (combine Ps Qs). intros pqs NC. clear E L N.
  rewrite sem_bind. split.
  - intros (ps & H0 & H). apply sat_mmap in H0. destruct ps as [|p0 ps].
    { destruct (F0 _ _ H). }
    apply sem_bind in H. destruct H as ([r p0'] & H1 & H). apply sem_bind in H. destruct H as (a & H2 & H).
    assert (HS : sem ('(res, p0) <- firstPair p0 ;; mfold tripleOne ps (res, [p0])) a).
    { apply sem_bind. exists (r, p0'). split; [exact H1 | exact H2]. }
    apply start_split in HS. destruct HS as (xs & -> & F1). clear H1 H2.
    unfold st in H at 1. apply sem_bind in H. destruct H as (c & H3 & H).
    fold (st xs) in H3. apply iters_split in H3. destruct H3 as (ys & -> & F2).
    unfold st in H. apply sem_bind in H. destruct H as (z & H4 & H).
    apply sem_ret_inv in H. subst o. rewrite E12_Square_eq, Prod_sq in H4.
    rewrite <- (E12_1_l (Prod (map fst (map sqx ys)))) in H4. apply tangent_split in H4.
    destruct H4 as (rs & -> & F3). rewrite E12_1_l, Conj_Prod.
    exists (map E12_Conjugate rs). split; [|reflexivity].
    assert (F4 : Forall2 (fun z r => r = E12_Conjugate z) rs (map E12_Conjugate rs)).
    { clear. induction rs; constructor; auto. }
    unfold loop1. apply Forall2_comp. exists (p0 :: ps). split; [exact H0|].
    apply Forall2_comp. exists xs. split; [exact F1|].
    apply Forall2_comp. exists ys. split; [exact F2|].
    apply Forall2_comp. exists rs. split; [exact F3 | exact F4].
  - intros (rs & F & ->). unfold loop1 in F.
    apply Forall2_comp in F. destruct F as (pps & F0' & F).
    apply Forall2_comp in F. destruct F as (xs & F1 & F).
    apply Forall2_comp in F. destruct F as (ys & F2 & F).
    apply Forall2_comp in F. destruct F as (zs & F3 & F).
    exists pps. split; [apply sat_mmap; exact F0'|].
    destruct pps as [|p0 ps]; [inversion F0'; subst; tauto|].
    assert (HS : sem ('(res, p0) <- firstPair p0 ;; mfold tripleOne ps (res, [p0])) (st xs)).
    { apply start_split. exists xs. split; [reflexivity | exact F1]. }
    apply sem_bind in HS. destruct HS as ([r p0'] & H1 & H2).
    apply sem_bind. exists (r, p0'). split; [exact H1|].
    apply sem_bind. exists (st xs). split; [exact H2|]. unfold st at 1.
    apply sem_bind. exists (st ys). split.
    { fold (st xs). apply iters_split. exists ys. split; [reflexivity | exact F2]. }
    unfold st at 1. apply sem_bind. exists (Prod zs). split.
    { rewrite E12_Square_eq, Prod_sq. rewrite <- (E12_1_l (Prod (map fst (map sqx ys)))), <- (E12_1_l (Prod zs)).
      apply tangent_split. exists zs. split; [reflexivity | exact F3]. }
    apply sem_ret. rewrite Conj_Prod. f_equal. clear - F.
    induction F as [|z r zs rs E F IH]; cbn [map]; [reflexivity | now rewrite IH, E].
Qed.

Lemma miller_one P Q r : sem (MillerLoop [P] [Q]) r <-> loop1 (P, Q) r.
Proof.
  rewrite miller_split. cbn [combine]. split.
  - intros (_ & _ & rs & F & ->). inversion F as [|x y ? l H F' E1 E2]; subst. inversion F'; subst.
    cbn [fold_right]. now rewrite E12_1_r.
  - intros H. split; [reflexivity|]. split; [discriminate|]. exists [r].
    split; [constructor; [exact H | constructor]|]. cbn [fold_right]. now rewrite E12_1_r.
Qed.

Theorem miller_product Ps Qs o :
  sem (MillerLoop Ps Qs) o <->
  length Ps = length Qs /\ Ps <> [] /\
  exists rs, Forall2 (fun pq r => sem (MillerLoop [fst pq] [snd pq]) r) (combine Ps Qs) rs /\ o = Prod rs.
Proof.
  rewrite miller_split. split; intros (L & N & rs & F & E);
    (split; [exact L|]; split; [exact N|]; exists rs; split; [|exact E]).
  - clear - F sem_bind sem_ret sem_fail. induction F as [|[P Q] r l rs H F IH]; constructor; [|exact IH]. now apply miller_one.
  - clear - F sem_bind sem_ret sem_fail. induction F as [|[P Q] r l rs H F IH]; constructor; [|exact IH]. now apply miller_one.
Qed.
End Sem.
