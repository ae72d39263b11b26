(** The three intersections of a chord or tangent with the curve. *)
From Coq Require Import Ring Field.
From Verif Require Import CurveSpec EcIdeal.
Section V.
Variable F : Type.
Variables (zero one : F) (add mul sub : F -> F -> F) (opp : F -> F) (div : F -> F -> F) (inv : F -> F).
Hypothesis FT : field_theory zero one add mul sub opp div inv eq.
Add Field FfV : FT.
Variables a b : F.
Lemma cancelF c x y : c <> zero -> mul c x = mul c y -> x = y.
Proof.
  intros N E. transitivity (mul (mul (inv c) c) x); [rewrite (Finv_l FT c N); ring|].
  transitivity (mul (inv c) (mul c y)); [rewrite <- E; ring|]. transitivity (mul (mul (inv c) c) y); [ring | rewrite (Finv_l FT c N); ring].
Qed.
Lemma minusF x y : x = y -> sub x y = zero. Proof. intros ->. ring. Qed.
Lemma minusF' x y : sub x y = zero -> x = y. Proof. intros H. transitivity (add (sub x y) y); [ring | rewrite H; ring]. Qed.
Lemma lf_vieta P Q S l m : on_curve F add mul a b P -> on_curve F add mul a b Q -> is_lf F zero one add mul sub opp a P Q S (LLine l m) ->
  exists x1 y1 x2 y2 x3 y3, P = Aff x1 y1 /\ Q = Aff x2 y2 /\ S = Aff x3 y3 /\
    y1 = add (mul l x1) m /\ y2 = add (mul l x2) m /\ opp y3 = add (mul l x3) m /\
    add (add x1 x2) x3 = mul l l /\
    add (add (mul x1 x2) (mul x1 x3)) (mul x2 x3) = sub a (add (mul l m) (mul l m)) /\
    mul (mul x1 x2) x3 = sub (mul m m) b.
Proof.
  intros HP HQ H.
  assert (G : forall x1 x2 x3 y1, y1 = add (mul l x1) m -> on_curve F add mul a b (Aff x1 y1) -> add (add x1 x2) x3 = mul l l ->
    add (add (mul x1 x2) (mul x1 x3)) (mul x2 x3) = sub a (add (mul l m) (mul l m)) -> mul (mul x1 x2) x3 = sub (mul m m) b).
  { intros x1 x2 x3 y1 -> C E1 E2. cbn [on_curve] in C.
    transitivity (add (sub (mul (mul x1 x1) x1) (mul (mul x1 x1) (add (add x1 x2) x3))) (mul x1 (add (add (mul x1 x2) (mul x1 x3)) (mul x2 x3)))); [ring|]. rewrite E1, E2.
    apply minusF'. transitivity (sub (add (add (mul (mul x1 x1) x1) (mul a x1)) b) (mul (add (mul l x1) m) (add (mul l x1) m))); [ring|]. rewrite C. ring. }
  inversion H as [ | | | |x1 y1 x2 y2 l0 m0 N Y1 Y2 | x y l0 m0 N T Y]; subst P Q S l0 m0.
  - exists x1, y1, x2, y2. do 2 eexists. do 3 (split; [reflexivity|]). split; [exact Y1|]. split; [exact Y2|].
    split; [rewrite Y1; ring|]. assert (E1 : add (add x1 x2) (sub (sub (mul l l) x1) x2) = mul l l) by ring. split; [exact E1|].
    assert (E2 : add (add (mul x1 x2) (mul x1 (sub (sub (mul l l) x1) x2))) (mul x2 (sub (sub (mul l l) x1) x2)) = sub a (add (mul l m) (mul l m))).
    { apply (cancelF (sub x1 x2)); [intros Z; apply N, minusF', Z|]. rewrite Y1 in HP. rewrite Y2 in HQ. cbn [on_curve] in HP, HQ.
      apply minusF'.
      transitivity (sub (sub (mul (add (mul l x1) m) (add (mul l x1) m)) (add (add (mul (mul x1 x1) x1) (mul a x1)) b)) (sub (mul (add (mul l x2) m) (add (mul l x2) m)) (add (add (mul (mul x2 x2) x2) (mul a x2)) b))); [ring|].
      rewrite HP, HQ. ring. }
    split; [exact E2|]. exact (G x1 x2 _ y1 Y1 HP E1 E2).
  - exists x, y, x, y. do 2 eexists. do 3 (split; [reflexivity|]). split; [exact Y|]. split; [exact Y|].
    split; [rewrite Y; ring|]. assert (E1 : add (add x x) (sub (sub (mul l l) x) x) = mul l l) by ring. split; [exact E1|].
    assert (E2 : add (add (mul x x) (mul x (sub (sub (mul l l) x) x))) (mul x (sub (sub (mul l l) x) x)) = sub a (add (mul l m) (mul l m))).
    { apply minusF'. transitivity (sub (mul l (add y y)) (add (mul (add (add one one) one) (mul x x)) a)); [rewrite Y; ring | rewrite T; ring]. }
    split; [exact E2|]. exact (G x x _ y Y HP E1 E2).
Qed.
End V.
