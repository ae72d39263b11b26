(** Associativity of the chord-tangent law, by classes of ideals of the
    coordinate ring.  This file is abstract: the coordinate ring K is any ring
    with the two properties [Hreg] and [Hnp]; EcPoly.v supplies it. *)
From Coq Require Import List Permutation Ring Field Setoid.
From Verif Require Import CurveSpec.
Import ListNotations.

(** ** Finitely generated ideals of a commutative ring *)
Section Ideal.
Variable K : Type.
Variables (k0 k1 : K) (kadd kmul ksub : K -> K -> K) (kopp : K -> K).
Hypothesis KR : ring_theory k0 k1 kadd kmul ksub kopp eq.
Add Ring Kring : KR.
Local Infix "+" := kadd.
Local Infix "*" := kmul.
Local Infix "-" := ksub.

Fixpoint mem (l : list K) (z : K) : Prop :=
  match l with
  | [] => z = k0
  | g :: l => exists c, mem l (z - c * g)
  end.
Lemma mem_0 l : mem l k0.
Proof. induction l as [|g l IH]; [reflexivity|]. exists k0. now replace (k0 - k0 * g) with k0 by ring. Qed.
Lemma mem_add l : forall z w, mem l z -> mem l w -> mem l (z + w).
Proof.
  induction l as [|g l IH]; cbn [mem]; intros z w Hz Hw; [subst; ring|].
  destruct Hz as [c Hz], Hw as [d Hw]. exists (c + d). replace (z + w - (c + d) * g) with ((z - c * g) + (w - d * g)) by ring. auto.
Qed.
Lemma mem_scale l : forall r z, mem l z -> mem l (r * z).
Proof.
  induction l as [|g l IH]; cbn [mem]; intros r z Hz; [subst; ring|].
  destruct Hz as [c Hz]. exists (r * c). replace (r * z - r * c * g) with (r * (z - c * g)) by ring. auto.
Qed.
Lemma mem_in l g : In g l -> mem l g.
Proof.
  induction l as [|h l IH]; [intros []|]. intros [->|H].
  - exists k1. replace (g - k1 * g) with k0 by ring. apply mem_0.
  - exists k0. replace (g - k0 * h) with g by ring. auto.
Qed.
Definition sub (l m : list K) : Prop := forall z, mem l z -> mem m z.
Lemma sub_gens l m : Forall (mem m) l -> sub l m.
Proof.
  induction 1 as [|g l Hg F IH]; intros z Hz; cbn [mem] in Hz; [subst; apply mem_0|].
  destruct Hz as [c Hz]. replace z with ((z - c * g) + c * g) by ring. apply mem_add; [now apply IH | now apply mem_scale].
Qed.
Definition equ (l m : list K) : Prop := sub l m /\ sub m l.
Lemma equ_refl l : equ l l. Proof. split; intros z; auto. Qed.
Lemma equ_sym l m : equ l m -> equ m l. Proof. intros [A B]. now split. Qed.
Lemma equ_trans l m n : equ l m -> equ m n -> equ l n.
Proof. intros [A B] [C D]. split; intros z Hz; auto. Qed.

Definition prod (l m : list K) : list K := flat_map (fun g => map (kmul g) m) l.
Lemma prod_in l m g h : In g l -> In h m -> In (g * h) (prod l m).
Proof. intros Hg Hh. apply in_flat_map. exists g. split; [exact Hg|]. now apply in_map. Qed.
Lemma prod_inv l m z : In z (prod l m) -> exists g h, In g l /\ In h m /\ z = g * h.
Proof. intros H. apply in_flat_map in H. destruct H as (g & Hg & H). apply in_map_iff in H. destruct H as (h & <- & Hh). eauto. Qed.
Lemma mem_mulr m n r : Forall (fun h => mem n (r * h)) m -> forall z, mem m z -> mem n (r * z).
Proof.
  induction 1 as [|g l Hg F IH]; intros z Hz; cbn [mem] in Hz; [subst; replace (r * k0) with k0 by ring; apply mem_0|].
  destruct Hz as [c Hz]. replace (r * z) with (r * (z - c * g) + c * (r * g)) by ring. apply mem_add; [now apply IH | now apply mem_scale].
Qed.
Lemma prod_mem l m a b : mem l a -> mem m b -> mem (prod l m) (a * b).
Proof.
  intros Ha Hb. replace (a * b) with (b * a) by ring. apply (mem_mulr l); [|exact Ha]. apply Forall_forall. intros g Hg.
  replace (b * g) with (g * b) by ring. apply (mem_mulr m); [|exact Hb]. apply Forall_forall. intros h Hh. apply mem_in. now apply prod_in.
Qed.
Lemma prod_sub l l' m m' : sub l l' -> sub m m' -> sub (prod l m) (prod l' m').
Proof.
  intros A B. apply sub_gens. apply Forall_forall. intros z Hz. apply prod_inv in Hz. destruct Hz as (g & h & Hg & Hh & ->).
  apply prod_mem; [apply A | apply B]; now apply mem_in.
Qed.
Lemma prod_equ l l' m m' : equ l l' -> equ m m' -> equ (prod l m) (prod l' m').
Proof. intros [A B] [C D]. split; now apply prod_sub. Qed.
Lemma prod_comm_sub l m : sub (prod l m) (prod m l).
Proof.
  apply sub_gens. apply Forall_forall. intros z Hz. apply prod_inv in Hz. destruct Hz as (g & h & Hg & Hh & ->).
  replace (g * h) with (h * g) by ring. apply mem_in. now apply prod_in.
Qed.
Lemma prod_comm l m : equ (prod l m) (prod m l). Proof. split; apply prod_comm_sub. Qed.
Lemma prod_assoc l m n : equ (prod l (prod m n)) (prod (prod l m) n).
Proof.
  split; apply sub_gens, Forall_forall; intros z Hz; apply prod_inv in Hz; destruct Hz as (g & h & Hg & Hh & ->).
  - apply prod_inv in Hh. destruct Hh as (a & b & Ha & Hb & ->). replace (g * (a * b)) with ((g * a) * b) by ring.
    apply mem_in. apply prod_in; [|exact Hb]. now apply prod_in.
  - apply prod_inv in Hg. destruct Hg as (a & b & Ha & Hb & ->). replace ((a * b) * h) with (a * (b * h)) by ring.
    apply mem_in. apply prod_in; [exact Ha|]. now apply prod_in.
Qed.
Lemma prod_one l : equ (prod [k1] l) l.
Proof.
  split; apply sub_gens, Forall_forall; intros z Hz.
  - apply prod_inv in Hz. destruct Hz as (g & h & [<-|[]] & Hh & ->). replace (k1 * h) with h by ring. now apply mem_in.
  - replace z with (k1 * z) by ring. apply mem_in. apply prod_in; [now left | exact Hz].
Qed.

(** regular elements, and ideals up to a regular factor *)
Definition regular (f : K) : Prop := forall z, f * z = k0 -> z = k0.
Lemma regular_1 : regular k1. Proof. intros z H. rewrite <- H. ring. Qed.
Lemma regular_mul f g : regular f -> regular g -> regular (f * g).
Proof. intros A B z H. apply B, A. rewrite <- H. ring. Qed.
Lemma regular_factor f g : regular (f * g) -> regular f.
Proof. intros A z H. apply A. replace (f * g * z) with (g * (f * z)) by ring. rewrite H. ring. Qed.
Definition rel (l m : list K) : Prop :=
  exists f g, regular f /\ regular g /\ equ (prod [f] l) (prod [g] m).
Lemma rel_equ l m : equ l m -> rel l m.
Proof. intros H. exists k1, k1. split; [apply regular_1|]. split; [apply regular_1|]. apply prod_equ; [apply equ_refl | exact H]. Qed.
Lemma rel_refl l : rel l l. Proof. apply rel_equ, equ_refl. Qed.
Lemma rel_sym l m : rel l m -> rel m l.
Proof. intros (f & g & Hf & Hg & H). exists g, f. auto using equ_sym. Qed.
Lemma prod_11 f g l : equ (prod [f] (prod [g] l)) (prod [f * g] l).
Proof. apply (prod_assoc [f] [g] l). Qed.
Lemma prod_11c f g l : equ (prod [f * g] l) (prod [g * f] l).
Proof. replace (f * g) with (g * f) by ring. apply equ_refl. Qed.
Lemma rel_trans l m n : rel l m -> rel m n -> rel l n.
Proof.
  intros (f & g & Hf & Hg & H) (f' & g' & Hf' & Hg' & H'). exists (f' * f), (g * g').
  split; [now apply regular_mul|]. split; [now apply regular_mul|].
  eapply equ_trans; [apply equ_sym, prod_11|]. eapply equ_trans; [exact (prod_equ _ _ _ _ (equ_refl [f']) H)|].
  eapply equ_trans; [apply prod_11|]. eapply equ_trans; [apply prod_11c|]. eapply equ_trans; [apply equ_sym, prod_11|].
  eapply equ_trans; [exact (prod_equ _ _ _ _ (equ_refl [g]) H')|]. apply prod_11.
Qed.
Lemma prod_swap l m n o : equ (prod (prod l m) (prod n o)) (prod (prod l n) (prod m o)).
Proof.
  eapply equ_trans; [apply equ_sym, prod_assoc|]. eapply equ_trans; [|apply prod_assoc]. apply prod_equ; [apply equ_refl|].
  eapply equ_trans; [apply prod_assoc|]. eapply equ_trans; [|apply equ_sym, prod_assoc]. apply prod_equ; [apply prod_comm | apply equ_refl].
Qed.
Lemma rel_prod l l' m m' : rel l l' -> rel m m' -> rel (prod l m) (prod l' m').
Proof.
  intros (f & g & Hf & Hg & H) (f' & g' & Hf' & Hg' & H'). exists (f * f'), (g * g').
  split; [now apply regular_mul|]. split; [now apply regular_mul|].
  change [f * f'] with (prod [f] [f']). change [g * g'] with (prod [g] [g']).
  eapply equ_trans; [apply prod_swap|]. eapply equ_trans; [|apply prod_swap]. now apply prod_equ.
Qed.
Lemma rel_cancel l l' m m' : rel (prod m m') [k1] -> rel (prod l m) (prod l' m) -> rel l l'.
Proof.
  intros U H. pose proof (rel_prod _ _ _ _ H (rel_refl m')) as H1.
  assert (G : forall n, rel (prod (prod n m) m') n).
  { intros n. eapply rel_trans; [apply rel_equ, equ_sym, prod_assoc|]. eapply rel_trans; [apply rel_prod; [apply rel_refl | exact U]|].
    apply rel_equ. eapply equ_trans; [apply prod_comm | apply prod_one]. }
  eapply rel_trans; [apply rel_sym, G|]. eapply rel_trans; [exact H1 | apply G].
Qed.
(** an ideal that is principal up to a regular factor is principal *)
Lemma prod_1 f l z : mem (prod [f] l) z -> exists w, z = f * w /\ mem l w.
Proof.
  unfold prod. cbn [flat_map]. rewrite app_nil_r. revert z. induction l as [|g l IH]; cbn [map mem]; intros z H.
  - exists k0. split; [subst; ring | reflexivity].
  - destruct H as [c H]. destruct (IH _ H) as (w & E & Hw). exists (w + c * g). split.
    + replace (f * (w + c * g)) with (f * w + c * (f * g)) by ring. rewrite <- E. ring.
    + exists c. now replace (w + c * g - c * g) with w by ring.
Qed.
Lemma rel_principal l : rel l [k1] -> exists h, mem l h /\ sub l [h].
Proof.
  intros (f & g & Hf & Hg & A & B). assert (G : mem (prod [g] [k1]) g).
  { exists k1. cbn. ring. }
  apply B, prod_1 in G. destruct G as (h & E & Hh). exists h. split; [exact Hh|]. intros z Hz.
  assert (Z : mem (prod [g] [k1]) (f * z)).
  { apply A. apply prod_mem; [apply mem_in; now left | exact Hz]. }
  apply prod_1 in Z. destruct Z as (w & E' & _). exists w. cbn [mem]. apply Hf.
  replace (f * (z - w * h)) with (f * z - w * (f * h)) by ring. rewrite E', E. ring.
Qed.
End Ideal.

(** a line, as a function on the curve: 1, X - x, or Y - (l X + m) *)
Inductive lfun (F : Type) : Type := LOne | LVert (x : F) | LLine (l m : F).
Arguments LOne {F}.
Arguments LVert {F} x.
Arguments LLine {F} l m.

(** ** Points and ideals *)
Section Assoc.
Variable F : Type.
Variables (zero one : F) (add mul sub' : F -> F -> F) (opp : F -> F) (div : F -> F -> F) (inv : F -> F).
Hypothesis FT : field_theory zero one add mul sub' opp div inv eq.
Hypothesis Fdec : forall x y : F, {x = y} + {x <> y}.
Add Field Ffield : FT.
Variables a b : F.
Notation pt := (point F).
Notation oncurve := (on_curve F add mul a b).
Notation ecadd := (ec_add F zero one add mul sub' opp a).
Notation neg := (pneg F opp).
Lemma vieta l m x1 x2 x3 :
  add (mul (mul l l) (add x1 x2)) (mul (add l l) m) = add (add (mul x1 x1) (add (mul x1 x2) (mul x2 x2))) a ->
  x3 = sub' (sub' (mul l l) x1) x2 ->
  mul (add (mul l x1) m) (add (mul l x1) m) = add (add (mul (mul x1 x1) x1) (mul a x1)) b ->
  add (mul x1 x2) (mul (add x1 x2) x3) = sub' a (mul (add l l) m) /\ mul (mul x1 x2) x3 = sub' (mul m m) b.
Proof.
  intros A0 E3 C1.
  assert (A1 : add (mul x1 x2) (mul (add x1 x2) x3) = sub' a (mul (add l l) m)).
  { subst x3. transitivity (sub' (add (mul (mul l l) (add x1 x2)) (mul (add l l) m)) (add (mul (add l l) m) (sub' (mul (add x1 x2) (add x1 x2)) (mul x1 x2)))); [ring|].
    rewrite A0. ring. }
  assert (A2 : mul (mul x1 x2) x3 = sub' (mul m m) b).
  { transitivity (sub' (mul (add (mul x1 x2) (mul (add x1 x2) x3)) x1) (mul (mul x1 x1) (add x2 (sub' x3 zero)))); [ring|].
    rewrite A1. subst x3.
    transitivity (sub' (add (mul m m) (add (mul (mul x1 x1) x1) (mul a x1))) (mul (add (mul l x1) m) (add (mul l x1) m))); [ring|]. rewrite C1. ring. }
  now split.
Qed.
(** what chord and tangent have in common *)
Lemma add_line P Q S : oncurve P -> oncurve Q -> ecadd P Q S ->
  (P = Inf /\ S = Q) \/ (Q = Inf /\ S = P) \/ (Q = neg P /\ S = Inf) \/
  exists l m x1 y1 x2 y2 x3 y3, P = Aff x1 y1 /\ Q = Aff x2 y2 /\ S = Aff x3 y3 /\
    y1 = add (mul l x1) m /\ y2 = add (mul l x2) m /\
    add (mul (mul l l) (add x1 x2)) (mul (add l l) m) = add (add (mul x1 x1) (add (mul x1 x2) (mul x2 x2))) a /\
    x3 = sub' (sub' (mul l l) x1) x2 /\ y3 = opp (add (mul l x3) m) /\
    mul y1 y1 = add (add (mul (mul x1 x1) x1) (mul a x1)) b /\
    (x1 <> x2 \/ (x1 = x2 /\ add y1 y1 <> zero)).
Proof.
  intros HP HQ H. destruct H as [Q|P|x y y' E|x1 y1 x2 y2 l N E|x y l N E].
  - left. auto.
  - right. left. auto.
  - right. right. left. subst. auto.
  - right. right. right. cbn [on_curve] in HP, HQ.
    assert (N' : sub' x1 x2 <> zero). { intros Z. apply N. transitivity (add (sub' x1 x2) x2); [ring|]. rewrite Z. ring. }
    exists l, (sub' y1 (mul l x1)), x1, y1, x2, y2, (sub' (sub' (mul l l) x1) x2),
      (sub' (mul l (sub' x1 (sub' (sub' (mul l l) x1) x2))) y1).
    split; [reflexivity|]. split; [reflexivity|]. split; [reflexivity|]. split; [ring|].
    assert (E2 : y2 = add (mul l x2) (sub' y1 (mul l x1))).
    { transitivity (add y1 (sub' y2 y1)); [ring|]. rewrite <- E. ring. }
    split; [exact E2|]. split; [|split; [reflexivity|]; split; [ring|]; split; [exact HP | now left]].
    assert (D : mul (sub' x1 x2) (add (mul (mul l l) (add x1 x2)) (mul (add l l) (sub' y1 (mul l x1)))) =
                mul (sub' x1 x2) (add (add (mul x1 x1) (add (mul x1 x2) (mul x2 x2))) a)).
    { transitivity (sub' (mul y1 y1) (mul (add (mul l x2) (sub' y1 (mul l x1))) (add (mul l x2) (sub' y1 (mul l x1))))); [ring|].
      rewrite <- E2, HP, HQ. ring. }
    transitivity (mul (inv (sub' x1 x2)) (mul (sub' x1 x2) (add (mul (mul l l) (add x1 x2)) (mul (add l l) (sub' y1 (mul l x1)))))); [field; exact N'|].
    rewrite D. field. exact N'.
  - right. right. right. cbn [on_curve] in HP.
    exists l, (sub' y (mul l x)), x, y, x, y, (sub' (sub' (mul l l) x) x), (sub' (mul l (sub' x (sub' (sub' (mul l l) x) x))) y).
    split; [reflexivity|]. split; [reflexivity|]. split; [reflexivity|]. split; [ring|]. split; [ring|].
    split; [|split; [reflexivity|]; split; [ring|]; split; [exact HP | right; now split]].
    transitivity (mul l (add y y)); [ring|]. rewrite E. ring.
Qed.
Lemma add_closed P Q S : oncurve P -> oncurve Q -> ecadd P Q S -> oncurve S.
Proof.
  intros HP HQ H. destruct (add_line P Q S HP HQ H) as [[_ ->]|[[_ ->]|[[_ ->]|(l & m & x1 & y1 & x2 & y2 & x3 & y3 & EP & EQ & -> & E1 & E2 & A0 & E3 & E4 & C & _)]]];
    [exact HQ | exact HP | exact Logic.I |].
  rewrite E1 in C. destruct (vieta l m x1 x2 x3 A0 E3 C) as [A1 A2]. cbn [on_curve]. rewrite E4.
  transitivity (add (add (mul (mul l l) (mul x3 x3)) (mul (mul (add l l) m) x3)) (mul m m)); [ring|].
  transitivity (sub' (add (add (mul (mul x3 x3) x3) (mul a x3)) b) (sub' (add (sub' (mul (mul x3 x3) x3) (mul (mul l l) (mul x3 x3))) (mul (sub' a (mul (add l l) m)) x3)) (sub' (mul m m) b))); [ring|].
  rewrite <- A1, <- A2.
  replace (mul l l) with (add x3 (add x1 x2)) by (rewrite E3; ring). ring.
Qed.
Lemma neg_closed P : oncurve P -> oncurve (neg P).
Proof. destruct P as [|x y]; [auto|]. cbn [pneg on_curve]. intros <-. ring. Qed.
Lemma integral x y : mul x y = zero -> x = zero \/ y = zero.
Proof.
  intros H. destruct (Fdec x zero) as [E|N]; [now left|]. right. transitivity (mul (inv x) (mul x y)); [field; exact N|]. rewrite H. ring.
Qed.
Theorem add_total P Q : oncurve P -> oncurve Q -> exists S, ecadd P Q S.
Proof.
  destruct P as [|x1 y1]; [intros; exists Q; constructor|]. destruct Q as [|x2 y2]; [intros; exists (Aff x1 y1); constructor|].
  cbn [on_curve]. intros HP HQ. destruct (Fdec x1 x2) as [<-|N].
  - destruct (Fdec y2 (opp y1)) as [E|N]; [exists Inf; now constructor|].
    assert (E : y2 = y1).
    { assert (Z : mul (sub' y2 y1) (add y2 y1) = zero). { transitivity (sub' (mul y2 y2) (mul y1 y1)); [ring|]. rewrite HP, HQ. ring. }
      apply integral in Z. destruct Z as [Z|Z]; [transitivity (add (sub' y2 y1) y1); [ring|]; rewrite Z; ring|].
      exfalso. apply N. transitivity (sub' (add y2 y1) y1); [ring|]. rewrite Z. ring. }
    subst y2. assert (N' : add y1 y1 <> zero). { intros Z. apply N. transitivity (sub' (add y1 y1) y1); [ring|]. rewrite Z. ring. }
    eexists. apply (add_tangent _ _ _ _ _ _ _ _ _ _ (mul (add (mul (add (add one one) one) (mul x1 x1)) a) (inv (add y1 y1)))); [exact N'|].
    field. exact N'.
  - assert (N' : sub' x2 x1 <> zero). { intros Z. apply N. transitivity (sub' x2 (sub' x2 x1)); [ring|]. rewrite Z. ring. }
    eexists. apply (add_chord _ _ _ _ _ _ _ _ _ _ _ _ (mul (sub' y2 y1) (inv (sub' x2 x1)))); [exact N|]. field. exact N'.
Qed.
Lemma add_comm P Q S : ecadd P Q S -> ecadd Q P S.
Proof.
  destruct 1 as [Q|P|x y y' E|x1 y1 x2 y2 l N E|x y l N E].
  - apply add_inf_r.
  - apply add_inf_l.
  - apply add_opp. subst. ring.
  - assert (G : third F mul sub' l x1 y1 x2 = third F mul sub' l x2 y2 x1).
    { unfold third. f_equal; [ring|]. transitivity (sub' (sub' (mul l (sub' x2 (sub' (sub' (mul l l) x2) x1))) (mul l (sub' x2 x1))) y1); [ring|].
      rewrite E. ring. }
    rewrite G. apply add_chord; [congruence|]. transitivity (opp (mul l (sub' x2 x1))); [ring|]. rewrite E. ring.
  - now apply add_tangent.
Qed.
Lemma neg_neg P : neg (neg P) = P.
Proof. destruct P as [|x y]; [reflexivity|]. cbn [pneg]. f_equal. ring. Qed.
Lemma add_neg P : ecadd P (neg P) Inf.
Proof. destruct P as [|x y]; constructor. reflexivity. Qed.
Lemma add_Inf_inv P Q S : ecadd P Q S -> S = Inf -> Q = neg P.
Proof. destruct 1; intros HS; subst; try discriminate; reflexivity. Qed.
Variable K : Type.
Variables (k0 k1 : K) (kadd kmul ksub : K -> K -> K) (kopp : K -> K).
Hypothesis KR : ring_theory k0 k1 kadd kmul ksub kopp eq.
Add Ring Kring2 : KR.
Variable c : F -> K.
Hypothesis c0 : c zero = k0.
Hypothesis c1 : c one = k1.
Hypothesis cadd : forall x y, c (add x y) = kadd (c x) (c y).
Hypothesis cmul : forall x y, c (mul x y) = kmul (c x) (c y).
Variables X Y : K.
Hypothesis HXY : kmul Y Y = kadd (kadd (kmul X (kmul X X)) (kmul (c a) X)) (c b).

Notation mem := (mem K k0 kmul ksub).
Notation regular := (regular K k0 kmul).
Notation prod := (prod K kmul).
Notation rel := (rel K k0 kmul ksub).
Notation equ := (equ K k0 kmul ksub).

Definition I (P : pt) : list K :=
  match P with Inf => [k1] | Aff x y => [ksub X (c x); ksub Y (c y)] end.
Hypothesis Hreg : forall x, regular (ksub X (c x)).
Hypothesis Hnp : forall x y h, oncurve (Aff x y) -> mem (I (Aff x y)) h -> mem [h] (ksub X (c x)) -> mem [h] (ksub Y (c y)) -> False.
(** no singular point *)
Hypothesis Hns : forall x y, oncurve (Aff x y) -> add y y <> zero \/ add (mul (add (add one one) one) (mul x x)) a <> zero.

Lemma copp x : c (opp x) = kopp (c x).
Proof.
  assert (H : kadd (c x) (c (opp x)) = k0). { rewrite <- cadd, <- c0. f_equal. ring. }
  replace (c (opp x)) with (kadd (kadd (c x) (c (opp x))) (kopp (c x))) by ring. rewrite H. ring.
Qed.
Lemma csub x y : c (sub' x y) = ksub (c x) (c y).
Proof. replace (sub' x y) with (add x (opp y)) by ring. rewrite cadd, copp. ring. Qed.
Lemma cinv x : x <> zero -> kmul (c (inv x)) (c x) = k1.
Proof. intros H. rewrite <- cmul, <- c1. f_equal. field. exact H. Qed.
Ltac cpush := repeat first [rewrite cadd | rewrite cmul | rewrite csub | rewrite copp | rewrite c0 | rewrite c1].

Lemma mem2 g h z u v : z = kadd (kmul u g) (kmul v h) -> mem [g; h] z.
Proof. intros ->. exists u, v. cbn. ring. Qed.
Lemma mem4 g1 g2 g3 g4 z u1 u2 u3 u4 : z = kadd (kadd (kmul u1 g1) (kmul u2 g2)) (kadd (kmul u3 g3) (kmul u4 g4)) -> mem [g1; g2; g3; g4] z.
Proof. intros ->. exists u1, u2, u3, u4. cbn. ring. Qed.
Lemma mem1 g z u : z = kmul u g -> mem [g] z.
Proof. intros ->. exists u. cbn. ring. Qed.
Lemma rel_of l m f g : regular f -> regular g -> equ (prod [f] l) (prod [g] m) -> rel l m.
Proof. intros. now exists f, g. Qed.

(** the vertical through P meets the curve in P and -P *)
Definition vert (P : pt) : K := match P with Inf => k1 | Aff x y => ksub X (c x) end.
Lemma vert_reg P : regular (vert P).
Proof. destruct P as [|x y]; [apply regular_1 with (1 := KR) | apply Hreg]. Qed.
Lemma ideal_vert P : oncurve P -> equ (prod (I P) (I (neg P))) [vert P].
Proof.
  destruct P as [|x y]; intros H.
  - apply prod_one with (1 := KR).
  - cbn [vert pneg I EcIdeal.prod flat_map map app].
    assert (E : kmul (ksub Y (c y)) (ksub Y (c (opp y))) =
      kmul (ksub X (c x)) (kadd (kadd (kmul X X) (kmul X (c x))) (kadd (kmul (c x) (c x)) (c a)))).
    { rewrite copp. cbn [on_curve] in H. apply (f_equal c) in H. rewrite !cadd, !cmul in H.
      transitivity (ksub (kmul Y Y) (kmul (c y) (c y))); [ring|]. rewrite HXY, H. ring. }
    split; apply sub_gens with (1 := KR); repeat apply Forall_cons; try apply Forall_nil.
    + apply mem1 with (u := ksub X (c x)). ring.
    + apply mem1 with (u := ksub Y (c (opp y))). ring.
    + apply mem1 with (u := ksub Y (c y)). ring.
    + eapply mem1. rewrite E. rewrite (Rmul_comm KR (ksub X (c x))) at 1. reflexivity.
    + destruct (Hns x y H) as [N|N].
      * pose proof (cinv _ N) as J. set (i := c (inv (add y y))) in *.
        apply mem4 with (u1 := k0) (u2 := i) (u3 := kopp i) (u4 := k0). rewrite copp.
        rewrite cadd in J. transitivity (kmul (kmul i (kadd (c y) (c y))) (ksub X (c x))); [rewrite J; ring | ring].
      * pose proof (cinv _ N) as J. set (i := c (inv _)) in *.
        apply mem4 with (u1 := kopp (kmul i (kadd X (kadd (c x) (c x))))) (u2 := k0) (u3 := k0) (u4 := i). rewrite E.
        revert J. cpush. intros J.
        transitivity (kmul (kmul i (kadd (kmul (kadd (kadd k1 k1) k1) (kmul (c x) (c x))) (c a))) (ksub X (c x))); [rewrite J; ring | ring].
Qed.
Lemma I_neg P : oncurve P -> rel (prod (I P) (I (neg P))) [k1].
Proof.
  intros H. apply (rel_of _ _ k1 (vert P)); [apply regular_1 with (1 := KR) | apply vert_reg|].
  eapply equ_trans; [apply prod_one with (1 := KR)|]. eapply equ_trans; [exact (ideal_vert P H)|].
  apply equ_sym. eapply equ_trans; [apply prod_comm with (1 := KR) | apply prod_one with (1 := KR)].
Qed.

(** the line through P and Q meets the curve in P, Q and -(P+Q) *)
Lemma line_eq l m x1 x2 x3 :
  add (mul (mul l l) (add x1 x2)) (mul (add l l) m) = add (add (mul x1 x1) (add (mul x1 x2) (mul x2 x2))) a ->
  x3 = sub' (sub' (mul l l) x1) x2 ->
  mul (add (mul l x1) m) (add (mul l x1) m) = add (add (mul (mul x1 x1) x1) (mul a x1)) b ->
  kmul (kmul (ksub X (c x3)) (ksub X (c x1))) (ksub X (c x2)) =
  kmul (ksub Y (kadd (kmul (c l) X) (c m))) (kadd Y (kadd (kmul (c l) X) (c m))).
Proof.
  intros A0 E3 C1. destruct (vieta l m x1 x2 x3 A0 E3 C1) as [A1 A2].
  transitivity (ksub (kmul Y Y) (kmul (kadd (kmul (c l) X) (c m)) (kadd (kmul (c l) X) (c m)))); [|ring]. rewrite HXY.
  apply (f_equal c) in A1, A2, E3. revert A1 A2 E3. cpush. intros A1 A2 E3.
  transitivity (ksub (kadd (ksub (kmul X (kmul X X)) (kmul (kadd (kadd (c x1) (c x2)) (c x3)) (kmul X X)))
    (kmul (kadd (kmul (c x1) (c x2)) (kmul (kadd (c x1) (c x2)) (c x3))) X)) (kmul (kmul (c x1) (c x2)) (c x3))); [ring|].
  rewrite A1, A2, E3. ring.
Qed.
Definition chord (l m : F) : K := ksub Y (kadd (kmul (c l) X) (c m)).
Lemma chord_reg l m x1 x2 x3 :
  add (mul (mul l l) (add x1 x2)) (mul (add l l) m) = add (add (mul x1 x1) (add (mul x1 x2) (mul x2 x2))) a ->
  x3 = sub' (sub' (mul l l) x1) x2 ->
  mul (add (mul l x1) m) (add (mul l x1) m) = add (add (mul (mul x1 x1) x1) (mul a x1)) b -> regular (chord l m).
Proof.
  intros A0 E3 C1. pose proof (line_eq l m x1 x2 x3 A0 E3 C1) as L.
  assert (R3 : regular (kmul (kmul (ksub X (c x3)) (ksub X (c x1))) (ksub X (c x2)))).
  { apply regular_mul with (1 := KR); [apply regular_mul with (1 := KR)|]; apply Hreg. }
  rewrite L in R3. exact (regular_factor _ _ _ _ _ _ _ KR _ _ R3).
Qed.
Lemma ideal_line l m x1 y1 x2 y2 x3 y3 :
  y1 = add (mul l x1) m -> y2 = add (mul l x2) m ->
  add (mul (mul l l) (add x1 x2)) (mul (add l l) m) = add (add (mul x1 x1) (add (mul x1 x2) (mul x2 x2))) a ->
  x3 = sub' (sub' (mul l l) x1) x2 -> y3 = opp (add (mul l x3) m) ->
  mul y1 y1 = add (add (mul (mul x1 x1) x1) (mul a x1)) b ->
  x1 <> x2 \/ (x1 = x2 /\ add y1 y1 <> zero) ->
  equ (prod [ksub X (c x3)] (prod (I (Aff x1 y1)) (I (Aff x2 y2)))) (prod [chord l m] (I (Aff x3 y3))).
Proof.
  intros E1 E2 A0 E3 E3' C1 D. rewrite E1 in C1. pose proof (line_eq l m x1 x2 x3 A0 E3 C1) as L.
  unfold chord. set (ln := ksub Y (kadd (kmul (c l) X) (c m))) in *. set (ln' := kadd Y (kadd (kmul (c l) X) (c m))) in *.
  assert (Y1 : ksub Y (c y1) = kadd ln (kmul (c l) (ksub X (c x1)))).
  { rewrite E1. unfold ln. cpush. ring. }
  assert (Y2 : ksub Y (c y2) = kadd ln (kmul (c l) (ksub X (c x2)))).
  { rewrite E2. unfold ln. cpush. ring. }
  assert (Y3 : ksub Y (c y3) = ksub ln' (kmul (c l) (ksub X (c x3)))).
  { rewrite E3'. unfold ln'. cpush. ring. }
  cbn [I EcIdeal.prod flat_map map app]. rewrite Y1, Y2, Y3.
  assert (Dx : c x1 = ksub X (ksub X (c x1))) by ring. assert (Dx2 : c x2 = ksub X (ksub X (c x2))) by ring.
  assert (DL : ln' = kadd ln (kmul (kadd k1 k1) (kadd (kmul (c l) (ksub X (c x1))) (c y1)))).
  { rewrite E1. unfold ln, ln'. cpush. ring. }
  assert (G : x1 <> x2 \/ (x1 = x2 /\ exists i, kmul i (kmul (kadd k1 k1) (c y1)) = k1)).
  { destruct D as [D|[D1 D2]]; [now left|]. right. split; [exact D1|]. exists (c (inv (add y1 y1))). pose proof (cinv _ D2) as J. rewrite cadd in J.
    transitivity (kmul (c (inv (add y1 y1))) (kadd (c y1) (c y1))); [ring | exact J]. }
  clear Y1 Y2 Y3 D.
  split; apply sub_gens with (1 := KR); repeat apply Forall_cons; try apply Forall_nil.
  - rewrite (Rmul_assoc KR), L. apply mem2 with (u := c l) (v := k1). ring.
  - apply mem2 with (u := kadd (ksub X (c x1)) (kmul (c l) (c l))) (v := c l).
    transitivity (kadd (kmul (kmul (ksub X (c x3)) (ksub X (c x1))) ln) (kmul (c l) (kmul (kmul (ksub X (c x3)) (ksub X (c x1))) (ksub X (c x2))))); [ring|].
    rewrite L. ring.
  - apply mem2 with (u := kadd (ksub X (c x2)) (kmul (c l) (c l))) (v := c l).
    transitivity (kadd (kmul (kmul (ksub X (c x3)) (ksub X (c x2))) ln) (kmul (c l) (kmul (kmul (ksub X (c x3)) (ksub X (c x1))) (ksub X (c x2))))); [ring|].
    rewrite L. ring.
  - apply mem2 with (u := kadd (kadd ln (kmul (c l) (kadd (ksub X (c x1)) (ksub X (c x2))))) (kmul (c l) (kmul (c l) (c l)))) (v := kmul (c l) (c l)).
    transitivity (kadd (kmul (ksub X (c x3)) (kadd (kmul ln ln) (kmul (kmul ln (c l)) (kadd (ksub X (c x1)) (ksub X (c x2))))))
      (kmul (kmul (c l) (c l)) (kmul (kmul (ksub X (c x3)) (ksub X (c x1))) (ksub X (c x2))))); [ring|].
    rewrite L. ring.
  - destruct G as [N|[-> (i & J)]].
    + assert (N' : sub' x1 x2 <> zero). { intros Z. apply N. transitivity (add (sub' x1 x2) x2); [ring|]. rewrite Z. ring. }
      pose proof (cinv _ N') as J. set (i := c (inv _)) in *. rewrite csub in J.
      apply mem4 with (u1 := k0) (u2 := kopp i) (u3 := i) (u4 := k0).
      transitivity (kmul (kmul i (ksub (c x1) (c x2))) (kmul ln (ksub X (c x3)))); [rewrite J; ring | ring].
    + set (x := ksub X (c x2)) in *. set (s := ksub X (c x3)) in *.
      apply mem4 with (u1 := kmul i (kadd s (kmul (c l) (c l)))) (u2 := k0) (u3 := k0) (u4 := kopp i).
      transitivity (kmul i (kadd (ksub (kmul s (kmul (kmul s x) x)) (kmul (kmul s ln) ln)) (kopp (kmul (kadd k1 k1) (kmul (c l) (kmul x (kmul s ln))))))).
      2:{ ring. }
      rewrite L, DL. transitivity (kmul (kmul i (kmul (kadd k1 k1) (c y1))) (kmul ln s)); [rewrite J; ring | ring].
  - destruct G as [N|[-> (i & J)]].
    + assert (N' : sub' x1 x2 <> zero). { intros Z. apply N. transitivity (add (sub' x1 x2) x2); [ring|]. rewrite Z. ring. }
      pose proof (cinv _ N') as J. set (i := c (inv _)) in *. rewrite csub in J.
      apply mem4 with (u1 := k1) (u2 := kmul (c l) i) (u3 := kopp (kmul (c l) i)) (u4 := k0).
      transitivity (ksub (kmul ln ln') (kmul (c l) (kmul (kmul i (ksub (c x1) (c x2))) (kmul ln (ksub X (c x3)))))); [rewrite J; ring|].
      rewrite <- L. ring.
    + set (x := ksub X (c x2)) in *. set (s := ksub X (c x3)) in *.
      apply mem4 with (u1 := ksub k1 (kmul (c l) (kmul i (kadd s (kmul (c l) (c l)))))) (u2 := k0) (u3 := k0) (u4 := kmul (c l) i).
      transitivity (ksub (kmul ln ln') (kmul (c l) (kmul i (kadd (ksub (kmul s (kmul (kmul s x) x)) (kmul (kmul s ln) ln)) (kopp (kmul (kadd k1 k1) (kmul (c l) (kmul x (kmul s ln))))))))).
      2:{ rewrite <- L. ring. }
      rewrite L, DL. transitivity (ksub (kmul ln ln') (kmul (c l) (kmul (kmul i (kmul (kadd k1 k1) (c y1))) (kmul ln s)))); [rewrite J, DL; ring | rewrite DL; ring].
Qed.

(** ** The group law *)
Lemma I_add P Q S : oncurve P -> oncurve Q -> ecadd P Q S -> rel (prod (I P) (I Q)) (I S).
Proof.
  intros HP HQ H. destruct (add_line P Q S HP HQ H) as [[-> ->]|[[-> ->]|[[-> ->]|(l & m & x1 & y1 & x2 & y2 & x3 & y3 & -> & -> & -> & E1 & E2 & A0 & E3 & E4 & C & D)]]].
  - apply rel_equ with (1 := KR). apply prod_one with (1 := KR).
  - apply rel_equ with (1 := KR). eapply equ_trans; [apply prod_comm with (1 := KR) | apply prod_one with (1 := KR)].
  - now apply I_neg.
  - pose proof (ideal_line l m x1 y1 x2 y2 x3 y3 E1 E2 A0 E3 E4 C D) as L. rewrite E1 in C.
    exact (rel_of _ _ _ _ (Hreg x3) (chord_reg l m x1 x2 x3 A0 E3 C) L).
Qed.
Theorem I_inj P Q : oncurve P -> oncurve Q -> rel (I P) (I Q) -> P = Q.
Proof.
  intros HP HQ H. destruct (add_total P (neg Q) HP (neg_closed Q HQ)) as [S HS].
  pose proof (add_closed _ _ _ HP (neg_closed Q HQ) HS) as CS.
  assert (R : rel (I S) [k1]).
  { eapply rel_trans with (1 := KR); [apply rel_sym; exact (I_add _ _ _ HP (neg_closed Q HQ) HS)|].
    eapply rel_trans with (1 := KR); [apply rel_prod with (1 := KR); [exact H | apply rel_refl with (1 := KR)]|]. now apply I_neg. }
  destruct S as [|x y].
  - pose proof (add_Inf_inv _ _ _ HS eq_refl) as E. rewrite <- (neg_neg Q), E. symmetry. apply neg_neg.
  - exfalso. destruct (rel_principal _ _ _ _ _ _ _ KR _ R) as (h & M & Sb).
    apply (Hnp x y h CS M); apply Sb; apply mem_in with (1 := KR); cbn; auto.
Qed.
Theorem add_fun P Q S S' : oncurve P -> oncurve Q -> ecadd P Q S -> ecadd P Q S' -> S = S'.
Proof.
  intros HP HQ H H'. apply I_inj; [exact (add_closed _ _ _ HP HQ H) | exact (add_closed _ _ _ HP HQ H')|].
  eapply rel_trans with (1 := KR); [apply rel_sym; exact (I_add _ _ _ HP HQ H) | exact (I_add _ _ _ HP HQ H')].
Qed.
Theorem add_assoc P Q R D E G G' : oncurve P -> oncurve Q -> oncurve R ->
  ecadd P Q D -> ecadd D R G -> ecadd Q R E -> ecadd P E G' -> G = G'.
Proof.
  intros HP HQ HR H1 H2 H3 H4. pose proof (add_closed _ _ _ HP HQ H1) as HD. pose proof (add_closed _ _ _ HQ HR H3) as HE.
  apply I_inj; [exact (add_closed _ _ _ HD HR H2) | exact (add_closed _ _ _ HP HE H4)|].
  eapply rel_trans with (1 := KR); [apply rel_sym; exact (I_add _ _ _ HD HR H2)|].
  eapply rel_trans with (1 := KR); [apply rel_prod with (1 := KR); [apply rel_sym; exact (I_add _ _ _ HP HQ H1) | apply rel_refl with (1 := KR)]|].
  eapply rel_trans with (1 := KR); [apply rel_equ with (1 := KR), equ_sym, prod_assoc with (1 := KR)|].
  eapply rel_trans with (1 := KR); [apply rel_prod with (1 := KR); [apply rel_refl with (1 := KR) | exact (I_add _ _ _ HQ HR H3)]|].
  exact (I_add _ _ _ HP HE H4).
Qed.

(** ** Functions with prescribed zeros *)
(** [f] is the line through P and Q, and S = P + Q *)
Inductive is_lf : pt -> pt -> pt -> lfun F -> Prop :=
| lf_inf : is_lf Inf Inf Inf LOne
| lf_infl x y : is_lf Inf (Aff x y) (Aff x y) (LVert x)
| lf_infr x y : is_lf (Aff x y) Inf (Aff x y) (LVert x)
| lf_opp x y y' : y' = opp y -> is_lf (Aff x y) (Aff x y') Inf (LVert x)
| lf_chord x1 y1 x2 y2 l m : x1 <> x2 -> y1 = add (mul l x1) m -> y2 = add (mul l x2) m ->
    is_lf (Aff x1 y1) (Aff x2 y2) (third F mul sub' l x1 y1 x2) (LLine l m)
| lf_tan x y l m : add y y <> zero -> mul l (add y y) = add (mul (add (add one one) one) (mul x x)) a -> y = add (mul l x) m ->
    is_lf (Aff x y) (Aff x y) (third F mul sub' l x y x) (LLine l m).
Lemma lf_add P Q S f : is_lf P Q S f -> ecadd P Q S.
Proof.
  destruct 1 as [|x y|x y|x y y' E|x1 y1 x2 y2 l m N E1 E2|x y l m N E E1].
  - apply add_inf_l.
  - apply add_inf_l.
  - apply add_inf_r.
  - now apply add_opp.
  - apply add_chord; [exact N|]. rewrite E1, E2. ring.
  - now apply add_tangent.
Qed.
Lemma lf_ex P Q S : ecadd P Q S -> exists f, is_lf P Q S f.
Proof.
  destruct 1 as [[|x y]|[|x y]|x y y' E|x1 y1 x2 y2 l N E|x y l N E]; try (eexists; constructor; auto; fail).
  - exists (LLine l (sub' y1 (mul l x1))). apply lf_chord; [exact N | ring |]. transitivity (add y1 (sub' y2 y1)); [ring|]. rewrite <- E. ring.
  - exists (LLine l (sub' y (mul l x))). apply lf_tan; [exact N | exact E | ring].
Qed.
Definition kev (f : lfun F) : K := match f with LOne => k1 | LVert x => ksub X (c x) | LLine l m => chord l m end.
Definition lvert (P : pt) : lfun F := match P with Inf => LOne | Aff x y => LVert x end.
Lemma kev_vert P : kev (lvert P) = vert P. Proof. destruct P; reflexivity. Qed.
Lemma equ_cancel f l m : regular f -> equ (prod [f] l) (prod [f] m) -> equ l m.
Proof.
  intros R. assert (G : forall l m, EcIdeal.sub K k0 kmul ksub (prod [f] l) (prod [f] m) -> EcIdeal.sub K k0 kmul ksub l m).
  { clear l m. intros l m H z Hz. assert (M : mem (prod [f] l) (kmul f z)).
    { apply prod_mem with (1 := KR); [apply mem_in with (1 := KR); now left | exact Hz]. }
    apply H in M. apply prod_1 with (1 := KR) in M. destruct M as (w & E & Hw). replace z with w; [exact Hw|].
    assert (Z : ksub z w = k0). { apply R. transitivity (ksub (kmul f z) (kmul f w)); [ring|]. rewrite E. ring. }
    transitivity (ksub z (ksub z w)); [ring|]. rewrite Z. ring. }
  intros [A B]. split; now apply G.
Qed.
Lemma prod_1r l : equ (prod l [k1]) l.
Proof. eapply equ_trans; [apply prod_comm with (1 := KR) | apply prod_one with (1 := KR)]. Qed.
Lemma ideal_lf P Q S f : oncurve P -> oncurve Q -> is_lf P Q S f -> equ (prod (prod (I P) (I Q)) (I (neg S))) [kev f] /\ regular (kev f).
Proof.
  intros HP HQ H. assert (Gen : forall l m x1 y1 x2 y2 x3 y3, y1 = add (mul l x1) m -> y2 = add (mul l x2) m ->
    add (mul (mul l l) (add x1 x2)) (mul (add l l) m) = add (add (mul x1 x1) (add (mul x1 x2) (mul x2 x2))) a ->
    x3 = sub' (sub' (mul l l) x1) x2 -> y3 = opp (add (mul l x3) m) ->
    mul y1 y1 = add (add (mul (mul x1 x1) x1) (mul a x1)) b -> oncurve (Aff x3 y3) ->
    x1 <> x2 \/ (x1 = x2 /\ add y1 y1 <> zero) ->
    equ (prod (prod (I (Aff x1 y1)) (I (Aff x2 y2))) (I (neg (Aff x3 y3)))) [chord l m] /\ regular (chord l m)).
  { intros l m x1 y1 x2 y2 x3 y3 E1 E2 A0 E3 E4 C C3 D. pose proof (ideal_line l m x1 y1 x2 y2 x3 y3 E1 E2 A0 E3 E4 C D) as L.
    split; [|rewrite E1 in C; exact (chord_reg l m x1 x2 x3 A0 E3 C)].
    apply (equ_cancel (ksub X (c x3))); [apply Hreg|].
    eapply equ_trans; [apply prod_assoc with (1 := KR)|]. eapply equ_trans; [apply prod_equ with (1 := KR); [exact L | apply equ_refl]|].
    eapply equ_trans; [apply equ_sym, prod_assoc with (1 := KR)|].
    eapply equ_trans; [apply prod_equ with (1 := KR); [apply equ_refl | exact (ideal_vert _ C3)]|]. apply prod_comm with (1 := KR). }
  pose proof (add_closed P Q S HP HQ (lf_add _ _ _ _ H)) as HS.
  destruct H as [|x y|x y|x y y' E|x1 y1 x2 y2 l m N E1 E2|x y l m N E E1]; cbn [kev].
  - split; [|apply regular_1 with (1 := KR)]. cbn [pneg I]. eapply equ_trans; [apply prod_1r|]. apply prod_1r.
  - split; [|apply Hreg]. cbn [pneg]. eapply equ_trans; [apply prod_equ with (1 := KR); [apply prod_one with (1 := KR) | apply equ_refl]|]. exact (ideal_vert _ HQ).
  - split; [|apply Hreg]. cbn [pneg]. eapply equ_trans; [apply prod_equ with (1 := KR); [apply prod_1r | apply equ_refl]|]. exact (ideal_vert _ HP).
  - split; [|apply Hreg]. subst y'. cbn [pneg I]. eapply equ_trans; [apply prod_1r|]. exact (ideal_vert _ HP).
  - assert (A : ecadd (Aff x1 y1) (Aff x2 y2) (third F mul sub' l x1 y1 x2)).
    { apply add_chord; [exact N|]. rewrite E1, E2. ring. }
    cbn [on_curve] in HP, HQ. unfold third. unfold third in HS. cbv zeta in *.
    apply (Gen l m x1 y1 x2 y2); auto.
    + assert (N' : sub' x1 x2 <> zero). { intros Z. apply N. transitivity (add (sub' x1 x2) x2); [ring|]. rewrite Z. ring. }
      assert (D : mul (sub' x1 x2) (add (mul (mul l l) (add x1 x2)) (mul (add l l) m)) =
                mul (sub' x1 x2) (add (add (mul x1 x1) (add (mul x1 x2) (mul x2 x2))) a)).
      { transitivity (sub' (mul (add (mul l x1) m) (add (mul l x1) m)) (mul (add (mul l x2) m) (add (mul l x2) m))); [ring|].
        rewrite <- E1, <- E2, HP, HQ. ring. }
      transitivity (mul (inv (sub' x1 x2)) (mul (sub' x1 x2) (add (mul (mul l l) (add x1 x2)) (mul (add l l) m)))); [field; exact N'|].
      rewrite D. field. exact N'.
    + rewrite E1. ring.
  - cbn [on_curve] in HP, HQ. unfold third. unfold third in HS. cbv zeta in *.
    apply (Gen l m x y x y); auto.
    + transitivity (mul l (add y y)); [rewrite E1; ring|]. rewrite E. ring.
    + rewrite E1 at 1. ring.
Qed.
(** products of several ideals *)
Definition prods (ls : list (list K)) : list K := fold_right prod [k1] ls.
Lemma prods_perm ls ms : Permutation ls ms -> equ (prods ls) (prods ms).
Proof.
  induction 1 as [|l ls ms H IH|l m ls|ls ms ns H IH H' IH']; cbn [prods fold_right].
  - apply equ_refl.
  - apply prod_equ with (1 := KR); [apply equ_refl | exact IH].
  - eapply equ_trans; [apply prod_assoc with (1 := KR)|]. eapply equ_trans; [|apply equ_sym, prod_assoc with (1 := KR)].
    apply prod_equ with (1 := KR); [apply prod_comm with (1 := KR) | apply equ_refl].
  - exact (equ_trans _ _ _ _ _ _ _ IH IH').
Qed.
Lemma prods_app ls ms : equ (prods (ls ++ ms)) (prod (prods ls) (prods ms)).
Proof.
  induction ls as [|l ls IH]; cbn [app prods fold_right].
  - apply equ_sym, prod_one with (1 := KR).
  - eapply equ_trans; [apply prod_equ with (1 := KR); [apply equ_refl | exact IH]|]. apply prod_assoc with (1 := KR).
Qed.
Lemma prods3 l m n : equ (prods [l; m; n]) (prod (prod l m) n).
Proof.
  cbn [prods fold_right]. eapply equ_trans; [|apply prod_assoc with (1 := KR)]. apply prod_equ with (1 := KR); [apply equ_refl|].
  apply prod_equ with (1 := KR); [apply equ_refl | apply prod_1r].
Qed.
Lemma prods2 l m : equ (prods [l; m]) (prod l m).
Proof. cbn [prods fold_right]. apply prod_equ with (1 := KR); [apply equ_refl | apply prod_1r]. Qed.
(** a list of functions and the list of all their zeros *)
Inductive zeros : list (lfun F) -> list pt -> Prop :=
| z_nil : zeros [] []
| z_lf P Q S f fs zs : oncurve P -> oncurve Q -> is_lf P Q S f -> zeros fs zs -> zeros (f :: fs) (P :: Q :: neg S :: zs)
| z_vert P fs zs : oncurve P -> zeros fs zs -> zeros (lvert P :: fs) (P :: neg P :: zs).
Definition kprod (fs : list (lfun F)) : K := fold_right (fun f z => kmul (kev f) z) k1 fs.
Lemma zeros_ideal fs zs : zeros fs zs -> equ (prods (map I zs)) [kprod fs] /\ regular (kprod fs).
Proof.
  induction 1 as [|P Q S f fs zs HP HQ H Hz [IH R]|P fs zs HP Hz [IH R]]; cbn [kprod fold_right].
  - split; [apply equ_refl | apply regular_1 with (1 := KR)].
  - destruct (ideal_lf _ _ _ _ HP HQ H) as [L RL]. split; [|now apply regular_mul with (1 := KR)].
    cbn [map]. change (I P :: I Q :: I (neg S) :: map I zs) with ([I P; I Q; I (neg S)] ++ map I zs).
    eapply equ_trans; [apply prods_app|]. change [kmul (kev f) (fold_right (fun f z => kmul (kev f) z) k1 fs)] with (prod [kev f] [kprod fs]).
    apply prod_equ with (1 := KR); [|exact IH]. eapply equ_trans; [apply prods3 | exact L].
  - rewrite kev_vert. split; [|apply regular_mul with (1 := KR); [apply vert_reg | exact R]].
    cbn [map]. change (I P :: I (neg P) :: map I zs) with ([I P; I (neg P)] ++ map I zs).
    eapply equ_trans; [apply prods_app|]. change [kmul (vert P) (fold_right (fun f z => kmul (kev f) z) k1 fs)] with (prod [vert P] [kprod fs]).
    apply prod_equ with (1 := KR); [|exact IH]. eapply equ_trans; [apply prods2 | exact (ideal_vert _ HP)].
Qed.
Theorem same_zeros fs zs gs ys : zeros fs zs -> zeros gs ys -> Permutation zs ys -> equ [kprod fs] [kprod gs] /\ regular (kprod gs).
Proof.
  intros A B P. destruct (zeros_ideal _ _ A) as [A1 _], (zeros_ideal _ _ B) as [B1 R]. split; [|exact R].
  eapply equ_trans; [apply equ_sym; exact A1|]. eapply equ_trans; [exact (prods_perm _ _ (Permutation_map I P)) | exact B1].
Qed.
End Assoc.
