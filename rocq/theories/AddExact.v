(** C19 for any prover: the exact condition under which the Jacobian addition
    has no accepted result but the sum. *)
From Coq Require Import ZArith List Bool Lia.
From Verif Require Import Params ZMod Circuit Api Emulated ApiFacts Tower FieldFacts TowerFacts Pairing CurveSpec G2 G2Spec EcGroup G2Pred G2Jac G2Mul G2Cof G2Clear G2Refute TowerProofs G2Order TwistPt TwGroup TwistSmall G2Full ConstMulExact G2Cyclic.
Open Scope Z_scope.
Add Field E2FAE : E2_ft.

(** a coordinate below 2^381 - p: it has a second 381-bit representative *)
Definition twoReps (z : E2) : Prop := fval (A0 z) < 2 ^ 381 - pBLS \/ fval (A1 z) < 2 ^ 381 - pBLS.

Lemma sat_add_inv2 p a r : sat (G2JacobianAddAssign p a) r -> exists nzp nza ne, r = addChoice p a nzp nza ne /\
  (nzp = false -> jZ p = E2_Zero) /\ (nza = false -> jZ a = E2_Zero) /\ (ne = false -> addU1 p a = addU2 p a /\ addS1 p a = addS2 p a) /\
  (ne = true -> addU1 p a <> addU2 p a \/ twoReps (addU1 p a) \/ addS1 p a <> addS2 p a \/ twoReps (addS1 p a)).
Proof.
  unfold G2JacobianAddAssign. intros H. apply sat_bind in H. destruct H as (u & Hu & H). apply sat_bind in H. destruct H as (v & Hv & H).
  rewrite jacAddRaw_eq in H. apply sat_bind in H. destruct H as (w & Hw & H). apply sat_bind in H. destruct H as (z & Hz & H).
  apply sat_bind in H. destruct H as (o & Ho & H).
  apply sat_E2NotZero in Hu, Hv. apply sat_E2NotEqual in Hw, Hz.
  assert (Cu : exists b, u = bF b /\ (b = false -> jZ p = E2_Zero)) by (destruct Hu as [->|[E ->]]; [exists true | exists false]; split; auto; discriminate).
  assert (Cv : exists b, v = bF b /\ (b = false -> jZ a = E2_Zero)) by (destruct Hv as [->|[E ->]]; [exists true | exists false]; split; auto; discriminate).
  assert (Cw : exists b, w = bF b /\ (b = false -> addU1 p a = addU2 p a) /\ (b = true -> addU1 p a <> addU2 p a \/ twoReps (addU1 p a)))
    by (destruct Hw as [[-> K]|[-> E]]; [exists true | exists false]; (split; [reflexivity|split]); auto; discriminate).
  assert (Cz : exists b, z = bF b /\ (b = false -> addS1 p a = addS2 p a) /\ (b = true -> addS1 p a <> addS2 p a \/ twoReps (addS1 p a)))
    by (destruct Hz as [[-> K]|[-> E]]; [exists true | exists false]; (split; [reflexivity|split]); auto; discriminate).
  destruct Cu as (b1 & -> & E1), Cv as (b2 & -> & E2), Cw as (b3 & -> & E3 & G3), Cz as (b4 & -> & E4 & G4).
  apply sat_Or in Ho. subst o. apply sat_bind in H. destruct H as (r1 & H1 & H). apply (proj2 (determ_J_Select _ _ _)) in H1.
  apply sat_bind in H. destruct H as (r2 & H2 & H). apply (proj2 (determ_J_Select _ _ _)) in H2. apply (proj2 (determ_J_Select _ _ _)) in H.
  exists b1, b2, (b3 || b4). split; [subst; unfold addChoice; destruct b1, b2; reflexivity|]. split; [exact E1|]. split; [exact E2|]. split.
  - intros O. apply orb_false_iff in O. destruct O as [O1 O2]. exact (conj (E3 O1) (E4 O2)).
  - intros O. apply orb_true_iff in O. destruct O as [O|O].
    + destruct (G3 O) as [G|G]; [left; exact G | right; left; exact G].
    + destruct (G4 O) as [G|G]; [right; right; left; exact G | right; right; right; exact G].
Qed.
Lemma gap_pos : 0 < gap. Proof. reflexivity. Qed.
Lemma zero_twoReps : fval (A0 E2_Zero) < gap. Proof. reflexivity. Qed.
Lemma reps_split z : twoReps z -> fval (A0 z) < gap \/ fval (A1 z) < gap. Proof. exact (fun h => h). Qed.
(** the addition reaches infinity *)
Lemma one_inf_cheat p a : jZ p = E2_Zero \/ jZ a = E2_Zero -> exists r, sat (G2JacobianAddAssign p a) r /\ jZ r = E2_Zero.
Proof.
  intros Z0. exists (addChoice p a true true true). split; [|cbn [addChoice]; now apply raw_Z0].
  apply sat_add; try discriminate. intros _. destruct (E2_dec (addU1 p a) (addU2 p a)) as [E|N]; [right; left | now left].
  assert (W : addU1 p a = E2_Zero).
  { destruct Z0 as [Z0|Z0]; [unfold addU1; rewrite Z0; ring | rewrite E; unfold addU2; rewrite Z0; ring]. }
  rewrite W. exact zero_twoReps.
Qed.
Lemma equal_cheat p a : addU1 p a = addU2 p a -> twoReps (addU1 p a) \/ twoReps (addS1 p a) -> exists r, sat (G2JacobianAddAssign p a) r /\ jZ r = E2_Zero.
Proof.
  intros E T. exists (addChoice p a true true true). split; [|cbn [addChoice]; now apply raw_same_x].
  apply sat_add; try discriminate. intros _. destruct T as [[T|T]|[T|T]].
  - right; left. exact T.
  - right; right; left. exact T.
  - right; right; right; right; left. exact T.
  - right; right; right; right; right. exact T.
Qed.
Lemma fin_not_inf r Q : jrep r Q -> Q <> Inf -> jZ r <> E2_Zero.
Proof. destruct Q as [|X Y]; intros H N; [now destruct N | exact (jrep_aff_nz _ _ _ H)]. Qed.
Lemma double_fin P R : g2on P -> P <> Inf -> g2add P P R -> R <> Inf.
Proof.
  intros HP N A ->. pose proof (g2_mul_add _ _ _ _ _ _ HP (g2_mul_1 P) (g2_mul_1 P) A) as K. change (1 + 1) with 2 in K.
  revert K. apply kill_1; [exact HP|vm_compute; reflexivity|exact N].
Qed.
Theorem add_exact p a P Q : jrep p P -> jrep a Q -> g2on P -> g2on Q ->
  ((forall r, sat (G2JacobianAddAssign p a) r -> exists R, g2add P Q R /\ jrep r R) <->
   ((P = Inf /\ Q = Inf) \/
    (P <> Inf /\ Q <> Inf /\ (P = Q -> ~ twoReps (E2_Mul (jX a) (E2_Mul (jZ p) (jZ p))) /\ ~ twoReps (E2_Mul (jY a) (E2_Mul (jZ p) (E2_Mul (jZ p) (jZ p)))))))).
Proof.
  intros HP HQ CP CQ. change (E2_Mul (jX a) (E2_Mul (jZ p) (jZ p))) with (addU1 p a).
  change (E2_Mul (jY a) (E2_Mul (jZ p) (E2_Mul (jZ p) (jZ p)))) with (addS1 p a). split.
  - intros S. destruct (inf_dec P) as [EP|NP], (inf_dec Q) as [EQ|NQ].
    + left. exact (conj EP EQ).
    + exfalso. subst P. destruct (one_inf_cheat p a (or_introl HP)) as (r & Sr & Zr). destruct (S r Sr) as (R & HR & JR).
      assert (E : R = Q) by (inversion HR; reflexivity). subst R. exact (fin_not_inf _ _ JR NQ Zr).
    + exfalso. subst Q. destruct (one_inf_cheat p a (or_intror HQ)) as (r & Sr & Zr). destruct (S r Sr) as (R & HR & JR).
      assert (E : R = P) by (inversion HR; reflexivity). subst R. exact (fin_not_inf _ _ JR NP Zr).
    + right. split; [exact NP|]. split; [exact NQ|]. intros <-.
      assert (U : addU1 p a = addU2 p a). { destruct P as [|x y]; [now destruct NP|]. now apply (proj1 (U_eq _ _ _ _ _ _ HP HQ)). }
      assert (K : ~ (twoReps (addU1 p a) \/ twoReps (addS1 p a))).
      { intros T. destruct (equal_cheat p a U T) as (r & Sr & Zr). destruct (S r Sr) as (R & HR & JR).
        exact (fin_not_inf _ _ JR (double_fin P R CP NP HR) Zr). }
      split; intros T; apply K; [left | right]; exact T.
  - intros [[-> ->]|(NP & NQ & T)] r Sr.
    + exists Inf. split; [constructor|]. exact (jac_add_inf p a r HP HQ Sr).
    + apply sat_add_inv2 in Sr. destruct Sr as (nzp & nza & ne & -> & E1 & E2 & E3 & E4).
      apply (choice_ok p a P Q nzp nza ne HP HQ CP CQ E1 E2 E3); [intros E; now destruct NP | intros E; now destruct NQ|].
      intros E _. destruct ne; [exfalso|reflexivity]. destruct (T E) as [T1 T2]. subst Q.
      destruct P as [|x y]; [now destruct NP|]. destruct (U_eq _ _ _ _ _ _ HP HQ) as [UX UY].
      destruct (E4 eq_refl) as [G|[G|[G|G]]]; [|exact (T1 G)| |exact (T2 G)]; apply G; [now apply UX | now apply UY].
Qed.

(** ** Affine addition *)
Definition px (P : point E2) : E2 := match P with Inf => E2_Zero | Aff x _ => x end.
Lemma pt_dec (P Q : point E2) : {P = Q} + {P <> Q}.
Proof. exact (G2Cyclic.g2_dec P Q). Qed.
Theorem affine_add_exact p q : g2on (aff2 p) -> g2on (aff2 q) ->
  ((forall r, sat (G2AddAssign p q) r -> g2add (aff2 p) (aff2 q) (aff2 r)) <-> aff2 p <> aff2 q).
Proof.
  intros CP CQ. split.
  - intros S E. assert (Eq : q = p). { destruct p as [a b], q as [c d]. unfold aff2 in E. cbn [g2X g2Y] in E. now injection E as -> ->. }
    subst q. pose proof (f_equal px (g2_func _ _ _ _ CP CQ (S _ (aff_add_same p E2_Zero)) (S _ (aff_add_same p E2_One)))) as F.
    unfold aff2, chord2 in F. cbn [g2X g2Y px] in F. apply E2_1_neq_0. rewrite ?E2_Square_eq in F.
    transitivity (E2_Add (E2_Add (E2_Sub (E2_Sub (E2_Mul E2_One E2_One) (g2X p)) (g2X p)) (g2X p)) (g2X p)); [ring|]. rewrite <- F. ring.
  - intros N r H. destruct (pt_dec (aff2 p) (g2neg (aff2 q))) as [E|M].
    + destruct (add_opposite p q CP E r H).
    + destruct (aff_add_ne p q _ _ eq_refl eq_refl CP CQ N M) as (r' & D & A & _). rewrite (proj2 D r H). exact A.
Qed.
