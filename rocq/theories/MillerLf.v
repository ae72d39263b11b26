(** The lines multiplied by the Miller loop, as functions on the twist. *)
From Coq Require Import ZArith NArith List Bool Lia Field.
From Verif Require Import Params ZMod RingPow Circuit Api Emulated ApiFacts FieldFacts Tower TowerFacts TowerProofs Frobenius Pairing CurveSpec G2 HashG2 G2Spec EcIdeal EcEval EcGroup LineFour G2Jac G2Mul G2Cof G2Order MillerProofs FixedQ FixedLoop FinalExpProofs PairProofs MillerTotal.
Import ListNotations.
Open Scope Z_scope.
Add Field E2FML : E2_ft.
Local Opaque E2_Mul E2_Add E2_Sub E2_Neg E2_Square E2_Double E2_MulByConstElement.

(** the pair (R0, R1) of the code stands for Y + R0 X + R1 *)
Definition codeLine (ln : lineEvaluation) (f : lfun E2) : Prop :=
  match f with LLine l m => ln = mkLine (E2_Neg l) (E2_Neg m) | _ => False end.
Lemma lineOf_code l x y : codeLine (lineOf l x y) (LLine l (E2_Sub y (E2_Mul l x))).
Proof. unfold codeLine, lineOf. f_equal. ring. Qed.
Lemma aff_eq (x y x' y' : E2) : x = x' -> y = y' -> Aff x y = Aff x' y'.
Proof. congruence. Qed.
Lemma dbl_lf t t' ln : g2Y t <> E2_Zero -> sat (doubleStep t) (t', ln) -> exists f, islf (aff2 t) (aff2 t) (aff2 t') f /\ codeLine ln f.
Proof.
  intros N H. apply sat_doubleStep in H. destruct H as (l & E & -> & X & Y). eexists. split; [|apply lineOf_code].
  replace (aff2 t') with (third E2 E2_Mul E2_Sub l (g2X t) (g2Y t) (g2X t)) by (unfold aff2, third; cbv zeta; rewrite Y, X; reflexivity).
  apply lf_tan; [exact (two_neq0 _ N) | | ring]. rewrite E. unfold g2a. ring.
Qed.
Lemma dad_lf t q t' ln1 ln2 : g2Y t <> E2_Zero -> g2X t <> g2X q -> sat (doubleAndAddStep t q) (t', ln1, ln2) ->
  exists s f1 f2, islf (aff2 t) (aff2 q) (aff2 s) f1 /\ islf (aff2 s) (aff2 t) (aff2 t') f2 /\ codeLine ln1 f1 /\ codeLine ln2 f2.
Proof.
  intros NY N H. apply sat_doubleAndAdd in H. destruct H as (l1 & m & x3 & E1 & E3 & EM & -> & -> & X & Y).
  set (y3 := E2_Sub (E2_Mul l1 (E2_Sub (g2X t) x3)) (g2Y t)).
  exists (mkG2 x3 y3). eexists. eexists. split; [|split; [|split; apply lineOf_code]].
  - replace (aff2 (mkG2 x3 y3)) with (third E2 E2_Mul E2_Sub l1 (g2X t) (g2Y t) (g2X q)) by (unfold aff2, third, y3; cbn [g2X g2Y]; rewrite E3; reflexivity).
    apply lf_chord; [exact N | ring |]. transitivity (E2_Sub (g2Y t) (E2_Sub (g2Y t) (g2Y q))); [ring|]. rewrite <- E1. ring.
  - assert (N3 : x3 <> g2X t). { intros Z. apply (two_neq0 _ NY). rewrite <- EM, Z. ring. }
    assert (Y3 : y3 = E2_Add (E2_Mul (E2_Neg (E2_Add m l1)) x3) (E2_Sub (g2Y t) (E2_Mul (E2_Neg (E2_Add m l1)) (g2X t)))).
    { transitivity (E2_Sub (E2_Sub (g2Y t) (E2_Mul m (E2_Sub x3 (g2X t)))) (E2_Mul l1 (E2_Sub x3 (g2X t)))); [rewrite EM; unfold y3; ring | ring]. }
    replace (aff2 t') with (third E2 E2_Mul E2_Sub (E2_Neg (E2_Add m l1)) x3 y3 (g2X t)).
    + apply lf_chord; [exact N3 | exact Y3 | ring].
    + unfold aff2, third. cbv zeta. rewrite Y, X. apply aff_eq; [ring|]. rewrite Y3. ring.
Qed.
Lemma tri_lf q t ln1 ln2 : g2Y q <> E2_Zero -> sat (tripleStep q) (t, ln1, ln2) ->
  exists s f1 f2, islf (aff2 q) (aff2 q) (aff2 s) f1 /\ islf (aff2 s) (aff2 q) (aff2 t) f2 /\ codeLine ln1 f1 /\ codeLine ln2 f2.
Proof.
  intros NY H. apply sat_triple in H. destruct H as (l1 & m & x2 & E1 & E3 & EM & -> & -> & X & Y).
  set (y2 := E2_Sub (E2_Mul l1 (E2_Sub (g2X q) x2)) (g2Y q)).
  exists (mkG2 x2 y2). eexists. eexists. split; [|split; [|split; apply lineOf_code]].
  - replace (aff2 (mkG2 x2 y2)) with (third E2 E2_Mul E2_Sub l1 (g2X q) (g2Y q) (g2X q)) by (unfold aff2, third, y2; cbn [g2X g2Y]; rewrite E3; reflexivity).
    apply lf_tan; [exact (two_neq0 _ NY) | | ring]. rewrite E1. unfold g2a. ring.
  - assert (N3 : x2 <> g2X q). { intros Z. apply (two_neq0 _ NY). rewrite <- EM, Z. ring. }
    assert (Y3 : y2 = E2_Add (E2_Mul (E2_Sub m l1) x2) (E2_Sub (g2Y q) (E2_Mul (E2_Sub m l1) (g2X q)))).
    { transitivity (E2_Sub (E2_Add (g2Y q) (E2_Mul l1 (E2_Sub (g2X q) x2))) (E2_Mul m (E2_Sub (g2X q) x2))); [rewrite EM; unfold y2; ring | ring]. }
    replace (aff2 t) with (third E2 E2_Mul E2_Sub (E2_Sub m l1) x2 y2 (g2X q)).
    + apply lf_chord; [exact N3 | exact Y3 | ring].
    + unfold aff2, third. cbv zeta. rewrite Y, X. apply aff_eq; [ring|]. rewrite Y3. ring.
Qed.

(** one iteration and the whole chain, over any ternary relation *)
Section Chain.
Context {U V : Type}.
Variable Lf : U -> U -> U -> V -> Prop.
Definition gstep (Q : U) (i : nat) (T T' : U) (fs : list V) : Prop :=
  if Z.eqb (nth i loopCounter 0) 0 then exists f, Lf T T T' f /\ fs = [f]
  else exists S f1 f2, Lf T Q S f1 /\ Lf S T T' f2 /\ fs = [f1; f2].
Fixpoint gtrace (Q : U) (L : list nat) (T : U) (fss : list (list V)) (T' : U) : Prop :=
  match L, fss with
  | [], [] => T' = T
  | i :: L, fs :: fss => exists S, gstep Q i T S fs /\ gtrace Q L S fss T'
  | _, _ => False
  end.
(** the lines of the whole loop *)
Definition glines (Q : U) (f1 f2 : V) (fss : list (list V)) (T' : U) : Prop :=
  exists S T, Lf Q Q S f1 /\ Lf S Q T f2 /\ gtrace Q fixedRange T fss T'.
End Chain.
(** a chord or tangent between points of the curve *)
Definition isln (A B C : point E2) (f : lfun E2) : Prop := g2on A /\ g2on B /\ islf A B C f /\ exists l m, f = LLine l m.
Lemma code_ln A B C f ln : g2on A -> g2on B -> islf A B C f -> codeLine ln f -> isln A B C f.
Proof. intros HA HB F C0. split; [exact HA|]. split; [exact HB|]. split; [exact F|]. destruct f as [|x|l m]; [destruct C0.. | eauto]. Qed.
Notation pstep := (gstep isln).
Notation ptrace := (gtrace isln).
Notation plines := (glines isln).
Notation codeLines := (Forall2 codeLine).
Lemma trace_lf Q N q L : g2on Q -> Q = aff2 q -> order_above N Q -> forall k t, 1 < k -> kmul Q k t -> fold_left knext L k <= N ->
  exists lls fss t', dtrace q L t lls /\ ptrace Q L (aff2 t) fss (aff2 t') /\ Forall2 codeLines lls fss /\ kmul Q (fold_left knext L k) t'.
Proof.
  intros HQ EQ O. assert (Hq : kmul Q 1 q) by (unfold kmul; rewrite <- EQ; apply g2_mul_1).
  induction L as [|i L IH]; intros k t K H B; cbn [fold_left] in *.
  - exists [], [], t. split; [exact Logic.I|]. split; [reflexivity|]. split; [constructor | exact H].
  - assert (G : exists t' ls fs, dstep q i t t' ls /\ pstep Q i (aff2 t) (aff2 t') fs /\ codeLines ls fs /\ kmul Q (knext k i) t').
    { pose proof (g2_mul_on _ _ _ HQ H) as Ht. assert (K0 : 0 < k) by lia. pose proof (knext_ge k i K0) as K1. assert (K2 : 0 < knext k i) by lia. assert (B' : knext k i <= N) by (pose proof (kchain_ge L _ K2); lia). unfold dstep, gstep. revert B'. clear B K1 K2. unfold knext. destruct (Z.eqb _ _); intros B'.
      - destruct (step_double Q N k t HQ H O) as (t' & l & D & M); [lia..|].
        destruct (dbl_lf t t' l (kmul_y _ _ _ HQ H) (run_sat _ _ (proj1 D))) as (f & F & C).
        exists t', [l], [f]. split; [exists l; auto|]. split; [exists f; split; [exact (code_ln _ _ _ _ _ Ht Ht F C) | reflexivity]|]. split; [now constructor | exact M].
      - destruct (step_dad Q N k t q HQ Hq H O) as (t' & l1 & l2 & D & M); [lia..|].
        assert (N1 : g2X t <> g2X q) by (apply (differ_X Q N k 1 t q HQ O H Hq); lia).
        destruct (dad_lf t q t' l1 l2 (kmul_y _ _ _ HQ H) N1 (run_sat _ _ (proj1 D))) as (s & f1 & f2 & F1 & F2 & C1 & C2).
        exists t', [l1; l2], [f1; f2]. split; [exists l1, l2; auto|]. split; [exists (aff2 s), f1, f2; rewrite EQ in *; pose proof (lf_on _ _ _ _ Ht HQ F1) as Hs; split; [exact (code_ln _ _ _ _ _ Ht HQ F1 C1)|]; split; [exact (code_ln _ _ _ _ _ Hs Ht F2 C2) | reflexivity]|]. split; [now repeat constructor | exact M]. }
    assert (K0 : 0 < k) by lia. pose proof (knext_ge k i K0) as K1.
    destruct G as (t1 & ls & fs & S & P & C & M). destruct (IH (knext k i) t1) as (lls & fss & t' & T & PT & CC & KM); [lia | exact M | exact B|].
    exists (ls :: lls), (fs :: fss), t'. split; [exists t1; auto|]. split; [exists (aff2 t1); auto|]. split; [now constructor | exact KM].
Qed.
Theorem lines_lf q : g2on (aff2 q) -> order_above 15132376222941642752 (aff2 q) ->
  exists l1 l2 lls f1 f2 fss t', mlines q l1 l2 lls /\ plines (aff2 q) f1 f2 fss (aff2 t') /\
    codeLine l1 f1 /\ codeLine l2 f2 /\ Forall2 codeLines lls fss /\ kmul (aff2 q) 15132376222941642752 t'.
Proof.
  intros HQ O. pose proof (g2_mul_1 (aff2 q) : kmul (aff2 q) 1 q) as H1. destruct (step_triple (aff2 q) _ q HQ H1 O) as (t & l1 & l2 & D & M); [lia|].
  destruct (tri_lf q t l1 l2 (kmul_y _ _ _ HQ H1) (run_sat _ _ (proj1 D))) as (s & f1 & f2 & F1 & F2 & C1 & C2).
  destruct (trace_lf (aff2 q) _ q fixedRange HQ eq_refl O 3 t) as (lls & fss & t' & T & PT & CC & KM); [lia | exact M | rewrite kend; lia|].
  exists l1, l2, lls, f1, f2, fss, t'. split; [exists t; auto|]. split; [|rewrite kend in KM; auto].
  pose proof (lf_on _ _ _ _ HQ HQ F1) as Hs. exists (aff2 s), (aff2 t). split; [exact (code_ln _ _ _ _ _ HQ HQ F1 C1)|]. split; [exact (code_ln _ _ _ _ _ Hs HQ F2 C2) | exact PT].
Qed.
