(** Multiples of a point, from the group law; the curves of the code. *)
From Coq Require Import ZArith List Bool Lia Ring Field.
From Verif Require Import Params ZMod Emulated Tower FieldFacts TowerFacts CurveSpec G2Spec EcIdeal EcPoly.
Import ListNotations.
Open Scope Z_scope.


Section Mult.
Variable F : Type.
Variables (zero one : F) (add mul sub : F -> F -> F) (opp : F -> F) (div : F -> F -> F) (inv : F -> F).
Hypothesis FT : field_theory zero one add mul sub opp div inv eq.
Add Field Ffield : FT.
Variables a b : F.
Notation oncurve := (on_curve F add mul a b).
Notation ecadd := (ec_add F zero one add mul sub opp a).
Notation ecmul := (ec_mul F zero one add mul sub opp a).
Notation zmul := (ec_zmul F zero one add mul sub opp a).
Notation neg := (pneg F opp).
Hypothesis closed : forall P Q S, oncurve P -> oncurve Q -> ecadd P Q S -> oncurve S.
Hypothesis total : forall P Q, oncurve P -> oncurve Q -> exists S, ecadd P Q S.
Hypothesis comm : forall P Q S, ecadd P Q S -> ecadd Q P S.
Hypothesis func : forall P Q S S', oncurve P -> oncurve Q -> ecadd P Q S -> ecadd P Q S' -> S = S'.
Hypothesis assoc : forall P Q R D E G G', oncurve P -> oncurve Q -> oncurve R ->
  ecadd P Q D -> ecadd D R G -> ecadd Q R E -> ecadd P E G' -> G = G'.

Lemma neg_on P : oncurve P -> oncurve (neg P).
Proof. destruct P as [|x y]; [auto|]. cbn [pneg on_curve]. intros <-. ring. Qed.
Lemma neg_inv P : neg (neg P) = P.
Proof. destruct P as [|x y]; [reflexivity|]. cbn [pneg]. f_equal. ring. Qed.
Lemma add_self_neg P : ecadd P (neg P) Inf. Proof. destruct P as [|x y]; constructor. reflexivity. Qed.
Lemma neg_add P Q S : ecadd P Q S -> ecadd (neg P) (neg Q) (neg S).
Proof.
  destruct 1 as [Q|P|x y y' E|x1 y1 x2 y2 l N E|x y l N E]; cbn [pneg].
  - apply add_inf_l.
  - apply add_inf_r.
  - apply add_opp. now rewrite E.
  - assert (G : neg (third F mul sub l x1 y1 x2) = third F mul sub (opp l) x1 (opp y1) x2).
    { unfold third. cbn [pneg]. f_equal; ring. }
    rewrite G. apply add_chord; [exact N|]. transitivity (opp (mul l (sub x2 x1))); [ring|]. rewrite E. ring.
  - assert (G : neg (third F mul sub l x y x) = third F mul sub (opp l) x (opp y) x).
    { unfold third. cbn [pneg]. f_equal; ring. }
    rewrite G. apply add_tangent.
    + intros Z. apply N. transitivity (opp (add (opp y) (opp y))); [ring|]. rewrite Z. ring.
    + transitivity (mul l (add y y)); [ring | exact E].
Qed.
Lemma assoc_ex P Q R D G : oncurve P -> oncurve Q -> oncurve R -> ecadd P Q D -> ecadd D R G ->
  exists E, ecadd Q R E /\ ecadd P E G.
Proof.
  intros HP HQ HR H1 H2. destruct (total Q R HQ HR) as [E HE]. exists E. split; [exact HE|].
  destruct (total P E HP (closed _ _ _ HQ HR HE)) as [G' HG']. now rewrite (assoc _ _ _ _ _ _ _ HP HQ HR H1 H2 HE HG').
Qed.
Lemma assoc_ex' P Q R E G : oncurve P -> oncurve Q -> oncurve R -> ecadd Q R E -> ecadd P E G ->
  exists D, ecadd P Q D /\ ecadd D R G.
Proof.
  intros HP HQ HR H1 H2. destruct (total P Q HP HQ) as [D HD]. exists D. split; [exact HD|].
  destruct (total D R (closed _ _ _ HP HQ HD) HR) as [G' HG']. now rewrite <- (assoc _ _ _ _ _ _ _ HP HQ HR HD HG' H1 H2).
Qed.
Lemma add_Inf_r A C : oncurve A -> ecadd A Inf C -> C = A.
Proof. intros CA H. exact (func A Inf C A CA Logic.I H (add_inf_r _ _ _ _ _ _ _ _ A)). Qed.
(** cancellation *)
Lemma add_cancel P Q S : oncurve P -> oncurve Q -> ecadd P Q S -> ecadd S (neg Q) P.
Proof.
  intros HP HQ H. destruct (total S (neg Q) (closed _ _ _ HP HQ H) (neg_on _ HQ)) as [G HG].
  pose proof (assoc P Q (neg Q) S Inf G P HP HQ (neg_on _ HQ) H HG (add_self_neg Q)) as E.
  now rewrite (E (add_inf_r _ _ _ _ _ _ _ _ _)) in HG.
Qed.

Section Point.
Variable P : point F.
Hypothesis HP : oncurve P.
Lemma mul_ex k : exists R, ecmul P k R /\ oncurve R.
Proof.
  induction k as [|k (R & IH & HR)]; [exists Inf; split; [constructor | exact Logic.I]|].
  destruct (total R P HR HP) as [S HS]. exists S. split; [econstructor; eassumption | exact (closed _ _ _ HR HP HS)].
Qed.
Lemma mul_inv k R : ecmul P k R -> match k with O => R = Inf | S k => exists R', ecmul P k R' /\ ecadd R' P R end.
Proof. destruct 1; [reflexivity | eauto]. Qed.
Lemma mul_fun k : forall R R', ecmul P k R -> ecmul P k R' -> R = R' /\ oncurve R.
Proof.
  induction k as [|k IH]; intros R R' H H'; apply mul_inv in H, H'.
  - subst. split; [reflexivity | exact Logic.I].
  - destruct H as (A & HA & H), H' as (A' & HA' & H'). destruct (IH _ _ HA HA') as [<- CA].
    split; [exact (func _ _ _ _ CA HP H H') | exact (closed _ _ _ CA HP H)].
Qed.
Lemma mul_on k R : ecmul P k R -> oncurve R. Proof. intros H. exact (proj2 (mul_fun k R R H H)). Qed.
Theorem mul_add i j : forall A B C, ecmul P i A -> ecmul P j B -> ecadd A B C -> ecmul P (i + j)%nat C.
Proof.
  induction j as [|j IH]; intros A B C HA HB H; apply mul_inv in HB.
  - subst B. rewrite Nat.add_0_r. pose proof (mul_on _ _ HA) as CA.
    now rewrite (add_Inf_r _ _ CA H).
  - destruct HB as (B' & HB & HB'). pose proof (mul_on _ _ HA) as CA. pose proof (mul_on _ _ HB) as CB.
    destruct (assoc_ex' _ _ _ _ _ CA CB HP HB' H) as (D & HD & HC). rewrite Nat.add_succ_r. econstructor; [exact (IH _ _ _ HA HB HD) | exact HC].
Qed.
Lemma zmul_ex k : exists R, zmul P k R.
Proof.
  unfold ec_zmul. destruct (0 <=? k); [destruct (mul_ex (Z.to_nat k)) as (R & H & _); eauto|].
  destruct (mul_ex (Z.to_nat (- k))) as (R & H & _). eauto.
Qed.
Lemma zmul_fun k R R' : zmul P k R -> zmul P k R' -> R = R'.
Proof.
  unfold ec_zmul. destruct (0 <=? k); [intros H H'; exact (proj1 (mul_fun _ _ _ H H'))|].
  intros (A & H & ->) (A' & H' & ->). now rewrite (proj1 (mul_fun _ _ _ H H')).
Qed.
Lemma zmul_on k R : zmul P k R -> oncurve R.
Proof.
  unfold ec_zmul. destruct (0 <=? k); [apply mul_on|]. intros (A & H & ->). apply neg_on. exact (mul_on _ _ H).
Qed.
Lemma zmul_neg k R : zmul P k R -> zmul P (- k) (neg R).
Proof.
  unfold ec_zmul. destruct (Z.leb_spec 0 k) as [K|K], (Z.leb_spec 0 (- k)) as [K'|K']; intros H.
  - assert (k = 0) by lia. subst k. change (Z.to_nat (- 0)) with O. change (Z.to_nat 0) with O in H. apply mul_inv in H. subst R. constructor.
  - exists R. rewrite Z.opp_involutive. auto.
  - destruct H as (A & H & ->). now rewrite neg_inv.
  - lia.
Qed.
Lemma zmul_step k A B : zmul P k A -> ecadd A P B -> zmul P (k + 1) B.
Proof.
  intros H HA. pose proof (zmul_on _ _ H) as CA. unfold ec_zmul in *. destruct (Z.leb_spec 0 k) as [K|K].
  - replace (0 <=? k + 1) with true by (symmetry; apply Z.leb_le; lia). replace (Z.to_nat (k + 1)) with (S (Z.to_nat k)) by lia. econstructor; eassumption.
  - destruct H as (A' & H & ->). replace (Z.to_nat (- k)) with (S (Z.to_nat (- (k + 1)))) in H by lia. apply mul_inv in H. destruct H as (A2 & H & H2).
    pose proof (mul_on _ _ H) as C2. pose proof (neg_add _ _ _ (add_cancel _ _ _ C2 HP H2)) as G. rewrite neg_inv in G.
    rewrite (func _ _ _ _ CA HP HA G). destruct (Z.leb_spec 0 (k + 1)) as [K'|K'].
    + assert (k = -1) by lia. subst k. apply mul_inv in H. change (Z.to_nat (- (-1 + 1))) with O in H. cbv iota in H. subst A2. constructor.
    + now exists A2.
Qed.
Lemma zmul_back k A B : zmul P k A -> ecadd A (neg P) B -> zmul P (k - 1) B.
Proof.
  intros H HA. apply zmul_neg in H. apply neg_add in HA. rewrite neg_inv in HA. pose proof (zmul_neg _ _ (zmul_step _ _ _ H HA)) as G.
  rewrite neg_inv in G. replace (k - 1) with (- (- k + 1)) by lia. exact G.
Qed.
Theorem zmul_add i j A B C : zmul P i A -> zmul P j B -> ecadd A B C -> zmul P (i + j) C.
Proof.
  revert B C. pattern j. apply Z.peano_ind; clear j.
  - intros B C HA HB H. pose proof (zmul_on _ _ HA) as CA. unfold ec_zmul in HB. cbn [Z.leb Z.compare] in HB. apply mul_inv in HB. change (Z.to_nat 0) with O in HB. cbv iota in HB. subst B.
    rewrite Z.add_0_r. now rewrite (add_Inf_r _ _ CA H).
  - intros j IH B C HA HB H. destruct (zmul_ex j) as [B' HB']. pose proof (zmul_on _ _ HA) as CA. pose proof (zmul_on _ _ HB') as CB.
    destruct (total B' P CB HP) as [B2 HB2]. pose proof (zmul_step _ _ _ HB' HB2) as G. rewrite (zmul_fun _ _ _ HB G) in H.
    destruct (assoc_ex' _ _ _ _ _ CA CB HP HB2 H) as (D & HD & HC). replace (i + Z.succ j) with (i + j + 1) by lia.
    exact (zmul_step _ _ _ (IH _ _ HA HB' HD) HC).
  - intros j IH B C HA HB H. destruct (zmul_ex j) as [B' HB']. pose proof (zmul_on _ _ HA) as CA. pose proof (zmul_on _ _ HB') as CB.
    pose proof (neg_on _ HP) as CP.
    destruct (total B' (neg P) CB CP) as [B2 HB2]. pose proof (zmul_back _ _ _ HB' HB2) as G. rewrite (zmul_fun _ _ _ HB G) in H.
    destruct (assoc_ex' _ _ _ _ _ CA CB CP HB2 H) as (D & HD & HC). replace (i + Z.pred j) with (i + j - 1) by lia.
    exact (zmul_back _ _ _ (IH _ _ HA HB' HD) HC).
Qed.
Lemma zmul_1 : zmul P 1 P.
Proof. change (ecmul P 1%nat P). econstructor; [constructor | apply add_inf_l]. Qed.
Lemma zmul_0 : zmul P 0 Inf. Proof. constructor. Qed.
End Point.
(** multiples of multiples *)
Theorem zmul_zmul P i j A B : oncurve P -> zmul P i A -> zmul A j B -> zmul P (i * j) B.
Proof.
  intros HP HA. pose proof (zmul_on P HP _ _ HA) as CA. revert B. pattern j. apply Z.peano_ind; clear j.
  - intros B HB. rewrite (zmul_fun A CA _ _ _ HB (zmul_0 A)). rewrite Z.mul_0_r. apply zmul_0.
  - intros j IH B HB. destruct (zmul_ex A CA j) as [B' HB']. destruct (total B' A (zmul_on A CA _ _ HB') CA) as [B2 HB2].
    rewrite (zmul_fun A CA _ _ _ HB (zmul_step A CA _ _ _ HB' HB2)). replace (i * Z.succ j) with (i * j + i) by ring.
    exact (zmul_add P HP _ _ _ _ _ (IH _ HB') HA HB2).
  - intros j IH B HB. destruct (zmul_ex A CA j) as [B' HB']. destruct (total B' (neg A) (zmul_on A CA _ _ HB') (neg_on _ CA)) as [B2 HB2].
    rewrite (zmul_fun A CA _ _ _ HB (zmul_back A CA _ _ _ HB' HB2)). replace (i * Z.pred j) with (i * j + - i) by (rewrite Z.mul_pred_r; ring).
    exact (zmul_add P HP _ _ _ _ _ (IH _ HB') (zmul_neg P _ _ HA) HB2).
Qed.
End Mult.

(** the group of the twist *)
Lemma E2_dec (x y : E2) : {x = y} + {x <> y}.
Proof. destruct (E2_eqb x y) eqn:E; [left; now apply E2_eqb_eq | right; intros H; apply E2_eqb_eq in H; congruence]. Defined.
Definition E2_code (x : E2) : nat * nat := (Z.to_nat (fval (A0 x)), Z.to_nat (fval (A1 x))).
Definition E2_decode (n : nat * nat) : E2 := mkE2 (ofZ pBLS (Z.of_nat (fst n))) (ofZ pBLS (Z.of_nat (snd n))).
Lemma E2_codeK x : E2_decode (E2_code x) = x.
Proof.
  unfold E2_decode, E2_code. cbn [fst snd]. destruct x as [a b]. cbn [A0 A1].
  rewrite !Z2Nat.id by (apply fval_range; reflexivity). f_equal; apply fval_inj; rewrite fval_ofZ; apply fval_mod.
Qed.

Lemma E2_two : E2_Add E2_One E2_One <> E2_Zero.
Proof. intros H. apply (f_equal (fun x => fval (A0 x))) in H. revert H. vm_compute. discriminate. Qed.
Lemma E2_three : E2_Add (E2_Add E2_One E2_One) E2_One <> E2_Zero.
Proof. intros H. apply (f_equal (fun x => fval (A0 x))) in H. revert H. vm_compute. discriminate. Qed.
Add Field E2F : E2_ft.
Lemma double_zero y : E2_Add y y = E2_Zero -> y = E2_Zero.
Proof.
  intros H. assert (E : E2_Mul (E2_Add E2_One E2_One) y = E2_Zero) by (rewrite <- H; ring).
  apply E2_integral in E. destruct E as [E|E]; [destruct (E2_two E) | exact E].
Qed.
(** a curve y^2 = x^3 + ax + b without point of order two is nonsingular *)
Lemma nonsing a b : (forall x y, on_curve E2 E2_Add E2_Mul a b (Aff x y) -> y <> E2_Zero) ->
  forall x y, on_curve E2 E2_Add E2_Mul a b (Aff x y) -> E2_Add y y <> E2_Zero \/
  E2_Add (E2_Mul (E2_Add (E2_Add E2_One E2_One) E2_One) (E2_Mul x x)) a <> E2_Zero.
Proof. intros Y x y H. left. intros E. exact (Y _ _ H (double_zero _ E)). Qed.
Lemma nonsing0 b : b <> E2_Zero -> forall x y, on_curve E2 E2_Add E2_Mul E2_Zero b (Aff x y) -> E2_Add y y <> E2_Zero \/
  E2_Add (E2_Mul (E2_Add (E2_Add E2_One E2_One) E2_One) (E2_Mul x x)) E2_Zero <> E2_Zero.
Proof.
  intros B x y H. cbn [on_curve] in H. destruct (E2_dec (E2_Add y y) E2_Zero) as [E|N]; [|now left].
  right. intros T. apply double_zero in E. subst y. assert (X : E2_Mul (E2_Add (E2_Add E2_One E2_One) E2_One) (E2_Mul x x) = E2_Zero) by (rewrite <- T; ring).
  apply E2_integral in X. destruct X as [X|X]; [exact (E2_three X)|]. apply E2_integral in X. assert (x = E2_Zero) by (destruct X; assumption). subst x.
  apply B. transitivity (E2_Mul E2_Zero E2_Zero); [rewrite H|]; ring.
Qed.


Lemma g2b_neq0 : g2b <> E2_Zero.
Proof. intros H. apply (f_equal (fun x => fval (A0 x))) in H. revert H. vm_compute. discriminate. Qed.
Lemma g2_closed P Q S : g2on P -> g2on Q -> g2add P Q S -> g2on S.
Proof. exact (@plain_closed _ _ _ _ _ _ _ _ _ E2_ft g2a g2b P Q S). Qed.
Lemma g2_total P Q : g2on P -> g2on Q -> exists S, g2add P Q S.
Proof. exact (@plain_total _ _ _ _ _ _ _ _ _ E2_ft E2_dec g2a g2b P Q). Qed.
Lemma g2_comm P Q S : g2add P Q S -> g2add Q P S.
Proof. exact (@plain_comm _ _ _ _ _ _ _ _ _ E2_ft g2a P Q S). Qed.
Lemma g2_func P Q S S' : g2on P -> g2on Q -> g2add P Q S -> g2add P Q S' -> S = S'.
Proof. exact (@plain_fun _ _ _ _ _ _ _ _ _ E2_ft E2_dec _ _ E2_codeK E2_inv_0 g2a g2b (nonsing0 _ g2b_neq0) P Q S S'). Qed.
Theorem g2_assoc P Q R D E G G' : g2on P -> g2on Q -> g2on R -> g2add P Q D -> g2add D R G -> g2add Q R E -> g2add P E G' -> G = G'.
Proof. exact (@plain_assoc _ _ _ _ _ _ _ _ _ E2_ft E2_dec _ _ E2_codeK E2_inv_0 g2a g2b (nonsing0 _ g2b_neq0) P Q R D E G G'). Qed.

Ltac grp l := unfold g2add, g2on, g2mul, g2neg in *;
  eapply l; try first [exact E2_ft | exact g2_closed | exact g2_total | exact g2_comm | exact g2_func | exact g2_assoc | eassumption].
Lemma g2_neg_on P : g2on P -> g2on (g2neg P). Proof. intros. grp neg_on. Qed.
Lemma g2_neg_neg P : g2neg (g2neg P) = P. Proof. grp neg_inv. Qed.
Lemma g2_neg_add P Q S : g2add P Q S -> g2add (g2neg P) (g2neg Q) (g2neg S). Proof. intros. grp neg_add. Qed.
Lemma g2_add_neg P : g2add P (g2neg P) Inf. Proof. grp add_self_neg. Qed.
Lemma g2_add_Inf P : g2add P Inf P. Proof. constructor. Qed.
Lemma g2_add_cancel P Q S : g2on P -> g2on Q -> g2add P Q S -> g2add S (g2neg Q) P. Proof. intros. grp add_cancel. Qed.
Lemma g2_assoc_ex P Q R D G : g2on P -> g2on Q -> g2on R -> g2add P Q D -> g2add D R G -> exists E, g2add Q R E /\ g2add P E G.
Proof. intros. grp assoc_ex. Qed.
Lemma g2_assoc_ex' P Q R E G : g2on P -> g2on Q -> g2on R -> g2add Q R E -> g2add P E G -> exists D, g2add P Q D /\ g2add D R G.
Proof. intros. grp assoc_ex'. Qed.
Lemma g2_mul_ex P k : g2on P -> exists R, g2mul P k R. Proof. intros. grp zmul_ex. Qed.
Lemma g2_mul_fun P k R R' : g2on P -> g2mul P k R -> g2mul P k R' -> R = R'. Proof. intros. grp zmul_fun. Qed.
Lemma g2_mul_on P k R : g2on P -> g2mul P k R -> g2on R. Proof. intros. grp zmul_on. Qed.
Lemma g2_mul_neg P k R : g2mul P k R -> g2mul P (- k) (g2neg R). Proof. intros. grp zmul_neg. Qed.
Theorem g2_mul_add P i j A B C : g2on P -> g2mul P i A -> g2mul P j B -> g2add A B C -> g2mul P (i + j) C. Proof. intros. grp zmul_add. Qed.
Theorem g2_mul_mul P i j A B : g2on P -> g2mul P i A -> g2mul A j B -> g2mul P (i * j) B. Proof. intros. grp zmul_zmul. Qed.
Lemma g2_mul_1 P : g2mul P 1 P. Proof. grp zmul_1. Qed.
Lemma g2_mul_0 P : g2mul P 0 Inf. Proof. grp zmul_0. Qed.
