(** The constant multiplication, psi and cofactor clearing. *)
From Coq Require Import ZArith NArith List Bool Lia Ring Field.
From Verif Require Import Params ZMod RingPow Circuit Api Emulated ApiFacts FieldFacts Tower TowerFacts TowerProofs Pairing CurveSpec FastMod FastParams FastTower G2 HashG2 G2Spec G2Pred EcGroup G2Jac G2Mul.
Import ListNotations.
Open Scope Z_scope.
Add Field E2FC : E2_ft.
Local Opaque E2_Mul E2_Add E2_Sub E2_Neg.

(** no positive multiple up to N is the point at infinity *)

Lemma g2_mul_sum P i j A B C : g2on P -> g2mul P i A -> g2mul P j B -> g2mul P (i + j) C -> g2add A B C.
Proof.
  intros HP HA HB HC. destruct (g2_total A B (g2_mul_on _ _ _ HP HA) (g2_mul_on _ _ _ HP HB)) as [C' H].
  now rewrite (g2_mul_fun _ _ _ _ HP HC (g2_mul_add _ _ _ _ _ _ HP HA HB H)).
Qed.
Lemma g2_mul_eq P i j A : g2on P -> g2mul P i A -> g2mul P j A -> g2mul P (i - j) Inf.
Proof. intros HP H1 H2. exact (g2_mul_add _ _ _ _ _ _ HP H1 (g2_mul_neg _ _ _ H2) (g2_add_neg A)). Qed.
Lemma g2_add_inj P Q S S' : g2on P -> g2on Q -> g2add P Q S -> g2add P Q S' -> S = S'. Proof. apply g2_func. Qed.

(** points tracked as multiples *)
Definition jmul (J : G2Jacobian) (P : point E2) (k : Z) : Prop := exists Q, g2mul P k Q /\ jrep J Q.
Lemma jmul_double J P k : g2on P -> jmul J P k -> jmul (G2JacobianDouble J) P (2 * k).
Proof.
  intros HP (Q & HQ & HJ). destruct (jac_double J Q HJ) as (R & HR & HJ'). exists R. split; [|exact HJ'].
  replace (2 * k) with (k + k) by lia. exact (g2_mul_add _ _ _ _ _ _ HP HQ HQ HR).
Qed.
Lemma jmul_add_honest p a P i j : g2on P -> jmul p P i -> jmul a P j -> exists r, run (G2JacobianAddAssign p a) = Some r /\ jmul r P (i + j).
Proof.
  intros HP (A & HA & Ha) (B & HB & Hb). destruct (jac_add_honest p a A B Ha Hb (g2_mul_on _ _ _ HP HA) (g2_mul_on _ _ _ HP HB)) as (r & R & Hr & HR & HJ).
  exists r. split; [exact Hr|]. exists R. split; [exact (g2_mul_add _ _ _ _ _ _ HP HA HB HR) | exact HJ].
Qed.
Lemma jmul_add_sound p a P i j N r : g2on P -> jmul p P i -> jmul a P j -> order_above N P -> 0 < i <= N -> 0 < j <= N -> i <> j ->
  sat (G2JacobianAddAssign p a) r -> jmul r P (i + j).
Proof.
  intros HP (A & HA & Ha) (B & HB & Hb) O Hi Hj Nij H.
  assert (NA : A <> Inf) by (intros ->; exact (O i Hi HA)). assert (NB : B <> Inf) by (intros ->; exact (O j Hj HB)).
  assert (NE : A <> B).
  { intros ->. destruct (Z.lt_total i j) as [L|[L|L]]; [|contradiction|].
    - exact (O (j - i) ltac:(lia) (g2_mul_eq _ _ _ _ HP HB HA)).
    - exact (O (i - j) ltac:(lia) (g2_mul_eq _ _ _ _ HP HA HB)). }
  destruct (jac_add_sound p a A B r Ha Hb (g2_mul_on _ _ _ HP HA) (g2_mul_on _ _ _ HP HB) NA NB NE H) as (R & HR & HJ).
  exists R. split; [exact (g2_mul_add _ _ _ _ _ _ HP HA HB HR) | exact HJ].
Qed.
Definition kstep (k : Z) (j : nat) : Z :=
  4 * k + (if Nat.eqb j 1 then 1 else if Nat.eqb j 3 then 2 else if Nat.eqb j 7 then 1 else if Nat.eqb j 23 then 1 else 0).
Definition chainEnd : Z := fold_left kstep (seq 1 31) 3.
Lemma chainEnd_eq : chainEnd = 15132376222941642752. Proof. vm_compute. reflexivity. Qed.
Lemma step_honest t0 t1 P res k j : g2on P -> jmul t0 P 1 -> jmul t1 P 2 -> jmul res P k ->
  exists r, run (constMulStep t0 t1 res j) = Some r /\ jmul r P (kstep k j).
Proof.
  intros HP H0 H1 HR. unfold constMulStep, kstep. cbv zeta.
  pose proof (jmul_double _ _ _ HP (jmul_double _ _ _ HP HR)) as H4. replace (2 * (2 * k)) with (4 * k) in H4 by lia.
  set (q := G2JacobianDouble (G2JacobianDouble res)) in *.
  destruct (Nat.eqb j 1); [exact (jmul_add_honest _ _ _ _ _ HP H4 H0)|]. destruct (Nat.eqb j 3); [exact (jmul_add_honest _ _ _ _ _ HP H4 H1)|].
  destruct (Nat.eqb j 7); [exact (jmul_add_honest _ _ _ _ _ HP H4 H0)|]. destruct (Nat.eqb j 23); [exact (jmul_add_honest _ _ _ _ _ HP H4 H0)|].
  exists q. split; [reflexivity | now rewrite Z.add_0_r].
Qed.
Lemma loop_honest t0 t1 P l : g2on P -> jmul t0 P 1 -> jmul t1 P 2 -> forall res k, jmul res P k ->
  exists r, run (mfold (constMulStep t0 t1) l res) = Some r /\ jmul r P (fold_left kstep l k).
Proof.
  intros HP H0 H1. induction l as [|j l IH]; intros res k HR; cbn [mfold fold_left].
  - exists res. split; [reflexivity | exact HR].
  - destruct (step_honest t0 t1 P res k j HP H0 H1 HR) as (r & Hr & HJ). rewrite run_bind, Hr. exact (IH _ _ HJ).
Qed.
Theorem constmul_honest J P : g2on P -> jrep J P -> exists r R, run (G2JacobianConstScalarMul J) = Some r /\ g2mul P 15132376222941642752 R /\ jrep r R.
Proof.
  intros HP HJ. assert (H0 : jmul J P 1) by (exists P; split; [apply g2_mul_1 | exact HJ]). pose proof (jmul_double _ _ _ HP H0) as H1.
  change (2 * 1) with 2 in H1. unfold G2JacobianConstScalarMul. cbv zeta.
  destruct (jmul_add_honest _ _ _ _ _ HP H1 H0) as (res & Hr & H3). rewrite run_bind, Hr.
  destruct (loop_honest J (G2JacobianDouble J) P (seq 1 31) HP H0 H1 res _ H3) as (r & Hr' & (R & HR & HJ')). exists r, R.
  split; [exact Hr'|]. split; [|exact HJ']. rewrite <- chainEnd_eq. exact HR.
Qed.
Lemma kstep_ge k j : 4 * k <= kstep k j.
Proof. unfold kstep. destruct (Nat.eqb j 1), (Nat.eqb j 3), (Nat.eqb j 7), (Nat.eqb j 23); lia. Qed.
Lemma chain_ge l : forall k, 0 < k -> k <= fold_left kstep l k.
Proof.
  induction l as [|j l IH]; intros k Hk; cbn [fold_left]; [lia|]. pose proof (kstep_ge k j). specialize (IH (kstep k j) ltac:(lia)). lia.
Qed.
Lemma step_sound t0 t1 P res k j N r : g2on P -> jmul t0 P 1 -> jmul t1 P 2 -> jmul res P k -> order_above N P -> 1 < k -> 4 * k <= N ->
  sat (constMulStep t0 t1 res j) r -> jmul r P (kstep k j).
Proof.
  intros HP H0 H1 HR O K L. unfold constMulStep, kstep. cbv zeta.
  pose proof (jmul_double _ _ _ HP (jmul_double _ _ _ HP HR)) as H4. replace (2 * (2 * k)) with (4 * k) in H4 by lia.
  set (q := G2JacobianDouble (G2JacobianDouble res)) in *.
  destruct (Nat.eqb j 1); [apply (jmul_add_sound _ _ _ _ _ N _ HP H4 H0 O); lia|]. destruct (Nat.eqb j 3); [apply (jmul_add_sound _ _ _ _ _ N _ HP H4 H1 O); lia|].
  destruct (Nat.eqb j 7); [apply (jmul_add_sound _ _ _ _ _ N _ HP H4 H0 O); lia|]. destruct (Nat.eqb j 23); [apply (jmul_add_sound _ _ _ _ _ N _ HP H4 H0 O); lia|].
  intros H. apply sat_ret_inv in H. subst r. now rewrite Z.add_0_r.
Qed.
Lemma loop_sound t0 t1 P l N : g2on P -> jmul t0 P 1 -> jmul t1 P 2 -> order_above N P -> forall res k r, jmul res P k -> 1 < k -> fold_left kstep l k <= N ->
  sat (mfold (constMulStep t0 t1) l res) r -> jmul r P (fold_left kstep l k).
Proof.
  intros HP H0 H1 O. induction l as [|j l IH]; intros res k r HR K L H; cbn [mfold fold_left] in *.
  - apply sat_ret_inv in H. now subst r.
  - apply sat_bind in H. destruct H as (m & Hm & H). pose proof (kstep_ge k j) as G. pose proof (chain_ge l (kstep k j) ltac:(lia)) as C.
    apply (IH m); [|lia|exact L|exact H]. apply (step_sound t0 t1 P res k j N m HP H0 H1 HR O K); [lia | exact Hm].
Qed.
Theorem constmul_sound J P r : g2on P -> jrep J P -> order_above 15132376222941642752 P -> sat (G2JacobianConstScalarMul J) r ->
  exists R, g2mul P 15132376222941642752 R /\ jrep r R.
Proof.
  intros HP HJ O H. assert (H0 : jmul J P 1) by (exists P; split; [apply g2_mul_1 | exact HJ]). pose proof (jmul_double _ _ _ HP H0) as H1.
  change (2 * 1) with 2 in H1. unfold G2JacobianConstScalarMul in H. cbv zeta in H. apply sat_bind in H. destruct H as (res & Hr & H).
  pose proof (jmul_add_sound _ _ _ _ _ _ _ HP H1 H0 O ltac:(lia) ltac:(lia) ltac:(lia) Hr) as H3.
  rewrite <- chainEnd_eq in *. exact (loop_sound J _ P (seq 1 31) chainEnd HP H0 H1 O res 3 r H3 ltac:(lia) (Z.le_refl _) H).
Qed.
Lemma constmul_inf J r : jrep J Inf -> sat (G2JacobianConstScalarMul J) r -> jrep r Inf.
Proof.
  unfold jrep, jacobian. intros HZ H. unfold G2JacobianConstScalarMul in H. cbv zeta in H. apply sat_bind in H. destruct H as (res & Hr & H).
  apply (jac_add_inf _ _ _ (double_Z0 _ HZ) HZ) in Hr. revert res Hr H. generalize (seq 1 31). induction l as [|j l IH]; intros res Hr H; cbn [mfold] in H.
  - apply sat_ret_inv in H. now subst.
  - apply sat_bind in H. destruct H as (m & Hm & H). refine (IH m _ H). pose proof (double_Z0 _ (double_Z0 _ Hr)) as HD. unfold constMulStep in Hm. cbv zeta in Hm.
    destruct (Nat.eqb j 1); [exact (jac_add_inf _ _ _ HD HZ Hm)|]. destruct (Nat.eqb j 3); [exact (jac_add_inf _ _ _ HD (double_Z0 _ HZ) Hm)|].
    destruct (Nat.eqb j 7); [exact (jac_add_inf _ _ _ HD HZ Hm)|]. destruct (Nat.eqb j 23); [exact (jac_add_inf _ _ _ HD HZ Hm)|].
    apply sat_ret_inv in Hm. now subst m.
Qed.
