(** C22 without the restriction on the order: the multiplication chain is sound
    for every prover at every point of the curve except the points of order 13,
    and at each of those a prover can reach infinity. *)
From Coq Require Import ZArith List Bool Lia Znumtheory.
From Verif Require Import Params ZMod Circuit Api Emulated ApiFacts Tower FieldFacts TowerFacts Pairing CurveSpec G2 G2Spec EcGroup G2Jac G2Mul G2Cof G2Refute TwistPt TwGroup TwistSmall G2Full Clear13.
Import ListNotations.
Open Scope Z_scope.
Add Field E2FCME : E2_ft.

(** ** Multiples that vanish *)
Lemma kill_gcd (x : Tw) a b : tm a x = tO -> tm b x = tO -> tm (Z.gcd a b) x = tO.
Proof.
  intros A B. destruct (Z.gcd_bezout a b (Z.gcd a b) eq_refl) as (u & v & E). rewrite <- E, tm_add, !tm_mul, A, B, !tm_O. apply tadd_O.
Qed.
Lemma kill_only (P : point E2) k g : g2on P -> Z.gcd k (h2BLS * rBLS) = g -> g2mul P k Inf -> g2mul P g Inf.
Proof.
  intros HP <- H. pose proof (twist_exponent P HP) as X. set (x := tof P HP).
  apply (proj1 (tm_inf _ x)) in H. apply (proj1 (tm_inf _ x)) in X. apply (proj2 (tm_inf _ x)). now apply kill_gcd.
Qed.
Lemma kill_1 (P : point E2) k : g2on P -> Z.gcd k (h2BLS * rBLS) = 1 -> P <> Inf -> ~ g2mul P k Inf.
Proof.
  intros HP G N H. apply (kill_only P k 1 HP G) in H. apply N. apply (proj1 (tm_inf 1 (tof P HP))) in H.
  rewrite tm_1 in H. exact (f_equal tv H).
Qed.

(** ** Soundness away from order 13 *)
Lemma jmul_add_ne p a P i j r : g2on P -> jmul p P i -> jmul a P j ->
  ~ g2mul P i Inf -> ~ g2mul P j Inf -> ~ g2mul P (i - j) Inf ->
  sat (G2JacobianAddAssign p a) r -> jmul r P (i + j).
Proof.
  intros HP (A & HA & Ha) (B & HB & Hb) Ni Nj Nij H.
  assert (NA : A <> Inf) by (intros ->; exact (Ni HA)). assert (NB : B <> Inf) by (intros ->; exact (Nj HB)).
  assert (NE : A <> B) by (intros ->; exact (Nij (g2_mul_eq _ _ _ _ HP HA HB))).
  destruct (jac_add_sound p a A B r Ha Hb (g2_mul_on _ _ _ HP HA) (g2_mul_on _ _ _ HP HB) NA NB NE H) as (R & HR & HJ).
  exists R. split; [exact (g2_mul_add _ _ _ _ _ _ HP HA HB HR) | exact HJ].
Qed.
(** what is added in step [j] *)
Definition addend (j : nat) : Z := if Nat.eqb j 1 then 1 else if Nat.eqb j 3 then 2 else if Nat.eqb j 7 then 1 else if Nat.eqb j 23 then 1 else 0.
Lemma kstep_addend k j : kstep k j = 4 * k + addend j. Proof. reflexivity. Qed.
Definition stepOK (P : point E2) (k : Z) (j : nat) : Prop :=
  addend j = 0 \/ (~ g2mul P (4 * k) Inf /\ ~ g2mul P (addend j) Inf /\ ~ g2mul P (4 * k - addend j) Inf).
Lemma step_ne t0 t1 P res k j r : g2on P -> jmul t0 P 1 -> jmul t1 P 2 -> jmul res P k -> stepOK P k j ->
  sat (constMulStep t0 t1 res j) r -> jmul r P (kstep k j).
Proof.
  intros HP H0 H1 HR O. rewrite kstep_addend. unfold constMulStep, stepOK, addend in *. cbv zeta.
  pose proof (jmul_double _ _ _ HP (jmul_double _ _ _ HP HR)) as H4. replace (2 * (2 * k)) with (4 * k) in H4 by lia.
  set (q := G2JacobianDouble (G2JacobianDouble res)) in *.
  destruct (Nat.eqb j 1); [destruct O as [O|(O1 & O2 & O3)]; [discriminate O | now apply jmul_add_ne]|].
  destruct (Nat.eqb j 3); [destruct O as [O|(O1 & O2 & O3)]; [discriminate O | now apply jmul_add_ne]|].
  destruct (Nat.eqb j 7); [destruct O as [O|(O1 & O2 & O3)]; [discriminate O | now apply jmul_add_ne]|].
  destruct (Nat.eqb j 23); [destruct O as [O|(O1 & O2 & O3)]; [discriminate O | now apply jmul_add_ne]|].
  intros H. apply sat_ret_inv in H. subst r. now rewrite Z.add_0_r.
Qed.
Fixpoint chainOK (P : point E2) (l : list nat) (k : Z) : Prop :=
  match l with [] => True | j :: l' => stepOK P k j /\ chainOK P l' (kstep k j) end.
Lemma loop_ne t0 t1 P l : g2on P -> jmul t0 P 1 -> jmul t1 P 2 -> forall res k r, jmul res P k -> chainOK P l k ->
  sat (mfold (constMulStep t0 t1) l res) r -> jmul r P (fold_left kstep l k).
Proof.
  intros HP H0 H1. induction l as [|j l IH]; intros res k r HR O H; cbn [mfold fold_left chainOK] in *.
  - apply sat_ret_inv in H. now subst r.
  - apply sat_bind in H. destruct H as (m & Hm & H). destruct O as [O1 O2].
    apply (IH m); [|exact O2|exact H]. now apply (step_ne t0 t1 P res k j m).
Qed.
(** the chain as a list of tests, so that it can be evaluated *)
Fixpoint chainList (l : list nat) (k : Z) : list (Z * Z) :=
  match l with
  | [] => []
  | j :: l' => (if addend j =? 0 then [] else [(4 * k, addend j)]) ++ chainList l' (kstep k j)
  end.
Lemma chainList_ok P l : forall k,
  Forall (fun kd => ~ g2mul P (fst kd) Inf /\ ~ g2mul P (snd kd) Inf /\ ~ g2mul P (fst kd - snd kd) Inf) (chainList l k) ->
  chainOK P l k.
Proof.
  induction l as [|j l IH]; intros k F; cbn [chainList chainOK] in *; [exact I|].
  apply Forall_app in F. destruct F as [F1 F2]. split; [|now apply IH].
  unfold stepOK. destruct (addend j =? 0) eqn:E; [left; now apply Z.eqb_eq|right].
  inversion F1 as [|? ? F3 _]; subst. exact F3.
Qed.
Lemma chain_values : chainList (seq 1 31) 3 = [(12, 1); (208, 2); (53760, 1); (230901736800256, 1)].
Proof. vm_compute. reflexivity. Qed.

Theorem constmul_sound13 J P r : g2on P -> jrep J P -> P <> Inf -> ~ g2mul P 13 Inf ->
  sat (G2JacobianConstScalarMul J) r -> exists R, g2mul P 15132376222941642752 R /\ jrep r R.
Proof.
  intros HP HJ N N13 H. assert (H0 : jmul J P 1) by (exists P; split; [apply g2_mul_1 | exact HJ]). pose proof (jmul_double _ _ _ HP H0) as H1.
  change (2 * 1) with 2 in H1. unfold G2JacobianConstScalarMul in H. cbv zeta in H. apply sat_bind in H. destruct H as (res & Hr & H).
  assert (K : forall k, Z.gcd k (h2BLS * rBLS) = 1 -> ~ g2mul P k Inf) by (intros k G; exact (kill_1 P k HP G N)).
  pose proof (jmul_add_ne _ _ _ _ _ _ HP H1 H0 (K 2 eq_refl) (K 1 eq_refl) (K 1 eq_refl) Hr) as H3.
  rewrite <- chainEnd_eq. refine (loop_ne J _ P (seq 1 31) HP H0 H1 res 3 r H3 _ H).
  apply chainList_ok. rewrite chain_values.
  constructor; [exact (conj (K 12 eq_refl) (conj (K 1 eq_refl) (K 11 eq_refl)))|].
  constructor; [refine (conj _ (conj (K 2 eq_refl) (K 206 eq_refl))); intros X; exact (N13 (kill_only P 208 13 HP eq_refl X))|].
  constructor; [exact (conj (K 53760 eq_refl) (conj (K 1 eq_refl) (K 53759 eq_refl)))|].
  constructor; [exact (conj (K 230901736800256 eq_refl) (conj (K 1 eq_refl) (K 230901736800255 eq_refl)))|constructor].
Qed.

(** ** Order 13 *)
Lemma inf_cheat p a : jZ p = E2_Zero -> exists r, sat (G2JacobianAddAssign p a) r /\ jZ r = E2_Zero.
Proof.
  intros Zp. exists (addChoice p a true true true). split.
  - apply sat_add; try discriminate. intros _. right; left. unfold addU1. rewrite Zp.
    replace (E2_Mul (jX a) (E2_Mul E2_Zero E2_Zero)) with E2_Zero by ring. reflexivity.
  - cbn [addChoice]. apply raw_Z0. left. exact Zp.
Qed.
Lemma loop_cheat t0 t1 l : forall res, jZ res = E2_Zero ->
  exists r, sat (mfold (constMulStep t0 t1) l res) r /\ jZ r = E2_Zero.
Proof.
  induction l as [|j l IH]; intros res Zr; cbn [mfold].
  - exists res. split; [reflexivity|exact Zr].
  - assert (D : jZ (G2JacobianDouble (G2JacobianDouble res)) = E2_Zero) by (now apply double_Z0, double_Z0).
    assert (S : exists m, sat (constMulStep t0 t1 res j) m /\ jZ m = E2_Zero).
    { unfold constMulStep. cbv zeta.
      destruct (Nat.eqb j 1); [now apply inf_cheat|]. destruct (Nat.eqb j 3); [now apply inf_cheat|].
      destruct (Nat.eqb j 7); [now apply inf_cheat|]. destruct (Nat.eqb j 23); [now apply inf_cheat|].
      eexists. split; [reflexivity|exact D]. }
    destruct S as (m & Sm & Zm). destruct (IH m Zm) as (r & Sr & Zr'). exists r. split; [|exact Zr'].
    apply sat_bind. exists m. exact (conj Sm Sr).
Qed.
Theorem constmul_cheat13 J P : g2on P -> jrep J P -> g2mul P 13 Inf ->
  exists r, sat (G2JacobianConstScalarMul J) r /\ jrep r Inf.
Proof.
  intros HP HJ H13. assert (H0 : jmul J P 1) by (exists P; split; [apply g2_mul_1 | exact HJ]). pose proof (jmul_double _ _ _ HP H0) as H1.
  change (2 * 1) with 2 in H1. unfold G2JacobianConstScalarMul. cbv zeta.
  destruct (jmul_add_honest _ _ _ _ _ HP H1 H0) as (res & Hr & H3). change (2 + 1) with 3 in H3.
  destruct (step_honest J (G2JacobianDouble J) P res 3 1 HP H0 H1 H3) as (m & Hm & (Q & HQ & HmQ)).
  change (kstep 3 1) with 13 in HQ. rewrite (g2_mul_fun _ _ _ _ HP HQ H13) in HmQ. apply jrep_inf in HmQ.
  destruct (loop_cheat J (G2JacobianDouble J) (seq 2 30) m HmQ) as (r & Sr & Zr).
  exists r. split; [|now apply jrep_inf]. apply sat_bind. exists res. split; [now apply run_sat|].
  change (seq 1 31) with (1%nat :: seq 2 30). cbn [mfold]. apply sat_bind. exists m. split; [now apply run_sat|exact Sr].
Qed.
(** the product is not infinity there *)
Lemma mul_not_inf13 P R : g2on P -> P <> Inf -> g2mul P 15132376222941642752 R -> R <> Inf.
Proof.
  intros HP N H ->. revert H. apply kill_1; [exact HP|vm_compute; reflexivity|exact N].
Qed.

(** ** The exact condition *)
Lemma inf_dec (P : point E2) : P = Inf \/ P <> Inf. Proof. destruct P; [now left|right; discriminate]. Qed.
Theorem constmul_exact J P : g2on P -> jrep J P ->
  ((forall r, sat (G2JacobianConstScalarMul J) r -> exists R, g2mul P 15132376222941642752 R /\ jrep r R) <->
   (P = Inf \/ ~ g2mul P 13 Inf)).
Proof.
  intros HP HJ. split.
  - intros S. destruct (inf_dec P) as [->|N]; [now left|]. right. intros H13.
    destruct (constmul_cheat13 J P HP HJ H13) as (r & Sr & Zr). destruct (S r Sr) as (R & HR & HJR).
    destruct R as [|x y]; [exact (mul_not_inf13 P Inf HP N HR eq_refl)|].
    exact (jrep_aff_nz _ _ _ HJR (proj1 (jrep_inf r) Zr)).
  - intros [->|N13] r Sr.
    + exists Inf. split; [|now apply (constmul_inf J r)]. exact (proj2 (tm_inf _ tO) (tm_O _)).
    + destruct (inf_dec P) as [->|N].
      * destruct N13. exact (proj2 (tm_inf _ tO) (tm_O _)).
      * now apply (constmul_sound13 J P r).
Qed.
(** a point of the exception *)
Lemma order13 : g2on (aff2 u13p) /\ aff2 u13p <> Inf /\ g2mul (aff2 u13p) 13 Inf.
Proof. split; [exact (ton u13)|]. split; [discriminate|]. apply (proj2 (tm_inf 13 u13)). exact u13_kill. Qed.
Theorem constmul_refuted : exists J P r, g2on P /\ jrep J P /\ sat (G2JacobianConstScalarMul J) r /\
  forall R, g2mul P 15132376222941642752 R -> ~ jrep r R.
Proof.
  destruct order13 as (O & N & K). destruct (constmul_cheat13 (mkJ (g2X u13p) (g2Y u13p) E2_One) (aff2 u13p) O (jrep_one _ _) K) as (r & Sr & Zr).
  exists (mkJ (g2X u13p) (g2Y u13p) E2_One), (aff2 u13p), r. split; [exact O|]. split; [exact (jrep_one _ _)|]. split; [exact Sr|].
  intros R HR HJR. destruct R as [|x y]; [exact (mul_not_inf13 _ Inf O N HR eq_refl)|].
  exact (jrep_aff_nz _ _ _ HJR (proj1 (jrep_inf r) Zr)).
Qed.
