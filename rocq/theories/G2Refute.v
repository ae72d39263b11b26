(** Witnesses for the G2 properties that fail, and the concrete examples. *)
From Coq Require Import ZArith NArith List Bool Lia.
From Verif Require Import Params ZMod RingPow Circuit Api Emulated ApiFacts FieldFacts Tower TowerFacts TowerProofs FastTower Pairing CurveSpec G2 HashG2 G2Spec G2Pred EcGroup G2Jac G2Mul G2Cof G2Psi G2Clear G2Order G2Chain G2Gen FixedQ.
Import ListNotations.
Open Scope Z_scope.
Add Field E2FR : E2_ft.
Local Opaque E2_Mul E2_Add E2_Sub E2_Neg E2_Conjugate.

Definition gJ : G2Jacobian := mkJ (g2X G2gen) (g2Y G2gen) E2_One.
Lemma gen_on : g2on (aff2 G2gen). Proof. exact (proj1 gen_in_G2). Qed.
Lemma gJ_rep : jrep gJ (aff2 G2gen). Proof. exact (jrep_one _ _). Qed.
Lemma gen_gap : fval (A0 (g2X G2gen)) < gap. Proof. reflexivity. Qed.
Lemma gen_order : order_above (rBLS - 1) (aff2 G2gen).
Proof. exact (prime_order _ gen_on ltac:(discriminate) (in_G2_order _ gen_in_G2)). Qed.
Lemma gen_double_fin R : g2add (aff2 G2gen) (aff2 G2gen) R -> R <> Inf.
Proof.
  intros H ->. pose proof (g2_mul_add _ _ _ _ _ _ gen_on (g2_mul_1 _) (g2_mul_1 _) H) as H2. refine (gen_order _ _ H2). split; [reflexivity | discriminate].
Qed.
Lemma gJ_U : addU1 gJ gJ = g2X G2gen.
Proof. unfold addU1, gJ. cbn [jX jZ]. ring. Qed.
Lemma add_equal_cheat : exists r, sat (G2JacobianAddAssign gJ gJ) r /\ forall R, g2add (aff2 G2gen) (aff2 G2gen) R -> ~ jrep r R.
Proof.
  exists (addChoice gJ gJ true true true). split.
  - apply sat_add; try discriminate. intros _. right; left. rewrite gJ_U. exact gen_gap.
  - intros R HR HJ. pose proof (gen_double_fin R HR) as N. destruct R as [|x y]; [congruence|]. destruct HJ as (NZ & _). apply NZ. cbn [addChoice]. apply raw_same_x. reflexivity.
Qed.
Lemma add_inf_cheat : exists r, sat (G2JacobianAddAssign (mkJ E2_One E2_One E2_Zero) gJ) r /\ jrep r Inf.
Proof.
  exists (addChoice (mkJ E2_One E2_One E2_Zero) gJ true true true). split.
  - apply sat_add; try discriminate. intros _. right; left. unfold addU1. cbn [jX jZ]. replace (E2_Mul (jX gJ) (E2_Mul E2_Zero E2_Zero)) with E2_Zero by ring. reflexivity.
  - cbn [addChoice]. apply raw_Z0. left. reflexivity.
Qed.
(** an affine sum of a point with itself *)
Definition badSum : G2Affine := chord2 E2_Zero (g2X G2gen) (g2Y G2gen) (g2X G2gen).
Lemma badSum_off : ~ g2on (aff2 badSum).
Proof.
  unfold g2on, aff2, badSum, chord2, g2a, g2b. cbv zeta. cbn [g2X g2Y on_curve]. unfold G2gen. cbn [g2X g2Y]. fast_e2.
Qed.
Lemma inv_zero_mul x : E2_Mul (E2_inv E2_Zero) x = E2_Zero.
Proof. replace (E2_inv E2_Zero) with E2_Zero by (symmetry; exact E2_inv_0). ring. Qed.
Lemma sub_self x : E2_Sub x x = E2_Zero. Proof. ring. Qed.
Lemma div0_run : run (E2_DivUnchecked E2_Zero E2_Zero) = Some E2_Zero.
Proof.
  unfold E2_DivUnchecked. cbn [run]. rewrite inv_zero_mul. unfold E2_AssertIsEqual.
  replace (E2_eqb E2_Zero (E2_Mul E2_Zero E2_Zero)) with true; [reflexivity|]. symmetry. apply E2_eqb_eq. ring.
Qed.
Lemma aff_add_same_honest : run (G2AddAssign G2gen G2gen) = Some badSum.
Proof.
  unfold G2AddAssign. cbv zeta. rewrite run_bind, !sub_self, div0_run. cbn [run]. apply f_equal. unfold badSum, chord2. cbv zeta. rewrite E2_Square_eq. reflexivity.
Qed.
Lemma badSum_not R : g2add (aff2 G2gen) (aff2 G2gen) R -> R <> aff2 badSum.
Proof. intros H ->. exact (badSum_off (g2_closed _ _ _ gen_on gen_on H)). Qed.
Lemma inf_jac_unsat : jrep (mkJ E2_One E2_One E2_Zero) Inf /\ unsat (GetG2AffineFromG2Jac (mkJ E2_One E2_One E2_Zero)).
Proof. split; [reflexivity | apply aff_of_jac_unsat; reflexivity]. Qed.
Theorem round_trip q : q <> mkG2 E2_Zero E2_Zero -> determ (j <- GetG2JacFromG2Affine q ;; GetG2AffineFromG2Jac j) q.
Proof.
  destruct q as [x y]. intros N. eapply determ_bind; [|exact (aff_of_jac_determ _ _ _ (jrep_one x y))].
  apply determ_intro with (r := if E2_eqb x E2_Zero && E2_eqb y E2_Zero then mkJ E2_One E2_One E2_Zero else mkJ x y E2_One); [apply jac_of_aff_honest|].
  intros r H. apply jac_of_aff_sat in H. destruct H as [->|(-> & -> & _)]; [reflexivity | congruence].
Qed.
Theorem jac_of_aff_point q : q <> mkG2 E2_Zero E2_Zero -> exists j, determ (GetG2JacFromG2Affine q) j /\ jrep j (aff2 q).
Proof.
  destruct q as [x y]. intros N. exists (mkJ x y E2_One). split; [|apply jrep_one].
  apply determ_intro with (r := if E2_eqb x E2_Zero && E2_eqb y E2_Zero then mkJ E2_One E2_One E2_Zero else mkJ x y E2_One); [apply jac_of_aff_honest|].
  intros r H. apply jac_of_aff_sat in H. destruct H as [->|(-> & -> & _)]; [reflexivity | congruence].
Qed.
(** ** C21 *)
Theorem add_generic p q : g2on (aff2 p) -> g2on (aff2 q) -> aff2 p <> aff2 q -> aff2 p <> g2neg (aff2 q) ->
  exists r, determ (G2AddAssign p q) r /\ g2add (aff2 p) (aff2 q) (aff2 r).
Proof. intros HP HQ N1 N2. destruct (aff_add_ne p q _ _ eq_refl eq_refl HP HQ N1 N2) as (r & D & H & _). now exists r. Qed.
Theorem sub_generic p q : g2on (aff2 p) -> g2on (aff2 q) -> aff2 p <> aff2 q -> aff2 p <> g2neg (aff2 q) ->
  exists r, determ (G2SubAssign p q) r /\ g2add (aff2 p) (g2neg (aff2 q)) (aff2 r).
Proof. intros HP HQ N1 N2. destruct (aff_sub_ne p q _ _ eq_refl eq_refl HP HQ N1 N2) as (r & D & H & _). now exists r. Qed.
Theorem double_all p : g2on (aff2 p) -> exists r, determ (G2Double p) r /\ g2add (aff2 p) (aff2 p) (aff2 r).
Proof. intros HP. apply aff_double. exact (g2_y_nz _ _ HP). Qed.
Theorem add_opposite p q : g2on (aff2 p) -> aff2 p = g2neg (aff2 q) -> unsat (G2AddAssign p q).
Proof.
  destruct p as [x y], q as [x' y']. unfold aff2, g2neg. cbn [g2X g2Y pneg]. intros HP [= E1 E2]. apply aff_add_opp; cbn [g2X g2Y]; [exact E1|].
  intros E. apply (g2_y_nz _ _ HP). apply double_zero. rewrite E2 at 1. rewrite <- E. ring.
Qed.
(** ** C23 *)
Lemma psi_aff p : psi_of (aff2 p) (aff2 (G2Psi p)). Proof. apply psiP_spec. exact (aff_psi p). Qed.
Lemma psi_jac J P Q : jrep J P -> psi_of P Q -> jrep (G2JacobianPsi J) Q.
Proof. intros HJ H. apply psiP_spec in H. subst Q. now apply jrep_psi. Qed.
Theorem psi_hom P Q S P' Q' S' : psi_of P P' -> psi_of Q Q' -> psi_of S S' -> g2add P Q S -> g2add P' Q' S'.
Proof. intros HP HQ HS H. apply psiP_spec in HP, HQ, HS. subst. exact (psiP_add _ _ _ H). Qed.
Theorem psi_on P P' : psi_of P P' -> g2on P -> g2on P'.
Proof. intros H HP. apply psiP_spec in H. subst. now apply psiP_on. Qed.
Theorem psi_total P : exists P', psi_of P P' /\ forall P'', psi_of P P'' -> P'' = P'.
Proof. exists (psiP P). split; [now apply psiP_spec|]. intros P'' H. now apply psiP_spec. Qed.
Theorem psi_psi p : G2Psi (G2Psi p) = mkG2 (E2_MulByElement (g2X p) thirdRootOneG1) (E2_Neg (g2Y p)).
Proof.
  pose proof (aff_psi (G2Psi p)) as H. rewrite (aff_psi p) in H. unfold aff2 at 2 in H. rewrite psiP_psi in H. destruct (G2Psi (G2Psi p)) as [x y]. unfold aff2 in H. cbn [g2X g2Y] in H.
  injection H as H1 H2. exact (f_equal2 mkG2 H1 H2).
Qed.
(** ** C22, C24 examples *)
Lemma gen_mul_order : order_above 15132376222941642752 (aff2 G2gen).
Proof. refine (order_le _ _ _ _ gen_order). apply Z.leb_le. exact eq_refl. Qed.
Theorem constmul_G2 J P : in_G2 P -> jrep J P -> exists R, g2mul P 15132376222941642752 R /\ R <> Inf /\ (exists r, sat (G2JacobianConstScalarMul J) r) /\ forall r, sat (G2JacobianConstScalarMul J) r -> jrep r R.
Proof.
  intros HG HJ. pose proof (in_G2_order P HG) as HO. destruct HG as (HP & N & _). pose proof (prime_order P HP N HO) as O.
  destruct (constmul_honest J P HP HJ) as (r0 & R & Hr & HR & _). exists R. split; [exact HR|]. split; [|split].
  - intros ->. apply (O 15132376222941642752) in HR; [exact HR|]. split; [reflexivity | discriminate].
  - exists r0. now apply run_sat.
  - intros r H. destruct (constmul_sound J P r HP HJ) as (R' & HR' & HJ'); [|exact H|].
    + refine (order_le _ _ _ _ O). apply Z.leb_le. exact eq_refl.
    + now rewrite (g2_mul_fun _ _ _ _ HP HR HR').
Qed.
Theorem clear_G2 p : in_G2 (aff2 p) -> exists r, determ (G2ClearCofactor p) r /\ cleared (aff2 p) (aff2 r).
Proof. intros H. exact (clear_affine p (proj1 H) (G2_generic _ H)). Qed.
(** ** C25 *)
Lemma notzero_cheat : sat (G1NotZero fp0) (bF true) /\ sat (E2NotZero E2_Zero) (bF true) /\ sat (G1NotEqual fp0 fp0) (bF true) /\
  sat (E2NotEqual (g2X G2gen) (g2X G2gen)) (bF true) /\ sat (E2NotOne E2_One) (bF true) /\ sat (G2AffineNotInfinity (mkG2 E2_Zero E2_Zero)) (bF true).
Proof.
  split; [apply sat_G1NotZero; now left|]. split; [apply sat_E2NotZero; now left|]. split; [apply sat_G1NotEqual; left; split; [reflexivity | right; reflexivity]|].
  split; [apply sat_E2NotEqual; left; split; [reflexivity | right; left; exact gen_gap]|]. split; [apply sat_E2NotOne; now left | apply sat_NotInf; now left].
Qed.
(** ** the property statements assembled *)
Theorem group_law :
  (forall P Q, g2on P -> g2on Q -> exists R, g2add P Q R /\ g2on R /\ forall R', g2add P Q R' -> R' = R) /\
  (forall P Q R, g2on P -> g2on Q -> g2add P Q R -> g2add Q P R) /\
  (forall P Q R PQ QR S T, g2on P -> g2on Q -> g2on R -> g2add P Q PQ -> g2add PQ R S -> g2add Q R QR -> g2add P QR T -> S = T) /\
  (forall P, g2add P Inf P) /\ (forall P, g2on P -> g2on (g2neg P) /\ g2add P (g2neg P) Inf).
Proof.
  split; [|split; [|split; [|split]]].
  - intros P Q HP HQ. destruct (g2_total P Q HP HQ) as [R HR]. exists R. split; [exact HR|]. split; [exact (g2_closed _ _ _ HP HQ HR)|]. intros R' HR'. exact (g2_func _ _ _ _ HP HQ HR' HR).
  - intros P Q R HP HQ H. exact (g2_comm _ _ _ H).
  - intros P Q R PQ QR S T HP HQ HR H1 H2 H3 H4. exact (g2_assoc _ _ _ _ _ _ _ HP HQ HR H1 H2 H3 H4).
  - intros P. apply add_inf_r.
  - intros P HP. split; [now apply g2_neg_on | now apply g2_add_neg].
Qed.
Theorem criterion P : in_G2 P -> g2mul P rBLS Inf /\ order_above (rBLS - 1) P.
Proof. intros H. pose proof (in_G2_order P H) as O. split; [exact O|]. destruct H as (HP & N & _). exact (prime_order P HP N O). Qed.
Theorem cleared_function P : g2on P -> exists R, cleared P R /\ g2on R /\ forall R', cleared P R' -> R' = R.
Proof.
  intros HP. destruct (cleared_ex P HP) as (A & B0 & B & C0 & C1 & C & S & R & H1 & H2 & H3 & H4 & H5 & H6 & H7 & H8 & _ & _ & _ & _ & HR).
  assert (CR : cleared P R) by (exists A, B0, B, C0, C1, C, S; exact (conj H1 (conj H2 (conj H3 (conj H4 (conj H5 (conj H6 (conj H7 H8)))))))).
  exists R. split; [exact CR|]. split; [exact HR|]. intros R' H. exact (cleared_fun P R' R HP H CR).
Qed.
Lemma jac_of_zero r : sat (GetG2JacFromG2Affine (mkG2 E2_Zero E2_Zero)) r <-> r = mkJ E2_Zero E2_Zero E2_One \/ r = mkJ E2_One E2_One E2_Zero.
Proof. rewrite jac_of_aff_sat. intuition. Qed.
Lemma gen_nz : G2gen <> mkG2 E2_Zero E2_Zero.
Proof.
  intros H. apply (f_equal g2X) in H. change (g2X G2gen = E2_Zero) in H. apply (f_equal (fun z => fval (A0 z))) in H. vm_compute in H. discriminate H.
Qed.
Lemma gen_mul_ne j B : g2mul (aff2 G2gen) j B -> (0 <? Z.abs (1 - j)) && (Z.abs (1 - j) <=? rBLS - 1) = true -> aff2 G2gen <> B.
Proof. intros HB K. rewrite andb_true_iff, Z.ltb_lt, Z.leb_le in K. exact (mul_neq _ _ _ _ _ _ gen_on gen_order (g2_mul_1 _) HB K). Qed.
Lemma C19_example : jrep gJ (aff2 G2gen) /\ g2on (aff2 G2gen) /\ aff2 G2gen <> g2neg (aff2 G2gen) /\ aff2 G2gen <> Inf.
Proof.
  split; [exact gJ_rep|]. split; [exact gen_on|]. split; [|discriminate]. exact (gen_mul_ne _ _ (g2_mul_neg _ _ _ (g2_mul_1 _)) eq_refl).
Qed.
Lemma C21_example : exists q, g2add (aff2 G2gen) (aff2 G2gen) (aff2 q) /\ g2on (aff2 G2gen) /\ g2on (aff2 q) /\ aff2 G2gen <> aff2 q /\ aff2 G2gen <> g2neg (aff2 q).
Proof.
  destruct (double_all G2gen gen_on) as (q & _ & H). exists q. pose proof (g2_mul_add _ _ _ _ _ _ gen_on (g2_mul_1 _) (g2_mul_1 _) H) as M.
  split; [exact H|]. split; [exact gen_on|]. split; [exact (g2_closed _ _ _ gen_on gen_on H)|]. split; [exact (gen_mul_ne _ _ M eq_refl) | exact (gen_mul_ne _ _ (g2_mul_neg _ _ _ M) eq_refl)].
Qed.
Lemma C23_example : exists Q, psi_of (aff2 G2gen) Q /\ g2mul (aff2 G2gen) blsX Q /\ Q <> aff2 G2gen.
Proof.
  destruct gen_in_G2 as (_ & _ & Q & H1 & H2). exists Q. split; [exact H1|]. split; [exact H2|]. intros E. exact (gen_mul_ne _ _ H2 eq_refl (eq_sym E)).
Qed.
Theorem predicates_cheat : exists (x : Fp) (X : E2),
  sat (G1NotZero fp0) (bF true) /\ sat (E2NotZero E2_Zero) (bF true) /\ sat (G1NotEqual x x) (bF true) /\
  sat (E2NotEqual X X) (bF true) /\ sat (E2NotOne E2_One) (bF true) /\ sat (G2AffineNotInfinity (mkG2 E2_Zero E2_Zero)) (bF true) /\ bF true <> bF false.
Proof.
  destruct notzero_cheat as (H1 & H2 & H3 & H4 & H5 & H6). exists fp0, (g2X G2gen).
  split; [exact H1|]. split; [exact H2|]. split; [exact H3|]. split; [exact H4|]. split; [exact H5|]. split; [exact H6|].
  intros E. apply (f_equal (@fval _)) in E. discriminate E.
Qed.
Lemma C25_example : run (E2NotEqual (g2X G2gen) (g2Y G2gen)) = Some (bF true).
Proof. rewrite run_E2NotEqual. apply f_equal. replace (E2_eqb (g2X G2gen) (g2Y G2gen)) with false; [reflexivity | vm_compute; reflexivity]. Qed.
