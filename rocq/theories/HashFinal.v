(** EncodeToG2, HashToG2 and their Jacobian variants (C32). *)
From Coq Require Import ZArith NArith List Bool Lia Field.
From Verif Require Import Params ZMod RingPow Circuit Api Emulated ApiFacts FieldFacts Tower TowerFacts TowerProofs FastTower Pairing CurveSpec HashField G2 HashG2 G2Spec HashSpec G2Pred EcGroup G2Jac G2Mul G2Clear G2Refute HashSgn HashSqrt HashIso HashMap.
Import ListNotations.
Open Scope Z_scope.
Add Field E2FF : E2_ft.

(** the kernel of the isogeny is not rational: E' has no point above it *)
Definition gker : E2 := iso_g (E2_Neg kerc).
Lemma gker_half : e2pow gker (4 * sqrtT) = E2_Neg E2_One.
Proof. let n := eval vm_compute in (4 * sqrtT)%N in change (4 * sqrtT)%N with n. unfold gker, iso_g, kerc, isoA, isoB, E2_Neg, E2_One. cbn [A0 A1]. fast_e2. Qed.
Local Opaque E2_Mul E2_Add E2_Sub E2_Neg isoA isoB isoZ E2_One E2_Zero sqrtT gker kerc iso_map.
Lemma nonsquare_half x : x <> E2_Zero -> e2pow x (4 * sqrtT) = E2_Neg E2_One -> ~ is_square x.
Proof.
  intros Nx H (s & Hs). assert (N : s <> E2_Zero). { intros ->. apply Nx. rewrite <- Hs. ring. }
  rewrite <- Hs in H. change (E2_Mul s s) with (e2pow s 2) in H. rewrite <- npow_mulE2 in H. assert (Q : (2 * (4 * sqrtT) = pN * pN - 1)%N) by (rewrite sqrtT_8; lia).
  rewrite Q, (e2pow_order s N) in H. symmetry in H. exact (neg1_neq1 H).
Qed.
Lemma iso_off_kernel x y : isoon (Aff x y) -> E2_Add x kerc <> E2_Zero.
Proof.
  intros H K. change (E2_Mul y y = iso_g x) in H. assert (X : x = E2_Neg kerc). { transitivity (E2_Add (E2_Add x kerc) (E2_Neg kerc)); [ring|]. rewrite K. ring. }
  rewrite X in H. apply (nonsquare_half gker ker_not_root gker_half). exists y. exact H.
Qed.
Lemma iso_total x y : isoon (Aff x y) -> exists q, determ (G2Isogeny (mkG2 x y)) q /\ iso_map x y (aff2 q) /\ g2on (aff2 q).
Proof.
  intros H. pose proof (iso_off_kernel x y H) as K. exists (iso_pt x y). split; [now apply iso_determ|]. pose proof (iso_map_ok x y K) as M. split; [exact M | exact (iso_on _ _ _ H M)].
Qed.
(** C31 in full *)
Theorem iso_code x y : (E2_Add x kerc <> E2_Zero -> exists q, determ (G2Isogeny (mkG2 x y)) q /\ iso_map x y (aff2 q)) /\
  (E2_Add x kerc = E2_Zero -> unsat (G2Isogeny (mkG2 x y)) /\ iso_map x y Inf).
Proof.
  split; intros K.
  - exists (iso_pt x y). split; [now apply iso_determ | now apply iso_map_ok].
  - split; [now apply iso_kernel|]. rewrite iso_map_inf. left. now apply ker_xd.
Qed.

(** ** map and isogeny *)
Lemma mapiso_honest u : u <> E2_Zero -> exists x y q, run (MapElementToCurve2 u) = Some (mkG2 x y) /\ sswu_xy u x y /\
  (A0 u <> fp0 -> A0 y <> fp0 -> sswu u x y) /\ determ (G2Isogeny (mkG2 x y)) q /\ iso_map x y (aff2 q) /\ g2on (aff2 q).
Proof.
  intros N. destruct (map_honest u N) as (x & y & R & S & S'). destruct (iso_total x y (sswu_on u x y S)) as (q & D & M & O).
  exists x, y, q. split; [exact R|]. split; [exact S|]. split; [exact S'|]. split; [exact D|]. split; [exact M | exact O].
Qed.
(** the last four Reduce calls do not change the value *)
Lemma reduce_val x z : sat (fp_Reduce x) z -> fpZ z = x.
Proof.
  intros H. apply sat_Reduce in H. apply fval_inj. unfold fpZ. rewrite fval_ofZ. assert (R : 0 <= fval x < pBLS) by (apply fval_range; reflexivity).
  destruct H as [->|[-> _]]; [apply fval_mod|]. rewrite <- Z.add_mod_idemp_r, Z.mod_same, Z.add_0_r by discriminate. apply fval_mod.
Qed.
Definition outRed (s : G2Affine) : Circ G2Affine :=
  xa0 <- fp_Reduce (A0 (g2X s)) ;;
  xa1 <- fp_Reduce (A1 (g2X s)) ;;
  ya0 <- fp_Reduce (A0 (g2Y s)) ;;
  ya1 <- fp_Reduce (A1 (g2Y s)) ;;
  Ret (mkG2 (mkE2 (fpZ xa0) (fpZ xa1)) (mkE2 (fpZ ya0) (fpZ ya1))).
Lemma g2_eta (s : G2Affine) : mkG2 (mkE2 (A0 (g2X s)) (A1 (g2X s))) (mkE2 (A0 (g2Y s)) (A1 (g2Y s))) = s.
Proof. destruct s as [[? ?] [? ?]]. reflexivity. Qed.
Lemma outRed_determ s : determ (outRed s) s.
Proof.
  split.
  - unfold outRed. rewrite run_bind, run_Reduce, run_bind, run_Reduce, run_bind, run_Reduce, run_bind, run_Reduce. cbn [run]. rewrite !(reduce_val _ _ (run_sat _ _ (run_Reduce _))). now rewrite g2_eta.
  - intros r H. unfold outRed in H. apply sat_bind in H. destruct H as (a & Ha & H). apply sat_bind in H. destruct H as (b & Hb & H). apply sat_bind in H. destruct H as (c & Hc & H). apply sat_bind in H. destruct H as (d & Hd & H).
    cbn [sat] in H. rewrite (reduce_val _ _ Ha), (reduce_val _ _ Hb), (reduce_val _ _ Hc), (reduce_val _ _ Hd), g2_eta in H. symmetry. exact H.
Qed.
(** after the two isogenies *)
Definition sumTail (Q0 Q1 : G2Affine) : Circ G2Affine := sum <- G2AddAssign Q0 Q1 ;; sum <- G2ClearCofactor sum ;; outRed sum.
Definition isoTail (P0 P1 : G2Affine) : Circ G2Affine := Q0 <- G2Isogeny P0 ;; Q1 <- G2Isogeny P1 ;; sumTail Q0 Q1.
Lemma hashTail_eq u0 u1 : hashTail u0 u1 = (P0 <- MapElementToCurve2 u0 ;; P1 <- MapElementToCurve2 u1 ;; isoTail P0 P1).
Proof. reflexivity. Qed.
Local Opaque MapElementToCurve2 G2Isogeny G2AddAssign G2ClearCofactor outRed ClearCofactor G2JacobianAddAssign GetG2JacFromG2Affine GetG2AffineFromG2Jac.
Lemma sum_determ q0 q1 S : g2on (aff2 q0) -> g2on (aff2 q1) -> nonexc (aff2 q0) (aff2 q1) -> g2add (aff2 q0) (aff2 q1) S -> clear_generic S ->
  exists R, determ (sumTail q0 q1) R /\ cleared S (aff2 R) /\ g2on (aff2 R).
Proof.
  intros O0 O1 (_ & _ & N1 & N2) HS G. destruct (add_generic q0 q1 O0 O1 N1 N2) as (s & Ds & Hs).
  pose proof (g2_func _ _ _ _ O0 O1 HS Hs) as E. subst S. pose proof (g2_closed _ _ _ O0 O1 Hs) as Os.
  destruct (clear_affine s Os G) as (R & DR & C). exists R. split; [|split; [exact C | exact (cleared_on _ _ Os C)]].
  unfold sumTail. eapply determ_bind; [exact Ds|]. eapply determ_bind; [exact DR | apply outRed_determ].
Qed.
Theorem hash_honest u0 u1 : u0 <> E2_Zero -> u1 <> E2_Zero -> exists x0 y0 Q0 x1 y1 Q1,
  sswu_xy u0 x0 y0 /\ iso_map x0 y0 Q0 /\ sswu_xy u1 x1 y1 /\ iso_map x1 y1 Q1 /\
  (A0 u0 <> fp0 -> A0 y0 <> fp0 -> sgn0 u0 = sgn0 y0) /\ (A0 u1 <> fp0 -> A0 y1 <> fp0 -> sgn0 u1 = sgn0 y1) /\
  forall S, nonexc Q0 Q1 -> g2add Q0 Q1 S -> clear_generic S -> exists R, run (hashTail u0 u1) = Some R /\ cleared S (aff2 R) /\ g2on (aff2 R).
Proof.
  intros N0 N1. destruct (mapiso_honest u0 N0) as (x0 & y0 & q0 & R0 & S0 & G0 & D0 & M0 & O0). destruct (mapiso_honest u1 N1) as (x1 & y1 & q1 & R1 & S1 & G1 & D1 & M1 & O1).
  exists x0, y0, (aff2 q0), x1, y1, (aff2 q1). split; [exact S0|]. split; [exact M0|]. split; [exact S1|]. split; [exact M1|].
  split; [intros A B; exact (proj2 (G0 A B))|]. split; [intros A B; exact (proj2 (G1 A B))|].
  intros S NE HS G. destruct (sum_determ q0 q1 S O0 O1 NE HS G) as (R & DR & C & O). exists R. split; [|split; assumption].
  rewrite hashTail_eq, run_bind, R0, run_bind, R1. unfold isoTail. rewrite run_bind, (proj1 D0), run_bind, (proj1 D1). exact (proj1 DR).
Qed.
(** any prover whose two points lie on E' *)
Theorem hash_any u0 u1 R : sat (hashTail u0 u1) R -> exists x0 y0 x1 y1,
  sat (MapElementToCurve2 u0) (mkG2 x0 y0) /\ sat (MapElementToCurve2 u1) (mkG2 x1 y1) /\
  (isoon (Aff x0 y0) -> isoon (Aff x1 y1) -> exists Q0 Q1, iso_map x0 y0 Q0 /\ iso_map x1 y1 Q1 /\
   forall S, nonexc Q0 Q1 -> g2add Q0 Q1 S -> clear_generic S -> cleared S (aff2 R) /\ g2on (aff2 R)).
Proof.
  intros H. rewrite hashTail_eq in H. apply sat_bind in H. destruct H as ([x0 y0] & H0 & H). apply sat_bind in H. destruct H as ([x1 y1] & H1 & H).
  exists x0, y0, x1, y1. split; [exact H0|]. split; [exact H1|]. intros I0 I1. destruct (iso_total _ _ I0) as (q0 & D0 & M0 & O0). destruct (iso_total _ _ I1) as (q1 & D1 & M1 & O1).
  exists (aff2 q0), (aff2 q1). split; [exact M0|]. split; [exact M1|]. intros S NE HS G. destruct (sum_determ q0 q1 S O0 O1 NE HS G) as (R' & DR & C & O).
  unfold isoTail in H. apply sat_bind in H. destruct H as (p & Hp & H). apply (proj2 D0) in Hp. subst p. apply sat_bind in H. destruct H as (p & Hp & H). apply (proj2 D1) in Hp. subst p.
  apply (proj2 DR) in H. subst R'. split; assumption.
Qed.

(** ** the other three functions, from the field elements on *)
Definition encTail (u : E2) : Circ G2Affine := p <- MapElementToCurve2 u ;; q <- G2Isogeny p ;; G2ClearCofactor q.
Definition encJacTail (u : E2) : Circ G2Affine :=
  p <- MapElementToCurve2 u ;; q <- G2Isogeny p ;; j <- GetG2JacFromG2Affine q ;; j <- ClearCofactor j ;; GetG2AffineFromG2Jac j.
Definition hashJacTail (u0 u1 : E2) : Circ G2Affine :=
  P0 <- MapElementToCurve2 u0 ;; P1 <- MapElementToCurve2 u1 ;; Q0 <- G2Isogeny P0 ;; Q1 <- G2Isogeny P1 ;;
  j0 <- GetG2JacFromG2Affine Q0 ;; j1 <- GetG2JacFromG2Affine Q1 ;; sum <- G2JacobianAddAssign j0 j1 ;; sum <- ClearCofactor sum ;; GetG2AffineFromG2Jac sum.
Lemma tails msg : EncodeToG2 msg = (e <- HashToField msg 2 ;; encTail (nth 0 e E2_Zero)) /\
  EncodeToG2OnJac msg = (e <- HashToField msg 2 ;; encJacTail (nth 0 e E2_Zero)) /\
  HashToG2OnJac msg = (e <- HashToField msg 4 ;; hashJacTail (nth 0 e E2_Zero) (nth 1 e E2_Zero)) /\
  HashToG2 msg = (e <- HashToField msg 4 ;; hashTail (nth 0 e E2_Zero) (nth 1 e E2_Zero)).
Proof. split; [reflexivity|]. split; [reflexivity|]. split; reflexivity. Qed.
Lemma on_not00 q : g2on (aff2 q) -> q <> mkG2 E2_Zero E2_Zero.
Proof. intros O ->. exact (g2_no_y0 _ O). Qed.
Theorem enc_honest u : u <> E2_Zero -> exists x y Q, sswu_xy u x y /\ iso_map x y Q /\ (A0 u <> fp0 -> A0 y <> fp0 -> sgn0 u = sgn0 y) /\
  (clear_generic Q -> exists R, run (encTail u) = Some R /\ cleared Q (aff2 R) /\ g2on (aff2 R)) /\
  (forall R, cleared Q R -> R <> Inf -> exists r, run (encJacTail u) = Some r /\ aff2 r = R).
Proof.
  intros N. destruct (mapiso_honest u N) as (x & y & q & R0 & S & G0 & D & M & O).
  exists x, y, (aff2 q). split; [exact S|]. split; [exact M|]. split; [intros A B; exact (proj2 (G0 A B))|]. split.
  - intros G. destruct (clear_affine q O G) as (R & DR & C). exists R. split; [|split; [exact C | exact (cleared_on _ _ O C)]].
    unfold encTail. rewrite run_bind, R0, run_bind, (proj1 D). exact (proj1 DR).
  - intros R C NR. destruct (jac_of_aff_point q (on_not00 q O)) as (j & Dj & Hj). destruct (clear_honest j (aff2 q) O Hj) as (r & R' & Hr & C' & J').
    rewrite <- (cleared_fun _ _ _ O C C') in J'. destruct R as [|X Y]; [exfalso; apply NR; reflexivity|]. exists (mkG2 X Y). split; [|reflexivity].
    unfold encJacTail. rewrite run_bind, R0, run_bind, (proj1 D), run_bind, (proj1 Dj), run_bind, Hr. exact (proj1 (aff_of_jac_determ r X Y J')).
Qed.
Theorem hash_jac_honest u0 u1 : u0 <> E2_Zero -> u1 <> E2_Zero -> exists x0 y0 Q0 x1 y1 Q1,
  sswu_xy u0 x0 y0 /\ iso_map x0 y0 Q0 /\ sswu_xy u1 x1 y1 /\ iso_map x1 y1 Q1 /\
  (A0 u0 <> fp0 -> A0 y0 <> fp0 -> sgn0 u0 = sgn0 y0) /\ (A0 u1 <> fp0 -> A0 y1 <> fp0 -> sgn0 u1 = sgn0 y1) /\
  forall S R, g2add Q0 Q1 S -> cleared S R -> R <> Inf -> exists r, run (hashJacTail u0 u1) = Some r /\ aff2 r = R.
Proof.
  intros N0 N1. destruct (mapiso_honest u0 N0) as (x0 & y0 & q0 & R0 & S0 & G0 & D0 & M0 & O0). destruct (mapiso_honest u1 N1) as (x1 & y1 & q1 & R1 & S1 & G1 & D1 & M1 & O1).
  exists x0, y0, (aff2 q0), x1, y1, (aff2 q1). split; [exact S0|]. split; [exact M0|]. split; [exact S1|]. split; [exact M1|].
  split; [intros A B; exact (proj2 (G0 A B))|]. split; [intros A B; exact (proj2 (G1 A B))|].
  intros S R HS C NR. destruct (jac_of_aff_point q0 (on_not00 q0 O0)) as (j0 & Dj0 & Hj0). destruct (jac_of_aff_point q1 (on_not00 q1 O1)) as (j1 & Dj1 & Hj1).
  destruct (jac_add_honest j0 j1 _ _ Hj0 Hj1 O0 O1) as (s & S' & Hs & HS' & Js). rewrite <- (g2_func _ _ _ _ O0 O1 HS HS') in Js. pose proof (g2_closed _ _ _ O0 O1 HS) as Os.
  destruct (clear_honest s S Os Js) as (r & R' & Hr & C' & J'). rewrite <- (cleared_fun _ _ _ Os C C') in J'. destruct R as [|X Y]; [exfalso; apply NR; reflexivity|]. exists (mkG2 X Y). split; [|reflexivity].
  unfold hashJacTail. rewrite run_bind, R0, run_bind, R1, run_bind, (proj1 D0), run_bind, (proj1 D1), run_bind, (proj1 Dj0), run_bind, (proj1 Dj1), run_bind, Hs, run_bind, Hr. exact (proj1 (aff_of_jac_determ r X Y J')).
Qed.
