(** Jacobian cofactor clearing at a point of order 13: the formula gives
    infinity, but a prover can make the circuit return the negated input, a
    point outside the subgroup. *)
From Coq Require Import ZArith List Bool Lia.
From Verif Require Import Params ZMod Circuit Api Emulated ApiFacts Tower FieldFacts TowerFacts Pairing CurveSpec G2 HashG2 G2Spec EcGroup G2Jac G2Mul G2Cof G2Psi G2Clear G2Refute TwistPt TwGroup TwistSmall G2Full Clear13 ConstMulExact HashFull Primes Primes2 G2Chain.
Import ListNotations.
Open Scope Z_scope.

Lemma jt_add p q x y : jrep p (tv x) -> jrep q (tv y) -> exists r, sat (G2JacobianAddAssign p q) r /\ jrep r (tv (tadd x y)).
Proof.
  intros Hp Hq. destruct (jac_add_honest p q (tv x) (tv y) Hp Hq (ton x) (ton y)) as (r & R & Hr & HR & HJ).
  exists r. split; [now apply run_sat|]. now rewrite <- (tadd_fun x y R HR).
Qed.
Lemma jt_neg p x : jrep p (tv x) -> jrep (G2JacobianNeg p) (tv (topp x)).
Proof. exact (jrep_neg p (tv x)). Qed.
Lemma jt_sub p q x y : jrep p (tv x) -> jrep q (tv y) -> exists r, sat (G2JacobianSubAssign p q) r /\ jrep r (tv (tadd x (topp y))).
Proof. intros Hp Hq. exact (jt_add p (G2JacobianNeg q) x (topp y) Hp (jt_neg q y Hq)). Qed.
Lemma jt_double p x : jrep p (tv x) -> jrep (G2JacobianDouble p) (tv (tm 2 x)).
Proof.
  intros Hp. destruct (jac_double p (tv x) Hp) as (R & HR & HJ). change 2 with (1 + 1). rewrite tm_add, !tm_1.
  now rewrite <- (tadd_fun x x R HR).
Qed.
Lemma jt_const p x : jrep p (tv x) -> exists r, sat (G2JacobianConstScalarMul p) r /\ jrep r (tv (tm 15132376222941642752 x)).
Proof.
  intros Hp. destruct (constmul_honest p (tv x) (ton x) Hp) as (r & R & Hr & HR & HJ). exists r. split; [now apply run_sat|].
  now rewrite <- (proj1 (tm_iff _ _ _) HR).
Qed.
Lemma jt_w3 p x : jrep p (tv x) -> jrep (mkJ (E2_MulByElement (jX p) thirdRootOneG1) (jY p) (jZ p)) (tv (topp (tpsi (tpsi x)))).
Proof. exact (jrep_w3 p (tv x)). Qed.

(** every prover choice that sends the first chain to infinity *)
Lemma clear_cheat J x : jrep J (tv x) -> tm 13 x = tO ->
  exists r, sat (ClearCofactor J) r /\ jrep r (tv (tadd (tadd (topp x) (tpsi (topp x))) (tpsi (tpsi (tm 2 x))))).
Proof.
  intros HJ K. destruct (constmul_cheat13 J (tv x) (ton x) HJ (proj2 (tm_inf 13 x) K)) as (xg & S1 & J1).
  change (jrep xg (tv tO)) in J1. pose proof (jt_neg _ _ J1) as N1.
  replace (topp tO) with tO in N1 by (now apply tv_inj).
  destruct (jt_const _ _ N1) as (xxg & S2 & J2). rewrite tm_O in J2. pose proof (jt_neg _ _ J2) as N2.
  replace (topp tO) with tO in N2 by (now apply tv_inj).
  destruct (jt_sub _ _ _ _ N2 N1) as (r1 & S3 & J3). rewrite tadd_opp in J3.
  destruct (jt_sub _ _ _ _ J3 HJ) as (r2 & S4 & J4). rewrite tadd_O in J4.
  destruct (jt_sub _ _ _ _ N1 HJ) as (t & S5 & J5). rewrite tadd_O in J5.
  destruct (jt_add _ _ _ (tpsi (topp x)) J4 (jrep_psi _ _ J5)) as (r3 & S6 & J6).
  destruct (jt_sub _ _ _ _ J6 (jt_w3 _ _ (jt_double _ _ HJ))) as (r & S7 & J7). rewrite topp_opp in J7.
  exists r. split; [|exact J7].
  unfold ClearCofactor. apply sat_bind. exists xg. split; [exact S1|]. cbv zeta. apply sat_bind. exists xxg. split; [exact S2|].
  apply sat_bind. exists r1. split; [exact S3|]. apply sat_bind. exists r2. split; [exact S4|]. apply sat_bind. exists t. split; [exact S5|].
  apply sat_bind. exists r3. exact (conj S6 S7).
Qed.

Theorem clear13_jac : exists J P r Q, g2on P /\ jrep J P /\ cleared P Inf /\ sat (ClearCofactor J) r /\ jrep r Q /\ g2on Q /\ Q <> Inf /\ ~ in_G2 Q.
Proof.
  destruct (clear_cheat (mkJ (g2X u13p) (g2Y u13p) E2_One) u13 (jrep_one _ _) u13_kill) as (r & Sr & Jr).
  assert (E : tadd (tadd (topp u13) (tpsi (topp u13))) (tpsi (tpsi (tm 2 u13))) = tm (-1) u13).
  { rewrite tpsi_opp, u13_psi, tpsi_m, u13_psi, tpsi_m, tpsi_m, u13_psi, <- !tm_mul, <- (tm_neg 7).
    rewrite <- (tm_1 u13) at 1. rewrite <- (tm_neg 1), <- !tm_add. apply u13_mod. exists 7. reflexivity. }
  rewrite E in Jr. exists (mkJ (g2X u13p) (g2Y u13p) E2_One), (tv u13), r, (tv (tm (-1) u13)).
  split; [exact (ton u13)|]. split; [exact (jrep_one _ _)|]. split; [exact u13_clear|]. split; [exact Sr|]. split; [exact Jr|].
  split; [exact (ton _)|]. split.
  - change Inf with (tv tO). rewrite <- (tm_0 u13). apply tv_ne, u13_dist. discriminate.
  - intros (_ & _ & Q & HQ & HM). apply psiP_spec in HQ. apply (proj1 (tm_iff _ _ _)) in HM.
    assert (F : tv (tpsi (tm (-1) u13)) = tv (tm blsX (tm (-1) u13))) by (rewrite <- HM; symmetry; exact HQ).
    rewrite tpsi_m, u13_psi, <- !tm_mul in F. revert F. apply tv_ne, u13_dist. vm_compute. discriminate.
Qed.

(** ** The exact condition *)
Lemma tv_inf x : tv x <> Inf <-> x <> tO.
Proof. split; intros N E; apply N; [now rewrite E | now apply tv_inj]. Qed.
Lemma two_free k x : Z.gcd k (h2BLS * rBLS) = 1 -> tm k x = tO -> x = tO.
Proof.
  intros G K. destruct (tdec x tO) as [E|N]; [exact E|exfalso]. exact (kill_1 (tv x) k (ton x) G (proj2 (tv_inf x) N) (proj2 (tm_inf k x) K)).
Qed.
Lemma tpsi_zero x : tpsi x = tO -> x = tO.
Proof.
  intros E. apply (f_equal tv) in E. apply tv_inj. destruct x as [[|a b] H]; [reflexivity|discriminate].
Qed.
Ltac gcd1 := vm_compute; reflexivity.
Lemma thirteen k x : Z.gcd k (h2BLS * rBLS) = 13 -> tm 13 x <> tO -> tm k x <> tO.
Proof. intros G N K. apply N. apply (proj1 (tm_inf 13 x)). exact (kill_only (tv x) k 13 (ton x) G (proj2 (tm_inf k x) K)). Qed.
Lemma add_zero a b : tadd a b = tO -> a = topp b.
Proof. intros E. rewrite tcomm in E. now apply topp_unique. Qed.
(** the two summands of the formula differ *)
Lemma parts_differ x : x <> tO -> tcl x = tO -> tm (blsX * blsX - blsX - 1) x <> tpsi (tm (blsX - 1) x).
Proof.
  intros N C E. unfold tcl in C. rewrite E, !tpsi_m in C.
  assert (D : tadd (tm (blsX - 1) (tpsi x)) (tpsi (tpsi x)) = tO).
  { apply (two_free 2 _); [gcd1|]. rewrite tm_sum, <- C. f_equal. change 2 with (1 + 1) at 1. now rewrite tm_add, !tm_1. }
  rewrite <- tpsi_m, <- tpsi_add in D. apply tpsi_zero in D. rewrite tcomm in D. apply add_zero in D.
  rewrite tpsi_m, D, tm_opp, <- tm_mul, <- tm_neg in E.
  assert (Z0 : tm (2 * (blsX * blsX) - 3 * blsX) x = tO).
  { replace (2 * (blsX * blsX) - 3 * blsX) with ((blsX * blsX - blsX - 1) + (blsX - 1) * (blsX - 1)) by ring.
    rewrite tm_add, E, tcomm, tm_neg. apply tadd_opp. }
  apply N. revert Z0. apply two_free. gcd1.
Qed.

Lemma js_add p q x y r : jrep p (tv x) -> jrep q (tv y) -> x <> tO -> y <> tO -> x <> y -> sat (G2JacobianAddAssign p q) r -> jrep r (tv (tadd x y)).
Proof.
  intros Hp Hq Nx Ny Nxy H.
  destruct (jac_add_sound p q (tv x) (tv y) r Hp Hq (ton x) (ton y) (proj2 (tv_inf x) Nx) (proj2 (tv_inf y) Ny) (tv_ne _ _ Nxy) H) as (R & HR & HJ).
  now rewrite <- (tadd_fun x y R HR).
Qed.
Lemma js_addm p q x i j r : jrep p (tv (tm i x)) -> jrep q (tv (tm j x)) -> tm i x <> tO -> tm j x <> tO -> tm (i - j) x <> tO ->
  sat (G2JacobianAddAssign p q) r -> jrep r (tv (tm (i + j) x)).
Proof.
  intros Hp Hq Ni Nj Nij H. rewrite tm_add. apply (js_add p q); try assumption.
  intros E. apply Nij. replace (i - j) with (i + - j) by ring. rewrite tm_add, E, tm_neg. apply tadd_opp.
Qed.
Lemma jt_negm p i x : jrep p (tv (tm i x)) -> jrep (G2JacobianNeg p) (tv (tm (- i) x)).
Proof. intros H. rewrite tm_neg. now apply jt_neg. Qed.
Lemma js_const p x i r : jrep p (tv (tm i x)) -> tm i x <> tO -> tm (13 * i) x <> tO -> sat (G2JacobianConstScalarMul p) r ->
  jrep r (tv (tm (15132376222941642752 * i) x)).
Proof.
  intros Hp N N13 H. assert (M : ~ g2mul (tv (tm i x)) 13 Inf).
  { intros K. apply (proj1 (tm_inf _ _)) in K. rewrite <- tm_mul in K. exact (N13 K). }
  destruct (constmul_sound13 p (tv (tm i x)) r (ton _) Hp (proj2 (tv_inf _) N) M H) as (R & HR & HJ).
  rewrite tm_mul. now rewrite <- (proj1 (tm_iff _ _ _) HR).
Qed.
Lemma unit_ne k x : Z.gcd k (h2BLS * rBLS) = 1 -> x <> tO -> tm k x <> tO.
Proof. intros G N K. exact (N (two_free k x G K)). Qed.

(** points the formula sends to infinity *)
Lemma clear_zero_sound J x r : jrep J (tv x) -> x <> tO -> tm 13 x <> tO -> tcl x = tO -> sat (ClearCofactor J) r -> jrep r Inf.
Proof.
  intros HJ N N13 C H. rewrite <- (tm_1 x) in HJ.
  unfold ClearCofactor in H. apply sat_bind in H. destruct H as (xg & S1 & H). cbv zeta in H. apply sat_bind in H. destruct H as (xxg & S2 & H).
  apply sat_bind in H. destruct H as (r1 & S3 & H). apply sat_bind in H. destruct H as (r2 & S4 & H). apply sat_bind in H. destruct H as (t & S5 & H).
  apply sat_bind in H. destruct H as (r3 & S6 & H).
  pose proof (js_const J x 1 xg HJ ltac:(now rewrite tm_1) ltac:(exact N13) S1) as J1. apply jt_negm in J1.
  change (- (15132376222941642752 * 1)) with blsX in J1.
  pose proof (js_const _ x blsX xxg J1 ltac:(apply unit_ne; [gcd1|exact N]) ltac:(apply thirteen; [gcd1|exact N13]) S2) as J2. apply jt_negm in J2.
  change (- (15132376222941642752 * blsX)) with (blsX * blsX) in J2.
  pose proof (js_addm _ _ x _ _ r1 J2 (jt_negm _ _ _ J1) ltac:(apply unit_ne; [gcd1|exact N]) ltac:(apply unit_ne; [gcd1|exact N]) ltac:(apply unit_ne; [gcd1|exact N]) S3) as J3.
  pose proof (js_addm _ _ x _ _ r2 J3 (jt_negm _ _ _ HJ) ltac:(apply unit_ne; [gcd1|exact N]) ltac:(apply unit_ne; [gcd1|exact N]) ltac:(apply thirteen; [gcd1|exact N13]) S4) as J4.
  change (blsX * blsX + - blsX + - (1)) with (blsX * blsX - blsX - 1) in J4.
  pose proof (js_addm _ _ x _ _ t J1 (jt_negm _ _ _ HJ) ltac:(apply unit_ne; [gcd1|exact N]) ltac:(apply unit_ne; [gcd1|exact N]) ltac:(apply unit_ne; [gcd1|exact N]) S5) as J5.
  change (blsX + - (1)) with (blsX - 1) in J5.
  assert (NB : tpsi (tm (blsX - 1) x) <> tO) by (intros E; apply tpsi_zero in E; revert E; apply unit_ne; [gcd1|exact N]).
  pose proof (js_add _ _ _ (tpsi (tm (blsX - 1) x)) r3 J4 (jrep_psi _ _ J5) ltac:(apply unit_ne; [gcd1|exact N]) NB (parts_differ x N C) S6) as J6.
  rewrite tm_1 in HJ. pose proof (jt_neg _ _ (jt_w3 _ _ (jt_double _ _ HJ))) as J7. rewrite topp_opp in J7.
  assert (NC : tpsi (tpsi (tm 2 x)) <> tO) by (intros E; apply tpsi_zero, tpsi_zero in E; revert E; apply unit_ne; [gcd1|exact N]).
  assert (NS : tadd (tm (blsX * blsX - blsX - 1) x) (tpsi (tm (blsX - 1) x)) <> tO).
  { intros E. unfold tcl in C. rewrite E, tadd_O in C. exact (NC C). }
  assert (ND : tadd (tm (blsX * blsX - blsX - 1) x) (tpsi (tm (blsX - 1) x)) <> tpsi (tpsi (tm 2 x))).
  { intros E. unfold tcl in C. rewrite E in C. apply NC. apply (two_free 2 _); [gcd1|]. change 2 with (1 + 1) at 1. rewrite tm_add, !tm_1. exact C. }
  pose proof (js_add _ _ _ _ r J6 J7 NS NC ND H) as J8. fold (tcl x) in J8. rewrite C in J8. exact J8.
Qed.
Lemma clear_inf J r : jrep J Inf -> sat (ClearCofactor J) r -> jrep r Inf.
Proof.
  intros HJ H. unfold ClearCofactor in H. apply sat_bind in H. destruct H as (xg & S1 & H). cbv zeta in H. apply sat_bind in H. destruct H as (xxg & S2 & H).
  apply sat_bind in H. destruct H as (r1 & S3 & H). apply sat_bind in H. destruct H as (r2 & S4 & H). apply sat_bind in H. destruct H as (t & S5 & H).
  apply sat_bind in H. destruct H as (r3 & S6 & H).
  pose proof (jrep_neg _ _ (constmul_inf _ _ HJ S1)) as J1. pose proof (jrep_neg _ _ (constmul_inf _ _ J1 S2)) as J2.
  pose proof (jac_add_inf _ _ _ J2 (jrep_neg _ _ J1) S3) as J3. pose proof (jac_add_inf _ _ _ J3 (jrep_neg _ _ HJ) S4) as J4.
  pose proof (jac_add_inf _ _ _ J1 (jrep_neg _ _ HJ) S5) as J5. pose proof (jac_add_inf _ _ _ J4 (jrep_psi t Inf J5) S6) as J6.
  exact (jac_add_inf _ _ _ J6 (jrep_neg _ _ (jrep_w3 _ Inf (double_Z0 _ HJ))) H).
Qed.
(** the value a prover can reach at order 13 is not the right one *)
Lemma cheat_ne x : x <> tO -> tm 13 x = tO -> tcl x = tO /\ tadd (tadd (topp x) (tpsi (topp x))) (tpsi (tpsi (tm 2 x))) <> tO.
Proof.
  intros N K. assert (C : tcl x = tO).
  { destruct (tdec (tcl x) tO) as [E|D]; [exact E|exfalso]. assert (X : tm 13 (tcl x) = tO).
    { rewrite <- tcl_m, K. apply tcl_O. }
    pose proof (t_ord rBLS 13 (tcl x) rBLS_prime (all_K x) D X) as Hq. apply Z.divide_pos_le in Hq; [|reflexivity]. apply Hq. reflexivity. }
  split; [exact C|]. intros E.
  assert (M : forall a b, (13 | a - b) -> tm a x = tm b x).
  { intros a b D. replace a with ((a - b) + b) by ring. rewrite tm_add, (tm_kill 13 _ x K D). apply tadd_O. }
  assert (Kp : tm 13 (tpsi x) = tO) by (rewrite <- tpsi_m, K; exact tpsi_O).
  assert (Mp : forall a b, (13 | a - b) -> tm a (tpsi x) = tm b (tpsi x)).
  { intros a b D. replace a with ((a - b) + b) by ring. rewrite tm_add, (tm_kill 13 _ _ Kp D). apply tadd_O. }
  set (w := tpsi (tpsi (tm 2 x))) in *. unfold tcl in C. fold w in C. rewrite <- C in E. apply tcancel in E.
  rewrite tpsi_m, (M (blsX * blsX - blsX - 1) 11 ltac:(exists ((blsX * blsX - blsX - 1 - 11) / 13); vm_compute; reflexivity)),
    (Mp (blsX - 1) 3 ltac:(exists ((blsX - 1 - 3) / 13); vm_compute; reflexivity)), tpsi_opp in E.
  assert (L : tpsi x = tm 10 x).
  { assert (A : tadd (tm 12 x) (tm 4 (tpsi x)) = tO).
    { change 12 with (11 + 1). change 4 with (3 + 1). rewrite !tm_add, !tm_1, tswap.
      rewrite <- E, <- topp_add, tcomm. apply tadd_opp. }
    apply (f_equal (tm 10)) in A. rewrite tm_sum, <- !tm_mul, tm_O in A. change (10 * 4) with 40 in A. change (10 * 12) with 120 in A.
    rewrite (Mp 40 1 ltac:(exists 3; reflexivity)), (M 120 3 ltac:(exists 9; reflexivity)), tm_1 in A. apply topp_unique in A. rewrite A, <- tm_neg.
    apply M. exists (-1). reflexivity. }
  unfold w in C. rewrite !tpsi_m, L, !tpsi_m, L, <- !tm_mul, <- !tm_add in C.
  apply N. pose proof (kill_gcd x _ _ C K) as G. rewrite <- (tm_1 x).
  assert (G1 : Z.gcd (blsX * blsX - blsX - 1 + (blsX - 1) * 10 + 2 * 10 * 10) 13 = 1) by (vm_compute; reflexivity).
  rewrite <- G1. exact G.
Qed.
Lemma fin_nz r Q : jrep r Q -> Q <> Inf -> jZ r <> E2_Zero.
Proof. destruct Q as [|X Y]; intros H N; [now destruct N | exact (jrep_aff_nz _ _ _ H)]. Qed.
Theorem clear_exact J P : g2on P -> jrep J P ->
  ((forall r, sat (ClearCofactor J) r -> exists R, cleared P R /\ jrep r R) <-> (P = Inf \/ ~ g2mul P 13 Inf)).
Proof.
  intros HP HJ. set (x := tof P HP). change (jrep J (tv x)) in HJ. split.
  - intros S. destruct (inf_dec P) as [E|N]; [now left|]. right. intros K. apply (proj1 (tm_inf 13 x)) in K.
    assert (Nx : x <> tO) by exact (proj1 (tv_inf x) N).
    destruct (clear_cheat J x HJ K) as (r & Sr & Jr). destruct (cheat_ne x Nx K) as [C NE]. destruct (S r Sr) as (R & HC & HR).
    apply (proj1 (tcl_iff x R)) in HC. rewrite HC, C in HR. apply (proj2 (tv_inf _)) in NE.
    exact (fin_nz _ _ Jr NE (proj1 (jrep_inf r) HR)).
  - intros D r Sr. exists (tv (tcl x)). split; [exact (tcl_ok x)|]. destruct (tdec (tcl x) tO) as [C|NC].
    + rewrite C. destruct (tdec x tO) as [E|N].
      * rewrite E in HJ. exact (clear_inf J r HJ Sr).
      * apply (clear_zero_sound J x r HJ N); [|exact C|exact Sr]. destruct D as [E|D]; [destruct N; now apply tv_inj|].
        intros K. apply D. exact (proj2 (tm_inf 13 x) K).
    + exact (proj1 (clear_sound_full J P (tv (tcl x)) r HP HJ (tcl_ok x) (proj2 (tv_inf _) NC) Sr)).
Qed.

(** ** The affine version *)
Lemma as_add p q x y r : aff2 p = tv x -> aff2 q = tv y -> x <> y -> tadd x y <> tO -> sat (G2AddAssign p q) r -> aff2 r = tv (tadd x y).
Proof.
  intros Ep Eq N1 N2 H. destruct (aff_add_ne p q _ _ Ep Eq (ton x) (ton y)) as (r' & D & A & _).
  - now apply tv_ne.
  - change (tv x <> tv (topp y)). apply tv_ne. intros E. apply N2. rewrite E, tcomm. apply tadd_opp.
  - rewrite (proj2 D r H). exact (tadd_fun _ _ _ A).
Qed.
Lemma as_subm p q x i j r : aff2 p = tv (tm i x) -> aff2 q = tv (tm j x) -> tm (i + j) x <> tO -> tm (i - j) x <> tO ->
  sat (G2SubAssign p q) r -> aff2 r = tv (tm (i - j) x).
Proof.
  intros Ep Eq N1 N2 H. rewrite aff_sub_eq in H. replace (i - j) with (i + - j) in * by ring. rewrite tm_add in *.
  apply (as_add p (affneg q)); [exact Ep| |  |exact N2|exact H].
  - rewrite aff2_neg, Eq, tm_neg. reflexivity.
  - intros E. apply N1. rewrite E, tm_neg, tcomm. apply tadd_opp.
Qed.
Lemma as_aff J x q : jrep J (tv x) -> sat (GetG2AffineFromG2Jac J) q -> aff2 q = tv x.
Proof.
  intros HJ H. destruct (tv x) as [|X Y]; [destruct (aff_of_jac_unsat J HJ q H)|].
  rewrite (proj2 (aff_of_jac_determ J X Y HJ) q H). reflexivity.
Qed.
Lemma clear_affine_zero p x : aff2 p = tv x -> tm 13 x <> tO -> tcl x = tO -> unsat (G2ClearCofactor p).
Proof.
  intros Ep N13 C r H. assert (N : x <> tO) by (intros E; rewrite E, tm_O in N13; now destruct N13).
  unfold G2ClearCofactor in H. apply sat_bind in H. destruct H as (J & S0 & H). apply sat_bind in H. destruct H as (jxg & S1 & H). cbv zeta in H.
  apply sat_bind in H. destruct H as (jxxg & S2 & H). apply sat_bind in H. destruct H as (xg & T1 & H). apply sat_bind in H. destruct H as (xxg & T2 & H).
  apply sat_bind in H. destruct H as (r1 & S3 & H). apply sat_bind in H. destruct H as (r2 & S4 & H). apply sat_bind in H. destruct H as (t & S5 & H).
  apply sat_bind in H. destruct H as (r3 & S6 & H). apply sat_bind in H. destruct H as (d & S7 & H).
  assert (HJ : jrep J (tv (tm 1 x))).
  { rewrite tm_1, <- Ep. destruct p as [a b]. apply jac_of_aff_sat in S0. destruct S0 as [->|(_ & E & _)]; [exact (jrep_one _ _)|].
    exfalso. pose proof (ton x) as O. rewrite <- Ep in O. unfold aff2 in O. cbn [g2X g2Y] in O. rewrite E in O. exact (g2_no_y0 _ O). }
  rewrite <- (tm_1 x) in Ep.
  pose proof (js_const J x 1 jxg HJ ltac:(now rewrite tm_1) ltac:(exact N13) S1) as J1. apply jt_negm in J1.
  change (- (15132376222941642752 * 1)) with blsX in J1.
  pose proof (js_const _ x blsX jxxg J1 ltac:(apply unit_ne; [gcd1|exact N]) ltac:(apply thirteen; [gcd1|exact N13]) S2) as J2. apply jt_negm in J2.
  change (- (15132376222941642752 * blsX)) with (blsX * blsX) in J2.
  pose proof (as_aff _ _ _ J1 T1) as A1. pose proof (as_aff _ _ _ J2 T2) as A2.
  pose proof (as_subm _ _ x _ _ r1 A2 A1 ltac:(apply unit_ne; [gcd1|exact N]) ltac:(apply unit_ne; [gcd1|exact N]) S3) as A3.
  pose proof (as_subm _ _ x _ _ r2 A3 Ep ltac:(apply thirteen; [gcd1|exact N13]) ltac:(apply unit_ne; [gcd1|exact N]) S4) as A4.
  pose proof (as_subm _ _ x _ _ t A1 Ep ltac:(apply unit_ne; [gcd1|exact N]) ltac:(apply unit_ne; [gcd1|exact N]) S5) as A5.
  assert (NC : tpsi (tpsi (tm 2 x)) <> tO) by (intros E; apply tpsi_zero, tpsi_zero in E; revert E; apply unit_ne; [gcd1|exact N]).
  assert (NS : tadd (tm (blsX * blsX - blsX - 1) x) (tpsi (tm (blsX - 1) x)) <> tO).
  { intros E. unfold tcl in C. rewrite E, tadd_O in C. exact (NC C). }
  assert (A5' : aff2 (G2Psi t) = tv (tpsi (tm (blsX - 1) x))) by (rewrite aff_psi, A5; reflexivity).
  pose proof (as_add _ _ _ _ r3 A4 A5' (parts_differ x N C) NS S6) as A6.
  rewrite tm_1 in Ep.
  assert (A7 : aff2 d = tv (tm 2 x)).
  { destruct (double_all p) as (d' & Dd & Hd); [rewrite Ep; exact (ton x)|]. rewrite (proj2 Dd d S7). change 2 with (1 + 1). rewrite tm_add, !tm_1.
    rewrite Ep in Hd. exact (tadd_fun x x _ Hd). }
  rewrite aff_sub_eq in H. set (w := affneg (mkG2 (E2_MulByElement (g2X d) thirdRootOneG1) (g2Y d))) in *.
  assert (Ew : aff2 w = tv (tpsi (tpsi (tm 2 x)))).
  { change (aff2 w = psiP (psiP (tv (tm 2 x)))). rewrite <- A7. unfold aff2 at 2. rewrite psiP_psi. reflexivity. }
  refine (add_opposite r3 w _ _ r H); [rewrite A6; exact (ton _)|]. rewrite A6, Ew.
  unfold tcl in C. exact (f_equal tv (add_zero _ _ C)).
Qed.
Theorem clear_affine_sound p r : g2on (aff2 p) -> ~ g2mul (aff2 p) 13 Inf -> sat (G2ClearCofactor p) r -> cleared (aff2 p) (aff2 r) /\ in_G2 (aff2 r).
Proof.
  intros HP N13 H. set (x := tof (aff2 p) HP). destruct (tdec (tcl x) tO) as [C|NC].
  - exfalso. refine (clear_affine_zero p x eq_refl _ C r H). intros K. apply N13. exact (proj2 (tm_inf 13 x) K).
  - destruct (clear_affine_full p (tv (tcl x)) HP (tcl_ok x) (proj2 (tv_inf _) NC)) as (r' & D & E & G).
    rewrite (proj2 D r H), E. split; [exact (tcl_ok x) | exact G].
Qed.
Theorem clear_affine_reject p : g2on (aff2 p) -> ~ g2mul (aff2 p) 13 Inf -> cleared (aff2 p) Inf -> unsat (G2ClearCofactor p).
Proof.
  intros HP N13 C. set (x := tof (aff2 p) HP). apply (clear_affine_zero p x eq_refl); [intros K; apply N13; exact (proj2 (tm_inf 13 x) K)|].
  apply (proj1 (tcl_iff x Inf)) in C. apply tv_inj. symmetry. exact C.
Qed.
(** points of order 23 are sent to infinity *)
Lemma order23 : exists p, g2on (aff2 p) /\ ~ g2mul (aff2 p) 13 Inf /\ cleared (aff2 p) Inf.
Proof.
  assert (N : a23 <> tO) by (intros E; apply (f_equal tv) in E; discriminate).
  assert (E : exists p, aff2 p = tv a23) by (exists (mkG2 (e2Z a23_x) (e2Z a23_y)); reflexivity).
  destruct E as (p & E). exists p. rewrite E. split; [exact (ton a23)|]. split.
  - intros K. apply (proj1 (tm_inf 13 a23)) in K. apply N. rewrite <- (tm_1 a23). exact (kill_gcd a23 13 23 K a23_kill).
  - apply (proj2 (tcl_iff a23 Inf)). now rewrite a23_clear.
Qed.
