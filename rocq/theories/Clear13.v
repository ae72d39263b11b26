(** Affine cofactor clearing at a point of order 13: the formula gives
    infinity, the code adds a point to itself and returns an affine point. *)
From Coq Require Import ZArith List Bool Lia Uint63.
From Verif Require Import Params ZMod RingPow Circuit Api Emulated ApiFacts FastMod FastParams Tower FieldFacts TowerFacts FastTower Primes Primes2 Pairing CurveSpec G2 HashG2 G2Spec EcGroup G2Jac G2Mul G2Cof G2Chain G2Psi G2Clear G2Order G2Refute G2Slope HashWitPts TwistPt TwGroup TwistSmall G2Full.
Import ListNotations.
Open Scope Z_scope.
Add Field E2FC13 : E2_ft.

(** generated: 8 u13, the slopes of its chain, and two slopes of the run *)
Definition c8_x : Z2 := (0x8abde77d1a30a35bb639080d4bd0eb083b0219f9f494b95630c5e816143c205694b06e054c40a12309b6e195d15fa83, 0x967ac361ad023198150ab1541b443ada7025ea9f067f4ec21496510a6dbcd4d0f23d8e9ccb9b5eeca0f4d55202ef8f1).
Definition c8_y : Z2 := (0x978b9d0052b314f7bb6728f5cdc90cbf423dc475b438ce7c2641d77d6789e6776977c21998601cabd8107b09df94de6, 0xf0eead2eb956009d867800ae975d1e0d41d978b05c9bbfcfd6e2cb9bb1ae0573acb5f63f7a624c6eb27f0ef18fea21d).
Definition c8_t : list sstep := [
  sd 0x173d0c04da32d2316962fed7d53e224834ea3331bc500588993f1fe902bf4e37a694c63a224344e4034f009fe1590882 0xf8339f4aaa417aa49706009357510a4a358819b64dea5588fb10d4753780b37e91a3d10d6dde5a227a49d99b43f7052;
  sd 0xeb691a78af14860c9bc2c700b5d5f19dcb6748d22bfa9feeba873d811ba11f5b52868bfd2fa9f80cedd6a04a856f17c 0x4ffc448f40ed5c472c1ff3649cd7a866f6b6f0e8e3a9a6c81779f7e0c42320a64296aa2d631f03de9a2009a0f1d797a;
  sd 0x603955f894344d1748def6f1cca1c89518e9dc59af56a2236327d832bbff87f3c876ef536cd67953899099204627ad7 0x55a67958a88b659e3681b2a79e5b52785f2890b8d5dd77629a59504ddef8c78c14ef6906cd7c88049c1666d98527462].
Definition c_l1 : Z2 := (0x37c6c678dde53903d680e1c2a6c7a7e39b91bf0de085468a5fbba85f14c362d6e976f2088056f00e4edc2d62475b330, 0x125ff3f800b554e95909c45d9599b1294d1611862a84020ec911fd833cba466d69d984dc8129793225c6ab406b34e22).
Definition c_l2 : Z2 := (0x8d6b705f30e2509e5fb36104a8c30a7f8f13304ac70bb696a32a1ccd19f93aa2be232de064e73615337470dc87faf86, 0xc5937007c2041d94959fcabdf6c3f24015f815399a5308b1bc27b8e1c30bbbac859c6514c7c446c86a12ec4144b9ca6).

Definition u13p : G2Affine := mkG2 (e2Z u13_x) (e2Z u13_y).
Lemma u13p_aff : aff2 u13p = tv u13. Proof. reflexivity. Qed.
Lemma aff2_eq p q : aff2 p = aff2 q -> p = q.
Proof. destruct p as [a b], q as [a' b']. unfold aff2. cbn [g2X g2Y]. intros E. inversion E. reflexivity. Qed.
Lemma mk_eta q : mkG2 (g2X q) (g2Y q) = q. Proof. destruct q. reflexivity. Qed.
Lemma u13_ne : u13 <> tO. Proof. exact (t_neq _ (wP_neq u13_x u13_y u13_on)). Qed.
Lemma u13_mod a b : (13 | a - b) -> tm a u13 = tm b u13.
Proof. intros D. replace a with (a - b + b) by lia. rewrite tm_add, (tm_kill 13 (a - b) u13 u13_kill D). apply tadd_O. Qed.
Lemma u13_dist a b : (a - b) mod 13 <> 0 -> tm a u13 <> tm b u13.
Proof.
  intros N E. apply N. assert (Z0 : tm (a - b) u13 = tO).
  { unfold Z.sub. rewrite tm_add, E, <- tm_add, Z.add_opp_diag_r. apply tm_0. }
  apply Z.mod_divide; [lia|]. exact (t_ord 13 (a - b) u13 p13 u13_kill u13_ne Z0).
Qed.
Lemma tv_ne x y : x <> y -> tv x <> tv y. Proof. intros N E. apply N. now apply tv_inj. Qed.
Lemma u13_fin k : k mod 13 <> 0 -> exists q, aff2 q = tv (tm k u13).
Proof.
  intros N. destruct (tv (tm k u13)) as [|x y] eqn:E; [|now exists (mkG2 x y)]. exfalso. apply (u13_dist k 0); [now rewrite Z.sub_0_r|]. rewrite tm_0. now apply tv_inj.
Qed.
Lemma u13_neg k : g2neg (tv (tm k u13)) = tv (tm (- k) u13). Proof. now rewrite tm_neg. Qed.
Lemma u13_sub p q a b : aff2 p = tv (tm a u13) -> aff2 q = tv (tm b u13) -> (a - b) mod 13 <> 0 -> (a + b) mod 13 <> 0 ->
  exists r, determ (G2SubAssign p q) r /\ aff2 r = tv (tm (a - b) u13).
Proof.
  intros Ep Eq N1 N2. destruct (aff_sub_ne p q _ _ Ep Eq (ton _) (ton _)) as (r & D & A & _).
  - apply tv_ne. now apply u13_dist.
  - rewrite u13_neg. apply tv_ne, u13_dist. now rewrite Z.sub_opp_r.
  - exists r. split; [exact D|]. rewrite u13_neg in A. rewrite (tadd_fun _ _ _ A). unfold Z.sub. now rewrite tm_add.
Qed.
Lemma add_same_run p : run (G2AddAssign p p) = Some (chord2 E2_Zero (g2X p) (g2Y p) (g2X p)).
Proof. unfold G2AddAssign. cbv zeta. rewrite run_bind, !sub_self, div0_run. cbn [run]. apply f_equal. unfold chord2. cbv zeta. rewrite E2_Square_eq. reflexivity. Qed.
Lemma add_run_l p q l : g2X p <> g2X q -> E2_Mul l (E2_Sub (g2X q) (g2X p)) = E2_Sub (g2Y q) (g2Y p) -> run (G2AddAssign p q) = Some (chord2 l (g2X p) (g2Y p) (g2X q)).
Proof.
  intros N E. destruct (aff_add p q N) as (r & [R U] & _). rewrite R. f_equal. symmetry. apply U. apply g2add_sat. exists l. split; [exact E | reflexivity].
Qed.

Lemma c8_on : g2on (wP c8_x c8_y).
Proof. unfold wP, g2on, g2a, g2b. cbn [on_curve]. cbv beta delta [e2Z c8_x c8_y]. cbn [fst snd]. fast_e2. Qed.
Lemma c8_mul : tm 8 u13 = tof _ c8_on.
Proof. apply (small_mul u13_x u13_y c8_x c8_y c8_t); [vm_cast_no_check (eq_refl true) | reflexivity]. Qed.
Definition c_r2 : G2Affine := chord2 E2_Zero (e2Z u13_x) (E2_Neg (e2Z u13_y)) (e2Z u13_x).
Definition c_8 : G2Affine := mkG2 (e2Z c8_x) (e2Z c8_y).
Definition c_7 : G2Affine := mkG2 (e2Z u13_px) (e2Z u13_py).
Definition c_r3 : G2Affine := chord2 (e2Z c_l1) (g2X c_r2) (g2Y c_r2) (g2X c_8).
Definition c_r : G2Affine := chord2 (e2Z c_l2) (g2X c_r3) (g2Y c_r3) (g2X c_7).
Ltac c13 := unfold c_r, c_r3, c_r2, c_8, c_7, chord2, E2_Neg; cbv zeta; cbn [g2X g2Y]; cbv beta delta [e2Z u13_x u13_y u13_px u13_py c8_x c8_y c_l1 c_l2]; cbn [fst snd A0 A1]; fast_e2.
Lemma c_add3 : run (G2AddAssign c_r2 c_8) = Some c_r3.
Proof. apply add_run_l; c13. Qed.
Lemma c_add4 : run (G2AddAssign c_r3 c_7) = Some c_r.
Proof. apply add_run_l; c13. Qed.
Lemma c_r_off : ~ g2on (aff2 c_r).
Proof. unfold g2on, aff2, g2a, g2b. cbn [on_curve]. c13. Qed.

Lemma u13_clear : cleared (aff2 u13p) Inf.
Proof.
  apply (proj2 (tcl_iff u13 Inf)). rewrite (tcl_eig 13 7 u13 u13_psi u13_kill); [reflexivity|]. exists ((blsX * blsX - blsX - 1 + 7 * (blsX - 1) + 7 * (7 * 2)) / 13). vm_compute. reflexivity.
Qed.
Theorem clear13 : run (G2ClearCofactor u13p) = Some c_r.
Proof.
  pose proof (ton u13) as HP. set (P := tv u13) in *.
  set (J := mkJ (g2X u13p) (g2Y u13p) E2_One).
  assert (Np : ~ (g2X u13p = E2_Zero /\ g2Y u13p = E2_Zero)).
  { intros [_ E2]. pose proof u13_on as C. unfold wP in C. cbn [u13p g2Y] in E2. rewrite E2 in C. exact (g2_no_y0 _ C). }
  assert (DJ : run (GetG2JacFromG2Affine u13p) = Some J).
  { unfold u13p. rewrite jac_of_aff_honest. destruct (E2_eqb (e2Z u13_x) E2_Zero && E2_eqb (e2Z u13_y) E2_Zero) eqn:B; [|reflexivity]. exfalso. apply andb_true_iff in B. destruct B as [B1 B2]. apply Np. split; apply E2_eqb_eq; assumption. }
  assert (H0 : jmul J P 1) by (exists P; split; [apply g2_mul_1 | exact (jrep_one _ _)]).
  destruct (jmul_const_honest _ _ _ HP H0) as (j1 & R1 & M1). apply jmul_neg in M1. rewrite neg_const in M1.
  destruct (jmul_const_honest _ _ _ HP M1) as (j2 & R2 & M2). apply jmul_neg in M2. rewrite neg_const2 in M2.
  destruct M1 as (Q1 & K1 & JR1), M2 as (Q2 & K2 & JR2).
  apply (proj1 (tm_iff blsX u13 Q1)) in K1. apply (proj1 (tm_iff (blsX * blsX) u13 Q2)) in K2.
  rewrite (u13_mod blsX 4 ltac:(exists ((blsX - 4) / 13); vm_compute; reflexivity)) in K1.
  rewrite (u13_mod (blsX * blsX) 3 ltac:(exists ((blsX * blsX - 3) / 13); vm_compute; reflexivity)) in K2.
  destruct (u13_fin 4 ltac:(discriminate)) as (xg & Exg). destruct (u13_fin 3 ltac:(discriminate)) as (xxg & Exxg).
  rewrite K1, <- Exg in JR1. rewrite K2, <- Exxg in JR2.
  pose proof (proj1 (aff_of_jac_determ _ _ _ JR1)) as A1. pose proof (proj1 (aff_of_jac_determ _ _ _ JR2)) as A2.
  rewrite mk_eta in A1, A2.
  destruct (u13_sub xxg xg 3 4 Exxg Exg ltac:(discriminate) ltac:(discriminate)) as (r1 & D1 & E1).
  assert (Er1 : r1 = affneg u13p).
  { change (3 - 4) with (- (1)) in E1. rewrite tm_neg, tm_1, topp_v in E1. destruct r1 as [a b]. unfold aff2 in E1. cbn [g2X g2Y] in E1. injection E1 as -> ->. reflexivity. }
  subst r1.
  assert (E0 : aff2 u13p = tv (tm 1 u13)) by now rewrite tm_1.
  destruct (u13_sub xg u13p 4 1 Exg E0 ltac:(discriminate) ltac:(discriminate)) as (t & Dt & Et). change (4 - 1) with 3 in Et.
  assert (Ept : G2Psi t = c_8).
  { assert (E : aff2 (G2Psi t) = aff2 c_8).
    { rewrite aff_psi, Et. change (psiP (tv (tm 3 u13))) with (tv (tpsi (tm 3 u13))). rewrite tpsi_m, u13_psi, <- tm_mul, (u13_mod (3 * 7) 8 ltac:(exists 1; reflexivity)), c8_mul. reflexivity. }
    exact (aff2_eq _ _ E). }
  destruct (double_all u13p u13_on) as (d & Dd & Hd).
  assert (Ed : aff2 d = tv (tm 2 u13)). { change 2 with (1 + 1). rewrite tm_add, !tm_1. exact (tadd_fun u13 u13 _ Hd). }
  assert (Ew : affneg (mkG2 (E2_MulByElement (g2X d) thirdRootOneG1) (g2Y d)) = c_7).
  { assert (E : aff2 (affneg (mkG2 (E2_MulByElement (g2X d) thirdRootOneG1) (g2Y d))) = psiP (psiP (aff2 d))) by (unfold aff2 at 2; rewrite psiP_psi; reflexivity).
    rewrite Ed in E. change (psiP (psiP (tv (tm 2 u13)))) with (tv (tpsi (tpsi (tm 2 u13)))) in E.
    rewrite !tpsi_m, u13_psi, !tpsi_m, u13_psi, <- !tm_mul, (u13_mod (2 * 7 * 7) 7 ltac:(exists 7; reflexivity)), <- u13_psi in E.
    change (tv (tpsi u13)) with (psiP (wP u13_x u13_y)) in E. rewrite u13_pc in E.
    apply aff2_eq. exact E. }
  unfold G2ClearCofactor. rewrite run_bind, DJ, run_bind, R1. cbv zeta. rewrite run_bind, R2, run_bind, A1, run_bind, A2.
  rewrite run_bind, (proj1 D1), run_bind, aff_sub_eq, add_same_run.
  change (chord2 E2_Zero (g2X (affneg u13p)) (g2Y (affneg u13p)) (g2X (affneg u13p))) with c_r2.
  rewrite run_bind, (proj1 Dt), Ept, run_bind, c_add3, run_bind, (proj1 Dd), aff_sub_eq, Ew. exact c_add4.
Qed.
Theorem clear13_refuted : exists p r, g2on (aff2 p) /\ cleared (aff2 p) Inf /\ run (G2ClearCofactor p) = Some r /\ ~ g2on (aff2 r).
Proof. exists u13p, c_r. split; [exact u13_on|]. split; [exact u13_clear|]. split; [exact clear13 | exact c_r_off]. Qed.
