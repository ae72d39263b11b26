(** A cheating execution of the whole hash: for the field elements (1, 0) and
    (2, 0) the prover answers the three tests of g2SqrtRatio with non-canonical
    ones and the accepted output is not on the curve. *)
From Coq Require Import ZArith NArith List Bool Lia Field Uint63.
From Verif Require Import Params ZMod RingPow Circuit Api Emulated ApiFacts FieldFacts Tower TowerFacts TowerProofs FastMod FastParams FastTower Pairing CurveSpec G2 HashG2 G2Spec HashSpec G2Pred EcGroup G2Jac G2Mul G2Cof G2Psi G2Clear G2Chain HashSgn HashSqrt HashIso HashMap HashFinal HashWitPts HashWit HashFast.
Import ListNotations.
Open Scope Z_scope.
Add Field E2FK : E2_ft.

Definition kX : Z2 := zz 0x14cda7ee9466521508e2ec91cf6fbd791d2c3c6a5c6a7565ec270ee72bc0c4e9b2233332277666662e6599999999562 0x107824f2357baba5fc5e509e198dcb5537185a7ede7ef246059eebcc57f89be3ad068887b4931110e4bb199999996386.
Definition kY : Z2 := zz 0x12f96a326d5c00318a1de170f7c1f3680f7c91498c9476d8788c58421d043df839d2a1737828fae0472373fb649b8c73 0xfa0935f5e2fb852dedd9a83dff6ed18a8671b047ded2fd7eefa80b431c0530c55d1611d826675b045f5c710281aa51c.
Definition ky : Z2 := zz 0x12f96a326d5c00318a1de170f7c1f3680f7c91498c9476d8788c58421d043df839d2a1737828fae0472373fb649b8c73 0xfa0935f5e2fb852dedd9a83dff6ed18a8671b047ded2fd7eefa80b431c0530c55d1611d826675b045f5c710281aa51c.
Definition kqx : Z2 := zz 0xe81820c7abdb0f8cde3458c16f68012790b17f846ede8625d510b049af4c021b0641de8c568667f42f4563dce812ff4 0x188a012ee1f7914260cc4bd8152093eff312c7b7a2de81b44cf7ec6450f88dad301863b91dcc3d01f3601eadddf1f242.
Definition kqy : Z2 := zz 0x10695faa4f1445370e4a7a9013b3d590dda68557ab8f970deb7eaafeb489d99bab7ef617357c4a81bbcf110eda43bbf0 0x4054e72bd1232248a8f7d622ba58b1a30e823489a3108545bee5cd2fd0ab9425c1b191a85df8e0beac6ced34fd002cf.
Definition kl : Z2 := zz 0x19573234c592c8767fca673b6095b0b751bad1d795091165d83f9dbecc4e0036657b2537a7e14d49cb355bcdfe1dd93a 0x16d9b9fe219cb6c293a7ad1a3d02fca0cdb0d885ee798fc0284d653118df0c728e8286034ba6ef0eb2ea64062ca12f9f.
Definition kgn : Z2 := zz 0xb57b80c80 0x130eaee680.
Definition kgd : Z2 := zz 0xed4e000 0x1a0111ea397fe69a4b1ba7b6434bacd764774b84f38512bf6730d2a0f6b0f6241eabfffeb153ffffb9feffffea934aab.
Definition ki1 : Z2 := zz 0x60efdb56865ffea109297763d196c5d580044bb7c0ffbb2f57de9609ffde599a8adf89a471e7dffa344b0a4f610effc 0xcea70461618d22aae92356f852b089b3df01de35a98f806eb1da223d516c197403bb5f8d9c1e4da22412a79a5464a23.
Definition ki2 : Z2 := zz 0x177cd04f2d353305d405df0d86caadfa7c8f43aed344a17caae8f516c84ae5f0f72ee4b067a7bcb5ed39ab412f96d302 0x1185cb4e2306edf7fa59ac1d2bc69cf2996505a68c0287ec91c5640799052e3fd9a5b2d95d627e95df2a3862f8d36cb6.
Definition kl1 : Z2 := zz 0xdcd0fd4eaa0994dab73575c854fc5c3178b93a7345fbc61ef5460c33d226579b76efa1841e6120f2d94dc755cf5d5c1 0xe4100eb76ca44fe4e03089b182f03e401e10f52277accb24321a011664a1c203bb2bdd30c9fbdd174d80d6b77bc51ee.
Definition kl2 : Z2 := zz 0xff62df6d710b991d1cf3ac1987cdb521640730b2034f1828f2d46cfa5d16a6511d26f4004c5f1402c0bb3d924f3b3b8 0x194c439797b92748f2410ee37dc288557ee47464516b6f8c84704f0d2499a49a448b58b8fdc0fcf7f7a442822c76bc90.
Definition kl3 : Z2 := zz 0x112bb28af3d516d0124c853090987fea5a733976608f2f33f89e80f6ee2cae2927d2df34ace0ed53156cd50cd4fe9098 0x771de1518f17bfd34dab7d1339cb530f4d236de2fb90319aad87bd39bb76065fa0051682c1ccc7f1adcc2fea1661bc2.
Definition kl4 : Z2 := zz 0x120d0dee81d3bbb1f15126fb7e9ebe993a927d4cc87b80f7b498b50f062fafae153fc8300ff2675d74f251f480b2d15e 0x104f68c70f3dfd25f74a812380436c012999502b5a1cb444138d7ac9184f6f9f37f07b2464d0f4000e635f1896fc25ed.
Definition kl5 : Z2 := zz 0xece7b13b337c5b8151f8bc3f700d6ca266b045e57638d7e59748df929ca7dae80f100d7dd8cde7d3382d95663b0148e 0x18dab1014e9fbce92cdd87445a6860b0e58f8f9d58ef0b5ed62ccca283bdb0ae4ba59370d6372ef310480cee6ca9f216.
Definition kl6 : Z2 := zz 0x3653dfa9bcf3d07b536ba1dfe81638749bef09373b91d54cd29f89f2a9cacaa93492109a8d9b78e9c3cdf1efebf0b94 0x1511496a47829685897f33a5cb49944e974612fb228ac883bdd930a329246b3554a907038efdc381f6ca260e6eae0c58.
Local Ltac kl_ := cbv beta delta [kX kY ky kqx kqy kl kgn kgd ki1 ki2 kl1 kl2 kl3 kl4 kl5 kl6].
Definition kz : E2 := sr3c (gn (e2Z wu0)) (gd (e2Z wu0)) true true true.
Lemma gd_sub u : gd u = (let m := E2_Mul (E2_Sub E2_Zero (md u)) isoA in E2_Mul (E2_Mul m m) m).
Proof. cbv zeta. rewrite <- mm_sub. reflexivity. Qed.
Lemma gn_sub u : gn u = (let m := E2_Mul (E2_Sub E2_Zero (md u)) isoA in E2_Add (E2_Mul (E2_Add (E2_Mul (mn u) (mn u)) (E2_Mul (E2_Mul m m) isoA)) (mn u)) (E2_Mul (E2_Mul (E2_Mul m m) m) isoB)).
Proof. cbv zeta. rewrite <- mm_sub. reflexivity. Qed.
Local Ltac wmap := unfold iso_g, mn, md, mt, isoA, isoB, isoZ, E2_One, E2_Zero; wl; fast_e2.
Lemma k_gn : (let u := e2Z wu0 in let m := E2_Mul (E2_Sub E2_Zero (md u)) isoA in E2_Add (E2_Mul (E2_Add (E2_Mul (mn u) (mn u)) (E2_Mul (E2_Mul m m) isoA)) (mn u)) (E2_Mul (E2_Mul (E2_Mul m m) m) isoB)) = e2Z kgn.
Proof. cbv zeta. kl_. wmap. Qed.
Lemma k_gd : (let u := e2Z wu0 in let m := E2_Mul (E2_Sub E2_Zero (md u)) isoA in E2_Mul (E2_Mul m m) m) = e2Z kgd.
Proof. cbv zeta. kl_. wmap. Qed.
Lemma kz_Y : mY (e2Z wu0) true kz = e2Z kY.
Proof.
  unfold kz. rewrite (eq_trans (gn_sub (e2Z wu0)) k_gn), (eq_trans (gd_sub (e2Z wu0)) k_gd). unfold mY, sr3c, sr3b, sr3a, mulif, sr3, sr_w. kl_. unfold sqrtTv1, sqrtC7, fpMont, mt, isoZ. wl.
  let k := eval vm_compute in (Z.to_N sqrtC3) in change (Z.to_N sqrtC3) with k. fast_e2.
Qed.
Lemma k_X : E2_Mul (e2Z kX) (mm (e2Z wu0)) = mX (e2Z wu0) true. Proof. rewrite mm_sub. unfold mX. kl_. wmap. Qed.
Lemma k_y : e2Z ky = e2Z kY. Proof. kl_. wl. fast_e2. Qed.
Lemma k_ker : E2_Add (e2Z kX) kerc <> E2_Zero. Proof. unfold kerc, E2_Zero. kl_. wl. fast_e2. Qed.
Lemma k_iso : iso_map (e2Z kX) (e2Z ky) (wP kqx kqy).
Proof. unfold wP, iso_map, iso_x_num, iso_x_den, iso_y_num, iso_y_den; cbn [poly]; unfold E2_Zero; kl_; wl; split; [fast_e2|]; split; [fast_e2|]; split; fast_e2. Qed.
Definition offCurve (s : A2) : bool := negb (l2eq (l2mul (snd s) (snd s)) (l2add (l2mul (fst s) (l2mul (fst s) (fst s))) (l2Z (4, 4)))).
Definition kCheck : bool := ask (faadd (l2Z kl) (l2Z kqx, l2Z kqy) (l2Z wq1x, l2Z wq1y)) (fun s => fclearOk ki1 ki2 kl1 kl2 kl3 kl4 kl5 kl6 s offCurve).
Lemma kCheck_ok : kCheck = true. Proof. vm_cast_no_check (eq_refl true). Qed.
Lemma e2Z44 : e2Z (4, 4) = g2b. Proof. reflexivity. Qed.
Local Opaque E2_Mul E2_Add E2_Sub E2_Neg isoA isoB isoZ E2_One E2_Zero sqrtT iso_map g2SqrtRatio g2Sgn0 MapElementToCurve2 kz fclearOk faadd l2Z l2mul l2add l2eq G2AddAssign G2ClearCofactor outRed G2Isogeny.
Lemma off_ok s R : stA s R -> offCurve s = true -> ~ g2on (aff2 R).
Proof.
  intros (HX & HY) C O. unfold offCurve in C. apply negb_true_iff in C.
  apply (l2neq_ok _ _ _ _ (st2_mul _ _ _ _ HY HY) (st2_add _ _ _ _ (st2_mul _ _ _ _ HX (st2_mul _ _ _ _ HX HX)) (st2_Z (4, 4)))) in C. rewrite e2Z44 in C.
  apply C. unfold g2on, aff2 in O. cbn [on_curve] in O. rewrite O. unfold g2a. ring.
Qed.
Lemma k_tail : exists R, determ (sumTail (mkG2 (e2Z kqx) (e2Z kqy)) (mkG2 (e2Z wq1x) (e2Z wq1y))) R /\ ~ g2on (aff2 R).
Proof.
  pose proof kCheck_ok as C. unfold kCheck in C. apply ask_ok in C. destruct C as (s & K & C).
  assert (S0 : stA (l2Z kqx, l2Z kqy) (mkG2 (e2Z kqx) (e2Z kqy))) by (split; apply st2_Z). assert (S1 : stA (l2Z wq1x, l2Z wq1y) (mkG2 (e2Z wq1x) (e2Z wq1y))) by (split; apply st2_Z).
  pose proof (faadd_ok kl _ _ _ _ S0 S1) as D. rewrite K in D. cbn [fst snd] in D. destruct (D eq_refl) as (S & DS & SS).
  destruct (fclear_ok _ _ _ _ _ _ _ _ _ _ _ SS C) as (R & s' & DR & SR & CR). exists R. split; [|exact (off_ok _ _ SR CR)].
  unfold sumTail. eapply determ_bind; [exact DS|]. eapply determ_bind; [exact DR | apply outRed_determ].
Qed.
Lemma k_map : sat (MapElementToCurve2 (e2Z wu0)) (mkG2 (e2Z kX) (e2Z ky)).
Proof.
  assert (Hz : sat (g2SqrtRatio (gn (e2Z wu0)) (gd (e2Z wu0))) (kz, bF true)) by (apply sat_sqrt; exists true, true, true; split; [discriminate|]; split; [discriminate|]; split; [discriminate | reflexivity]).
  assert (X : E2_div (mX (e2Z wu0) true) (mm (e2Z wu0)) = e2Z kX). { rewrite <- k_X. pose proof (mm_neq0 _ wu0_nz) as M. field. exact M. }
  apply sat_map. exists kz, true, (Z.odd (fval (A0 (e2Z wu0)))), (Z.odd (fval (A0 (mY (e2Z wu0) true kz)))).
  split; [exact Hz|]. split; [apply sat_sgn0; left; reflexivity|]. split; [apply sat_sgn0; left; reflexivity|]. split; [exact (mm_neq0 _ wu0_nz)|].
  rewrite X, kz_Y. apply mkG2_ext; [reflexivity|]. replace (xorb (Z.odd (fval (A0 (e2Z wu0)))) (Z.odd (fval (A0 (e2Z kY))))) with false by (vm_compute; reflexivity). cbn [negif].
  rewrite k_y. reflexivity.
Qed.
Theorem hash_off_curve : exists u0 u1 R, u0 <> E2_Zero /\ u1 <> E2_Zero /\ sat (hashTail u0 u1) R /\ ~ g2on (aff2 R).
Proof.
  exists (e2Z wu0), (e2Z wu1). destruct k_tail as (R & D & O). exists R. split; [exact wu0_nz|]. split; [exact wu1_nz|]. split; [|exact O].
  rewrite hashTail_eq. apply sat_bind. exists (mkG2 (e2Z kX) (e2Z ky)). split; [exact k_map|]. apply sat_bind. exists (mkG2 (e2Z wx1) (e2Z wy1)). split; [exact (run_sat _ _ w1_run)|].
  pose proof (iso_off_kernel _ _ (sswu_on _ _ _ w1_xy)) as K1.
  pose proof (iso_map_fun _ _ _ _ k_iso (iso_map_ok _ _ k_ker)) as E0. pose proof (iso_map_fun _ _ _ _ w1_iso (iso_map_ok _ _ K1)) as E1.
  change (aff2 (mkG2 (e2Z kqx) (e2Z kqy)) = aff2 (iso_pt (e2Z kX) (e2Z ky))) in E0. apply aff2_inj in E0. change (aff2 (mkG2 (e2Z wq1x) (e2Z wq1y)) = aff2 (iso_pt (e2Z wx1) (e2Z wy1))) in E1. apply aff2_inj in E1.
  unfold isoTail. apply sat_bind. eexists. split; [exact (run_sat _ _ (proj1 (iso_determ _ _ k_ker)))|]. apply sat_bind. eexists. split; [exact (run_sat _ _ (proj1 (iso_determ _ _ K1)))|].
  rewrite <- E0, <- E1. exact (run_sat _ _ (proj1 D)).
Qed.
