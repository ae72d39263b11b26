(** Pinning down the honest point, the sign a prover may flip, and a concrete
    accepted hash. *)
From Coq Require Import ZArith NArith List Bool Lia Field.
From Verif Require Import Params ZMod RingPow Circuit Api Emulated ApiFacts FieldFacts Tower TowerFacts TowerProofs FastTower Pairing CurveSpec HashField G2 HashG2 G2Spec HashSpec G2Pred EcGroup G2Jac G2Mul G2Psi G2Clear G2Chain G2ClearFacts G2Refute HashSgn HashSqrt HashIso HashMap HashFinal HashWitPts.
Import ListNotations.
Open Scope Z_scope.
Add Field E2FW : E2_ft.

(** ** closed facts about the concrete hash, before opacity *)
Lemma mm_sub u : mm u = E2_Mul (E2_Sub E2_Zero (md u)) isoA. Proof. unfold mm. ring. Qed.
Lemma wu0_nz : e2Z wu0 <> E2_Zero. Proof. unfold E2_Zero. wl. fast_e2. Qed.
Lemma wu1_nz : e2Z wu1 <> E2_Zero. Proof. unfold E2_Zero. wl. fast_e2. Qed.
Local Ltac wmap := unfold iso_g, mn, md, mt, isoA, isoB, isoZ, E2_One, E2_Zero; wl; fast_e2.
Lemma w0_x1 : E2_Mul (e2Z wx0) (mm (e2Z wu0)) = mn (e2Z wu0). Proof. rewrite mm_sub. wmap. Qed.
Lemma w0_y : E2_Mul (e2Z wy0) (e2Z wy0) = iso_g (e2Z wx0). Proof. wmap. Qed.
Lemma w1_x1 : E2_Mul (e2Z wa1) (mm (e2Z wu1)) = mn (e2Z wu1). Proof. rewrite mm_sub. wmap. Qed.
Lemma w1_x2 : E2_Mul (mt (e2Z wu1)) (e2Z wa1) = e2Z wx1. Proof. wmap. Qed.
Lemma w1_y : E2_Mul (e2Z wy1) (e2Z wy1) = iso_g (e2Z wx1). Proof. wmap. Qed.
Local Ltac wiso := unfold wP, iso_map, iso_x_num, iso_x_den, iso_y_num, iso_y_den; cbn [poly]; unfold E2_Zero; wl; split; [fast_e2|]; split; [fast_e2|]; split; fast_e2.
Lemma w0_iso : iso_map (e2Z wx0) (e2Z wy0) (wP wq0x wq0y). Proof. wiso. Qed.
Lemma w1_iso : iso_map (e2Z wx1) (e2Z wy1) (wP wq1x wq1y). Proof. wiso. Qed.
(** u = (0, 1), where the code's sign differs from the RFC's *)
Definition vu : Z2 := zz 0 1.
Definition va : Z2 := zz 0x83c12791abdd5d2fe2f284f0cc6e5aa9b8c2d3f6f3f792302cf75e62bfc4df1d6834443da498888725d8cccccccb1c3 0x101f6225b3027f9d1a16442433f6993ddd02486c079f4e2efd6b11f3284eff01ea0e7ae0782ef5c263f523d70a3d3bc1.
Definition vx : Z2 := zz 0x58c2cc82792c08e2480c79e59732175a161212d6dfa4170833d9d92fa99ce1c2f80da73c641b4e80c5f5c28f5c27c5 0xe79c4da4742ee72e74008e131686b4ef11972928af902c19674c72b85e955d18bf43a061953740d8048d47ae1477e9a.
Definition vy : Z2 := zz 0x1164553f1786b2b0c193b2422b7514295801c0d7e5d429e20e3e84f7c11a3e8020f0b8a3d1275717d65d28ae08d3f5be 0x167fbbde139744c8461960831e462d5c6c76db85af7bcf78f9d02e2704f4a998d4d617d51e58c5854296164b8b2901f.
Definition zx : Z2 := zz 0x1a59d4b6bbf912a32d63b43028e2deeebe8d5d97ca64b6d66f64ac7a265a9305e1a40da5edb81b4e3ac4f5c28f5bd27 0x15103a07f641331bb298f5ed3ba1230aa0bcc9f87d923077324df24a0f7ffa93045d3d6f94c17ae10efa11eb851e7336.
Definition zy : Z2 := zz 0x1776b5d3dd70bb2ac6e46be0849209c9c47853350da878bdc14a5042102f1f01cbc75043b8d13d709dd5ca27f92cb390 0x2c094c100c4f8a157767045bc04279dd04f207fbddc4de6675911b512cddacc0061215698453b5b11125516029e4d21.
Local Ltac vl := cbv beta delta [vu va vx vy zx zy].
Lemma vu_nz : e2Z vu <> E2_Zero. Proof. unfold E2_Zero. vl. wl. fast_e2. Qed.
Lemma v_x1 : E2_Mul (e2Z va) (mm (e2Z vu)) = mn (e2Z vu). Proof. rewrite mm_sub. vl. wmap. Qed.
Lemma v_x2 : E2_Mul (mt (e2Z vu)) (e2Z va) = e2Z vx. Proof. vl. wmap. Qed.
Lemma v_y : E2_Mul (e2Z vy) (e2Z vy) = iso_g (e2Z vx). Proof. vl. wmap. Qed.
(** the exceptional case u = 0 *)
Lemma z_x1 : E2_Mul (e2Z zx) (E2_Mul isoZ isoA) = isoB. Proof. vl. wmap. Qed.
Lemma z_y : E2_Mul (e2Z zy) (e2Z zy) = iso_g (e2Z zx). Proof. vl. wmap. Qed.
Lemma z_s : sgn0 E2_Zero = sgn0 (e2Z zy). Proof. vm_compute. reflexivity. Qed.
Lemma v_s : sgn0 (e2Z vu) = true /\ sgn0 (e2Z vy) = false /\ sgn0 (E2_Neg (e2Z vy)) = true. Proof. vm_compute. split; [reflexivity | split; reflexivity]. Qed.
Local Opaque E2_Mul E2_Add E2_Sub E2_Neg isoA isoB isoZ E2_One E2_Zero sqrtT iso_map g2SqrtRatio g2Sgn0 MapElementToCurve2.

(** ** the SSWU point is unique up to sign *)
Lemma x1_fun u a : u <> E2_Zero -> sswu_x1 u a -> a = x1 u.
Proof.
  intros N (H & _). pose proof (md_neq0 u N) as D. assert (E : E2_Add (E2_Mul (E2_Mul isoZ isoZ) (E2_Mul (E2_Mul u u) (E2_Mul u u))) (E2_Mul isoZ (E2_Mul u u)) = md u) by (unfold md, mt; ring).
  rewrite E in H. destruct (H D) as (t & Ht & Ha). assert (T : t = E2_inv (md u)). { transitivity (E2_div (E2_Mul t (md u)) (md u)); [field; exact D|]. rewrite Ht. field. exact D. }
  transitivity (E2_div (E2_Mul a isoA) isoA); [field; exact isoA_neq0|]. rewrite Ha, T. unfold x1, mn, mm. field. repeat split; first [exact (neg_neq0 _ D) | exact isoA_neq0 | exact D].
Qed.
Lemma x1_eq u a : u <> E2_Zero -> E2_Mul a (mm u) = mn u -> a = x1 u.
Proof. intros N H. pose proof (mm_neq0 u N) as M. unfold x1. rewrite <- H. field. exact M. Qed.
Lemma square_dec u : u <> E2_Zero -> is_square (iso_g (x1 u)) \/ ~ is_square (iso_g (x1 u)).
Proof.
  intros N. destruct (sqrt_honest (gn u) (gd u) (gn_neq0 u N) (gd_neq0 u N)) as (z & b & _ & C). rewrite <- (ratio_iso u N).
  destruct C as [(_ & Q & _)|(_ & Q & _)]; [left | right]; exact Q.
Qed.
Lemma sq_sign x y : E2_Mul x x = E2_Mul y y -> x = y \/ x = E2_Neg y.
Proof.
  intros H. assert (E : E2_Mul (E2_Sub x y) (E2_Add x y) = E2_Zero). { transitivity (E2_Sub (E2_Mul x x) (E2_Mul y y)); [ring|]. rewrite H. ring. }
  apply E2_integral in E. destruct E as [E|E]; [left | right].
  - transitivity (E2_Add (E2_Sub x y) y); [ring|]. rewrite E. ring.
  - transitivity (E2_Sub (E2_Add x y) y); [ring|]. rewrite E. ring.
Qed.
Lemma sswu_fun u x y x' y' : u <> E2_Zero -> sswu_xy u x y -> sswu_xy u x' y' -> x' = x /\ (y' = y \/ y' = E2_Neg y).
Proof.
  intros N (a & b & Ha & Hb & H1 & H2 & E) (a' & b' & Ha' & Hb' & H1' & H2' & E').
  pose proof (x1_fun u a N Ha) as F. pose proof (x1_fun u a' N Ha') as F'. subst a a'. unfold sswu_x2 in Hb, Hb'. subst b b'.
  assert (X : x' = x) by (destruct (square_dec u N) as [Q|Q]; [rewrite (H1 Q), (H1' Q) | rewrite (H2 Q), (H2' Q)]; reflexivity).
  split; [exact X|]. subst x'. apply sq_sign. rewrite E, E'. reflexivity.
Qed.
Lemma neg_A0 y : A0 (E2_Neg y) <> fp0 -> A0 y <> fp0.
Proof. Local Transparent E2_Neg. unfold E2_Neg. cbn [A0]. Local Opaque E2_Neg. intros H E. apply H. rewrite E. reflexivity. Qed.
Lemma neg_A0' y : A0 y <> fp0 -> A0 (E2_Neg y) <> fp0.
Proof. intros H. apply neg_A0. replace (E2_Neg (E2_Neg y)) with y by ring. exact H. Qed.
Theorem sswu_pin u x y : u <> E2_Zero -> sswu_xy u x y -> A0 y <> fp0 -> Z.odd (fval (A0 y)) = Z.odd (fval (A0 u)) -> run (MapElementToCurve2 u) = Some (mkG2 x y).
Proof.
  intros N S Ny P. destruct (map_parity u N) as (x' & y' & R & S' & P'). destruct (sswu_fun u x y x' y' N S S') as (-> & [->| ->]); [exact R|].
  exfalso. specialize (P' (neg_A0' y Ny)). rewrite (neg_par y (neg_A0' y Ny)), P in P'. exact (no_fixpoint_negb _ P').
Qed.
(** C56: agreement with the RFC map *)
Theorem map_rfc u x y : A0 u <> fp0 -> A0 y <> fp0 -> sswu u x y -> run (MapElementToCurve2 u) = Some (mkG2 x y).
Proof.
  intros Hu Hy (S & G). apply sswu_pin; [|exact S | exact Hy|].
  - intros ->. apply Hu. reflexivity.
  - rewrite (sgn_par u Hu), (sgn_par y Hy) in G. symmetry. exact G.
Qed.
Lemma xy_case1 u a w : u <> E2_Zero -> E2_Mul a (mm u) = mn u -> E2_Mul w w = iso_g a -> sswu_xy u a w.
Proof.
  intros N Ha Hw. pose proof (x1_eq u a N Ha) as ->. exists (x1 u), (E2_Mul (mt u) (x1 u)). split; [now apply x1_spec|]. split; [unfold sswu_x2, mt; ring|].
  split; [intros _; reflexivity|]. split; [|exact Hw]. intros Q. exfalso. apply Q. exists w. exact Hw.
Qed.
Lemma xy_case2 u a w : u <> E2_Zero -> E2_Mul a (mm u) = mn u -> E2_Mul w w = iso_g (E2_Mul (mt u) a) -> sswu_xy u (E2_Mul (mt u) a) w.
Proof.
  intros N Ha Hw. pose proof (x1_eq u a N Ha) as ->. exists (x1 u), (E2_Mul (mt u) (x1 u)). split; [now apply x1_spec|]. split; [unfold sswu_x2, mt; ring|].
  split; [|split; [intros _; reflexivity | exact Hw]]. intros Q. exfalso. rewrite (sswu_ident u N) in Hw.
  assert (S : is_square (E2_Mul (E2_Mul (E2_Mul (mt u) (mt u)) (mt u)) (iso_g (x1 u)))) by (eexists; exact Hw).
  assert (R : E2_Mul (E2_Mul (E2_Mul (mt u) (mt u)) (mt u)) (iso_g (x1 u)) = E2_Mul (E2_Mul (iso_g (x1 u)) (E2_Mul (E2_Mul (mt u) u) (E2_Mul (mt u) u))) isoZ) by (unfold mt; ring).
  rewrite R in S. apply isoZ_nonsquare. revert S. apply square_inv.
  - assert (U : E2_Mul (mt u) u <> E2_Zero). { apply E2_mul_neq0; [|exact N]. unfold mt. apply E2_mul_neq0; [now apply E2_mul_neq0 | exact isoZ_neq0]. }
    apply E2_mul_neq0; [apply iso_no_root | now apply E2_mul_neq0].
  - apply square_mul; [exact Q | eexists; reflexivity].
Qed.

(** ** the sign a prover may flip *)
Theorem map_flip u x y : fval (A0 u) < gap -> run (MapElementToCurve2 u) = Some (mkG2 x y) -> sat (MapElementToCurve2 u) (mkG2 x (E2_Neg y)).
Proof.
  intros G R. assert (N : u <> E2_Zero). { intros ->. apply run_sat in R. exact (map_unsat0 _ R). }
  destruct (sqrt_honest (gn u) (gd u) (gn_neq0 u N) (gd_neq0 u N)) as (z & b & Rz & _). rewrite (run_map u z b (mm_neq0 u N) Rz) in R. injection R as <- <-.
  apply sat_map. exists z, b, (negb (Z.odd (fval (A0 u)))), (Z.odd (fval (A0 (mY u b z)))). split; [apply run_sat; exact Rz|].
  split; [apply sat_sgn0; right; split; [exact G | reflexivity]|]. split; [apply sat_sgn0; left; reflexivity|]. split; [exact (mm_neq0 u N)|].
  generalize (E2_div (mX u b) (mm u)) (mY u b z) (Z.odd (fval (A0 u))) (Z.odd (fval (A0 (mY u b z)))). intros X Y s s'.
  apply mkG2_ext; [reflexivity|]. destruct s, s'; cbn [negb xorb negif]; ring.
Qed.
Lemma iso_pt_neg x y : E2_Add x kerc <> E2_Zero -> iso_pt x (E2_Neg y) = affneg (iso_pt x y).
Proof. intros K. unfold iso_pt, affneg. cbn [g2X g2Y]. apply mkG2_ext; [reflexivity|]. field. rewrite ker_yd. exact K. Qed.
Lemma isoon_neg x y : isoon (Aff x y) -> isoon (Aff x (E2_Neg y)).
Proof. intros H. change (E2_Mul y y = iso_g x) in H. change (E2_Mul (E2_Neg y) (E2_Neg y) = iso_g x). rewrite <- H. ring. Qed.
Lemma affneg2 p : affneg (affneg p) = p. Proof. destruct p as [x y]. unfold affneg. cbn [g2X g2Y]. apply mkG2_ext; ring. Qed.
Lemma aff2_inj p q : aff2 p = aff2 q -> p = q. Proof. destruct p as [a b], q as [c d]. unfold aff2. cbn [g2X g2Y]. intros E. injection E as -> ->. reflexivity. Qed.
(** the honest hash R and its negative are both accepted *)
Theorem hash_flip u0 u1 x0 y0 Q0 x1 y1 Q1 S : u0 <> E2_Zero -> u1 <> E2_Zero -> fval (A0 u0) < gap -> fval (A0 u1) < gap ->
  run (MapElementToCurve2 u0) = Some (mkG2 x0 y0) -> iso_map x0 y0 Q0 -> run (MapElementToCurve2 u1) = Some (mkG2 x1 y1) -> iso_map x1 y1 Q1 ->
  nonexc Q0 Q1 -> g2add Q0 Q1 S -> clear_generic S ->
  exists R, run (hashTail u0 u1) = Some R /\ sat (hashTail u0 u1) (affneg R) /\ cleared S (aff2 R) /\ affneg R <> R.
Proof.
  intros N0 N1 G0 G1 R0 M0 R1 M1 NE HS HG.
  assert (I : forall u x y, u <> E2_Zero -> run (MapElementToCurve2 u) = Some (mkG2 x y) -> isoon (Aff x y)).
  { intros u x y N R. destruct (map_honest u N) as (x' & y' & R' & S' & _). rewrite R in R'. injection R' as <- <-. exact (sswu_on _ _ _ S'). }
  pose proof (I _ _ _ N0 R0) as I0. pose proof (I _ _ _ N1 R1) as I1. pose proof (iso_off_kernel _ _ I0) as K0. pose proof (iso_off_kernel _ _ I1) as K1.
  pose proof (iso_map_fun _ _ _ _ M0 (iso_map_ok x0 y0 K0)) as E0. pose proof (iso_map_fun _ _ _ _ M1 (iso_map_ok x1 y1 K1)) as E1.
  change (Q0 = aff2 (iso_pt x0 y0)) in E0. change (Q1 = aff2 (iso_pt x1 y1)) in E1. subst Q0 Q1. set (q0 := iso_pt x0 y0) in *. set (q1 := iso_pt x1 y1) in *.
  pose proof (iso_on _ _ _ I0 M0) as O0. pose proof (iso_on _ _ _ I1 M1) as O1. pose proof (g2_closed _ _ _ O0 O1 HS) as OS.
  destruct (sum_determ q0 q1 S O0 O1 NE HS HG) as (R & DR & CR & OR).
  destruct (sum_determ (affneg q0) (affneg q1) (g2neg S)) as (R' & DR' & CR' & OR').
  - rewrite aff2_neg. now apply g2_neg_on.
  - rewrite aff2_neg. now apply g2_neg_on.
  - rewrite !aff2_neg. now apply nonexc_neg.
  - rewrite !aff2_neg. now apply g2_neg_add.
  - now apply generic_neg.
  - pose proof (cleared_fun _ _ _ (g2_neg_on _ OS) CR' (cleared_neg _ _ OS CR)) as E. rewrite <- aff2_neg in E. apply aff2_inj in E. subst R'.
    exists R. split; [|split; [|split; [exact CR|]]].
    + rewrite hashTail_eq, run_bind, R0, run_bind, R1. unfold isoTail. rewrite run_bind, (proj1 (iso_determ x0 y0 K0)), run_bind, (proj1 (iso_determ x1 y1 K1)). exact (proj1 DR).
    + rewrite hashTail_eq. apply sat_bind. exists (mkG2 x0 (E2_Neg y0)). split; [now apply map_flip|]. apply sat_bind. exists (mkG2 x1 (E2_Neg y1)). split; [now apply map_flip|].
      unfold isoTail. apply sat_bind. exists (affneg q0). split; [unfold q0; rewrite <- (iso_pt_neg x0 y0 K0); apply run_sat, (iso_determ _ _ K0)|].
      apply sat_bind. exists (affneg q1). split; [unfold q1; rewrite <- (iso_pt_neg x1 y1 K1); apply run_sat, (iso_determ _ _ K1)|]. apply run_sat, (proj1 DR').
    + intros E. destruct R as [X Y]. unfold affneg in E. cbn [g2X g2Y] in E. injection E as E. apply (g2_y_nz _ _ OR). apply double_zero. cbn [g2Y]. transitivity (E2_Add (E2_Neg Y) Y); [now rewrite E | ring].
Qed.
(** C57: agreement of the hash with the RFC's, from the two field elements *)
Theorem hash_rfc u0 u1 x0 y0 Q0 x1 y1 Q1 S T : A0 u0 <> fp0 -> A0 u1 <> fp0 -> A0 y0 <> fp0 -> A0 y1 <> fp0 ->
  sswu u0 x0 y0 -> iso_map x0 y0 Q0 -> sswu u1 x1 y1 -> iso_map x1 y1 Q1 -> nonexc Q0 Q1 -> g2add Q0 Q1 S -> clear_generic S -> cleared S T ->
  exists R, run (hashTail u0 u1) = Some R /\ aff2 R = T.
Proof.
  intros A0' A1' B0 B1 S0 M0 S1 M1 NE HS HG HT. pose proof (map_rfc _ _ _ A0' B0 S0) as R0. pose proof (map_rfc _ _ _ A1' B1 S1) as R1.
  pose proof (sswu_on _ _ _ (proj1 S0)) as I0. pose proof (sswu_on _ _ _ (proj1 S1)) as I1. pose proof (iso_off_kernel _ _ I0) as K0. pose proof (iso_off_kernel _ _ I1) as K1.
  pose proof (iso_map_fun _ _ _ _ M0 (iso_map_ok x0 y0 K0)) as E0. pose proof (iso_map_fun _ _ _ _ M1 (iso_map_ok x1 y1 K1)) as E1.
  change (Q0 = aff2 (iso_pt x0 y0)) in E0. change (Q1 = aff2 (iso_pt x1 y1)) in E1. subst Q0 Q1.
  pose proof (iso_on _ _ _ I0 M0) as O0. pose proof (iso_on _ _ _ I1 M1) as O1. pose proof (g2_closed _ _ _ O0 O1 HS) as OS.
  destruct (sum_determ _ _ S O0 O1 NE HS HG) as (R & DR & CR & OR). exists R. split; [|exact (cleared_fun _ _ _ OS CR HT)].
  rewrite hashTail_eq, run_bind, R0, run_bind, R1. unfold isoTail. rewrite run_bind, (proj1 (iso_determ x0 y0 K0)), run_bind, (proj1 (iso_determ x1 y1 K1)). exact (proj1 DR).
Qed.

(** ** the concrete hash *)
Lemma w0_xy : sswu_xy (e2Z wu0) (e2Z wx0) (e2Z wy0). Proof. exact (xy_case1 _ _ _ wu0_nz w0_x1 w0_y). Qed.
Lemma w1_xy : sswu_xy (e2Z wu1) (e2Z wx1) (e2Z wy1).
Proof. rewrite <- w1_x2. apply (xy_case2 _ _ _ wu1_nz w1_x1). rewrite w1_x2. exact w1_y. Qed.
Lemma odd_nz (x : Fp) : Z.odd (fval x) = true -> x <> fp0. Proof. intros H ->. discriminate H. Qed.
Lemma val_nz (x : Fp) : fval x =? 0 = false -> x <> fp0. Proof. intros H ->. discriminate H. Qed.
Lemma w0_run : run (MapElementToCurve2 (e2Z wu0)) = Some (mkG2 (e2Z wx0) (e2Z wy0)).
Proof. apply sswu_pin; [exact wu0_nz | exact w0_xy | apply val_nz; vm_compute; reflexivity | vm_compute; reflexivity]. Qed.
Lemma w1_run : run (MapElementToCurve2 (e2Z wu1)) = Some (mkG2 (e2Z wx1) (e2Z wy1)).
Proof. apply sswu_pin; [exact wu1_nz | exact w1_xy | apply val_nz; vm_compute; reflexivity | vm_compute; reflexivity]. Qed.
Definition wR : G2Affine := mkG2 (e2Z wRx) (e2Z wRy).
Theorem w_hash : run (hashTail (e2Z wu0) (e2Z wu1)) = Some wR /\ sat (hashTail (e2Z wu0) (e2Z wu1)) (affneg wR) /\ in_G2 (aff2 wR).
Proof.
  destruct (hash_flip (e2Z wu0) (e2Z wu1) _ _ _ _ _ _ _ wu0_nz wu1_nz ltac:(vm_compute; reflexivity) ltac:(vm_compute; reflexivity) w0_run w0_iso w1_run w1_iso w_nonexc wS_add (proj1 w_generic)) as (R & HR & HS & HC & _).
  pose proof (cleared_fun _ _ _ wS_on HC (proj2 w_generic)) as E. change (aff2 R = aff2 wR) in E. apply aff2_inj in E. subst R.
  split; [exact HR|]. split; [exact HS | exact wR_G2].
Qed.

(** ** the refutations of C29, C30 and C56 *)
Theorem map_cheat_ex : exists u x y, u <> E2_Zero /\ sat (MapElementToCurve2 u) (mkG2 x y) /\ ~ isoon (Aff x y).
Proof.
  exists (e2Z wu0). destruct (map_cheat (e2Z wu0) wu0_nz) as (x & y & S & O); [|exists x, y; split; [exact wu0_nz | split; assumption]].
  exists (e2Z wy0). rewrite <- (x1_eq _ _ wu0_nz w0_x1). exact w0_y.
Qed.
Theorem map_zero_ex : exists x y, sswu E2_Zero x y /\ isoon (Aff x y) /\ unsat (MapElementToCurve2 E2_Zero).
Proof.
  exists (e2Z zx), (e2Z zy). split; [|split; [exact z_y | exact map_unsat0]]. split; [|exact z_s].
  exists (e2Z zx), E2_Zero. split; [|split; [unfold sswu_x2; ring|]].
  - split; [|intros _; exact z_x1]. intros D. exfalso. apply D. ring.
  - split; [intros _; reflexivity|]. split; [|exact z_y]. intros Q. exfalso. apply Q. exists (e2Z zy). exact z_y.
Qed.
Theorem map_sign_ex : exists u x y, run (MapElementToCurve2 u) = Some (mkG2 x y) /\ ~ sswu u x y /\ sswu u x (E2_Neg y).
Proof.
  exists (e2Z vu), (e2Z vx), (e2Z vy). destruct v_s as (S1 & S2 & S3).
  assert (XY : sswu_xy (e2Z vu) (e2Z vx) (e2Z vy)). { rewrite <- v_x2. apply (xy_case2 _ _ _ vu_nz v_x1). rewrite v_x2. exact v_y. }
  split; [|split].
  - apply sswu_pin; [exact vu_nz | exact XY | apply val_nz; vm_compute; reflexivity | vm_compute; reflexivity].
  - intros (_ & E). rewrite S1, S2 in E. discriminate E.
  - split; [|now rewrite S1, S3]. destruct XY as (a & b & H1 & H2 & H3 & H4 & E). exists a, b. split; [exact H1|]. split; [exact H2|]. split; [exact H3|]. split; [exact H4|]. rewrite <- E. ring.
Qed.
