(** The whole group of the twist: it has exactly h2 r points, and the cofactor
    formula sends every one of them into the subgroup of order r. *)
From Coq Require Import ZArith List Bool Lia Znumtheory.
From Verif Require Import Primes Primes2 FastMod Pairing FixedQ Params ZMod RingPow Emulated FieldFacts Tower TowerFacts CurveSpec G2 G2Spec EcGroup G2Jac G2Mul G2Cof G2Psi G2Clear G2Order G2Gen G2Refute G2ClearFacts PairMul G2Cyclic SubCount HashWitPts TwGroup TwistPt TwistSmall.
Import ListNotations.
Open Scope Z_scope.

(** the order of the twist over r *)
Definition h2BLS : Z := (blsX ^ 8 - 4 * blsX ^ 7 + 5 * blsX ^ 6 - 4 * blsX ^ 4 + 6 * blsX ^ 3 - 4 * blsX ^ 2 - 4 * blsX + 13) / 9.
Lemma h2_factors : h2BLS = 1 * 13 * 13 * 23 * 23 * 2713 * 11953 * 262069 * qTW.
Proof. vm_compute. reflexivity. Qed.

Lemma p13 : prime 13. Proof. apply (trialI_prime _ 4). vm_compute. reflexivity. Qed.
Lemma p23 : prime 23. Proof. apply (trialI_prime _ 5). vm_compute. reflexivity. Qed.
Lemma p2713 : prime 2713. Proof. apply (trialI_prime _ 53). vm_compute. reflexivity. Qed.
Lemma p11953 : prime 11953. Proof. apply (trialI_prime _ 110). vm_compute. reflexivity. Qed.
Lemma p262069 : prime 262069. Proof. apply (trialI_prime _ 512). vm_compute. reflexivity. Qed.
Lemma ndiv l m : (m mod l =? 0) = false -> l <> 0 -> ~ (l | m).
Proof. intros H N D. apply Z.mod_divide in D; [|exact N]. rewrite D in H. discriminate. Qed.
Lemma isdiv l m : (m mod l =? 0) = true -> l <> 0 -> (l | m).
Proof. intros H N. apply Z.eqb_eq in H. now apply Z.mod_divide. Qed.
Lemma t_neq x : tv x <> Inf -> x <> tO. Proof. intros H ->. now apply H. Qed.
Lemma tO_eq x : tv x = Inf -> x = tO. Proof. intros E. apply tv_inj. exact E. Qed.
Lemma wP_neq x y H : tv (tof (wP x y) H) <> Inf. Proof. cbn [tv tof proj1_sig]. unfold wP. discriminate. Qed.
Lemma t_ord l d x : prime l -> tm l x = tO -> x <> tO -> tm d x = tO -> (l | d).
Proof.
  intros P HL N HD. destruct (Zdivide_dec l d) as [D|D]; [exact D|exfalso]. destruct (tm_unit l d x P HL D) as (u & E). rewrite HD, tm_O in E. contradiction.
Qed.
Lemma uv13 k : v13 <> tm k u13.
Proof.
  intros E. assert (E4 : tm 4 v13 = tO).
  { pose proof v13_psi as A. rewrite E in A at 1. rewrite tpsi_m, u13_psi, <- tm_mul, Z.mul_comm, tm_mul, <- E in A.
    replace 4 with (11 + - (7)) by lia. rewrite tm_add, <- A, tm_neg. apply tadd_opp. }
  pose proof (t_ord 13 4 v13 p13 v13_kill (t_neq _ (wP_neq v13_x v13_y v13_on)) E4) as D. apply Z.divide_pos_le in D; lia.
Qed.
Lemma ab23 k : tpsi a23 <> tm k a23.
Proof.
  intros E. pose proof a23_psi as A. rewrite E in A. rewrite tpsi_m, E, <- !tm_mul in A.
  assert (Z0 : tm (k * k + 1 + - (16 * k)) a23 = tO) by (rewrite tm_add, tm_add, tm_1, A, tm_neg; apply tadd_opp).
  pose proof (t_ord 23 _ a23 p23 a23_kill (t_neq _ (wP_neq a23_x a23_y a23_on)) Z0) as [q Q].
  pose proof (Z.mod_pos_bound k 23 ltac:(lia)) as B. pose proof (Z.div_mod k 23 ltac:(lia)) as M. revert B M. generalize (k mod 23) (k / 23). intros m d B M.
  assert (Q' : m * m + 1 - 16 * m = 23 * (q - 23 * d * d - 2 * d * m + 16 * d)) by (rewrite M in Q; lia). revert Q'. generalize (q - 23 * d * d - 2 * d * m + 16 * d). intros e Q'.
  assert (m = 0 \/ m = 1 \/ m = 2 \/ m = 3 \/ m = 4 \/ m = 5 \/ m = 6 \/ m = 7 \/ m = 8 \/ m = 9 \/ m = 10 \/ m = 11 \/ m = 12 \/ m = 13 \/ m = 14 \/ m = 15 \/ m = 16 \/ m = 17 \/ m = 18 \/ m = 19 \/ m = 20 \/ m = 21 \/ m = 22) as C by lia.
  repeat (destruct C as [C|C]; [subst m; lia|]). subst m. lia.
Qed.

Notation EXT := (ext Tw tadd topp tO).
Notation SUB := (subgrp Tw tadd topp tO).
Notation SIZE := (size Tw).
Definition H0 : Tw -> Prop := triv Tw tO.
Definition H1 := EXT H0 u13.
Definition H2 := EXT H1 v13.
Definition H3 := EXT H2 a23.
Definition H4 := EXT H3 (tpsi a23).
Definition H5 := EXT H4 w2713.
Definition H6 := EXT H5 w11953.
Definition H7 := EXT H6 w262069.
Definition H8 := EXT H7 tS.
Definition tG : Tw := tof (aff2 G2gen) gen_on.
Definition H9 := EXT H8 tG.
Lemma tG_kill : tm rBLS tG = tO.
Proof. apply tm_inf. exact (in_G2_order _ gen_in_G2). Qed.

(** subgroup, size, exponent *)
Definition good (H : Tw -> Prop) (n : Z) : Prop := SUB H /\ SIZE H n /\ forall x, H x -> tm n x = tO.
Lemma good0 : good H0 1.
Proof. split; [exact (triv_sub _ _ _ _ tassoc tcomm tadd_O tadd_opp)|]. split; [exact (triv_size _ _)|]. intros x E. rewrite E. apply tm_O. Qed.
Lemma good_step H n l g : good H n -> prime l -> tm l g = tO -> ~ H g -> good (EXT H g) (n * l).
Proof.
  intros (S & Z & K) P HL N. split; [exact (ext_sub _ _ _ _ tassoc tcomm tadd_O tadd_opp _ _ S)|].
  split; [exact (ext_size _ _ _ _ tassoc tcomm tadd_O tadd_opp H g n l S Z P HL N)|].
  exact (ext_kill _ _ _ _ tassoc tcomm tadd_O tadd_opp H g n l K HL).
Qed.
Lemma good_coprime H n l g : good H n -> prime l -> tm l g = tO -> tv g <> Inf -> (n mod l =? 0) = false -> good (EXT H g) (n * l).
Proof.
  intros G P HL N D. apply good_step; auto. destruct G as (_ & _ & K). refine (not_in _ _ _ _ tassoc tcomm tadd_O tadd_opp H n l g P K HL (t_neq _ N) (ndiv _ _ D _)). destruct P. lia.
Qed.
Lemma good9 : good H9 (h2BLS * rBLS).
Proof.
  rewrite h2_factors.
  assert (G1 : good H1 (1 * 13)) by (refine (good_coprime _ _ _ _ good0 p13 u13_kill (wP_neq u13_x u13_y u13_on) eq_refl)).
  assert (G2 : good H2 (1 * 13 * 13)).
  { apply good_step; [exact G1 | exact p13 | exact v13_kill|]. refine (not_in2 _ _ _ _ tassoc tcomm tadd_O tadd_opp H0 1 13 u13 v13 p13 (proj2 (proj2 good0)) u13_kill v13_kill (ndiv 13 1 eq_refl ltac:(lia)) uv13). }
  assert (G3 : good H3 (1 * 13 * 13 * 23)) by (refine (good_coprime _ _ _ _ G2 p23 a23_kill (wP_neq a23_x a23_y a23_on) eq_refl)).
  assert (G4 : good H4 (1 * 13 * 13 * 23 * 23)).
  { assert (BK : tm 23 (tpsi a23) = tO) by (rewrite <- tpsi_m, a23_kill; exact tpsi_O).
    apply good_step; [exact G3 | exact p23 | exact BK|]. refine (not_in2 _ _ _ _ tassoc tcomm tadd_O tadd_opp H2 _ 23 a23 (tpsi a23) p23 (proj2 (proj2 G2)) a23_kill BK (ndiv 23 (1 * 13 * 13) eq_refl ltac:(lia)) ab23). }
  assert (G5 : good H5 (1 * 13 * 13 * 23 * 23 * 2713)) by (refine (good_coprime _ _ _ _ G4 p2713 w2713_kill (wP_neq w2713_x w2713_y w2713_on) eq_refl)).
  assert (G6 : good H6 (1 * 13 * 13 * 23 * 23 * 2713 * 11953)) by (refine (good_coprime _ _ _ _ G5 p11953 w11953_kill (wP_neq w11953_x w11953_y w11953_on) eq_refl)).
  assert (G7 : good H7 (1 * 13 * 13 * 23 * 23 * 2713 * 11953 * 262069)) by (refine (good_coprime _ _ _ _ G6 p262069 w262069_kill (wP_neq w262069_x w262069_y w262069_on) eq_refl)).
  assert (G8 : good H8 (1 * 13 * 13 * 23 * 23 * 2713 * 11953 * 262069 * qTW)) by (refine (good_coprime _ _ _ _ G7 qTW_prime tS_kill (wP_neq sxZ syZ Stw_on) eq_refl)).
  refine (good_coprime _ _ _ _ G8 rBLS_prime tG_kill _ eq_refl). discriminate.
Qed.
Lemma all9 : forall x : Tw, H9 x.
Proof.
  apply (full _ _ _ _ tdec tassoc tcomm tadd_O tadd_opp H9 (h2BLS * rBLS) (fun x => g2code (tv x)) (2 * (pBLS * pBLS) + 1) (proj1 good9) (proj1 (proj2 good9))).
  - intros x. apply g2code_range.
  - intros x y E. apply tv_inj. exact (g2code_inj _ _ (ton x) (ton y) E).
  - vm_compute. reflexivity.
Qed.
(** *** the number of points *)
Theorem twist_count : exists l : list (point E2), NoDup l /\ (forall P, In P l <-> g2on P) /\ Z.of_nat (length l) = h2BLS * rBLS.
Proof.
  destruct good9 as (_ & (l & ND & HL & N) & _). exists (map tv l). split; [|split].
  - apply FinFun.Injective_map_NoDup; [|exact ND]. intros x y. apply tv_inj.
  - intros P. rewrite in_map_iff. split; [intros (x & <- & _); apply ton|]. intros HP. exists (tof P HP). split; [reflexivity|]. apply HL, all9.
  - rewrite map_length. exact N.
Qed.
Theorem twist_exponent P : g2on P -> g2mul P (h2BLS * rBLS) Inf.
Proof. intros HP. exact (proj2 (tm_inf (h2BLS * rBLS) (tof P HP)) (proj2 (proj2 good9) _ (all9 _))). Qed.

(** *** the cofactor formula *)
Definition inK (x : Tw) : Prop := tm rBLS (tcl x) = tO.
Lemma K_sub : SUB inK.
Proof.
  unfold inK. split; [rewrite tcl_O; apply tm_O|]. split.
  - intros x y A B. rewrite tcl_add, tm_sum, A, B. apply tadd_O.
  - intros x A. rewrite tcl_opp, tm_opp, A. exact (opp_O _ _ _ _ tassoc tcomm tadd_O tadd_opp).
Qed.
Lemma K_zero x : tcl x = tO -> inK x. Proof. unfold inK. intros ->. apply tm_O. Qed.
Lemma K_step (H : Tw -> Prop) g : (forall x, H x -> inK x) -> inK g -> forall x, EXT H g x -> inK x.
Proof. intros A B. exact (ext_in _ _ _ _ tassoc tcomm tadd_O tadd_opp H g inK K_sub A B). Qed.
Lemma a23_clear : tcl a23 = tO.
Proof.
  refine (tcl_quad 23 (-1) 16 a23 _ a23_kill _ _); [|apply isdiv; [reflexivity | lia] | apply isdiv; [reflexivity | lia]].
  apply (tcancel _ _ a23). rewrite a23_psi. change (-1) with (- (1)). rewrite tm_neg, tm_1, (tcomm (topp _)), tassoc, (tcomm (topp _)), tadd_opp. symmetry. apply tadd_O_r.
Qed.
Theorem all_K x : inK x.
Proof.
  pose proof (all9 x) as H. revert x H. apply K_step.
  2:{ exact (proj1 (tm_inf rBLS (tcl tG)) (cleared_kill (aff2 G2gen) _ rBLS gen_on (tcl_ok tG) (in_G2_order _ gen_in_G2))). }
  apply K_step; [|apply K_zero; exact tS_clear].
  apply K_step; [|apply K_zero; apply (tcl_eig 262069 _ _ w262069_psi w262069_kill); apply isdiv; [reflexivity | lia]].
  apply K_step; [|apply K_zero; apply (tcl_eig 11953 _ _ w11953_psi w11953_kill); apply isdiv; [reflexivity | lia]].
  apply K_step; [|apply K_zero; apply (tcl_eig 2713 _ _ w2713_psi w2713_kill); apply isdiv; [reflexivity | lia]].
  apply K_step; [|apply K_zero; rewrite tcl_psi, a23_clear; exact tpsi_O].
  apply K_step; [|apply K_zero; exact a23_clear].
  apply K_step; [|apply K_zero; apply (tcl_eig 13 _ _ v13_psi v13_kill); apply isdiv; [reflexivity | lia]].
  apply K_step; [|apply K_zero; apply (tcl_eig 13 _ _ u13_psi u13_kill); apply isdiv; [reflexivity | lia]].
  intros x E. rewrite E. apply K_zero. exact tcl_O.
Qed.
Theorem clear_in_G2 P R : g2on P -> cleared P R -> R = Inf \/ in_G2 R.
Proof.
  intros HP HC. destruct (g2_dec R Inf) as [E|N]; [now left|right]. apply in_G2_iff. split; [exact (cleared_on _ _ HP HC)|]. split; [exact N|].
  apply (tcl_iff (tof P HP)) in HC. subst R. exact (proj2 (tm_inf rBLS (tcl (tof P HP))) (all_K _)).
Qed.
(** no addition of the formula is exceptional exactly when its value is finite *)
Lemma h2_coprime : ~ (rBLS | h2BLS).
Proof. apply ndiv; [vm_compute; reflexivity | discriminate]. Qed.
Theorem generic_iff P R : g2on P -> cleared P R -> (clear_generic P <-> R <> Inf).
Proof.
  intros HP HC. split.
  - intros (_ & G) E. subst R. destruct HC as (A & B0 & B & C0 & C1 & C & S & HA & HB0 & HB & HC0 & HC1 & HC & HS & HR).
    destruct (G A B0 B C0 C1 C S HA HB0 HB HC0 HC1 HC HS) as (_ & (N1 & N2 & N3 & N4)).
    inversion HR; subst; [now apply N1 | now apply N1 |]. apply N4. unfold g2neg. cbn [pneg]. f_equal. symmetry. exact (f_equal (fun P => match P with Aff _ y => y | Inf => E2_Zero end) (g2_neg_neg (Aff x y))).
  - intros N. set (x := tof P HP). apply (tcl_iff x) in HC. subst R. remember (tm h2BLS x) as y eqn:EY.
    assert (TM : forall k z, tm k (tm h2BLS z) = tm h2BLS (tm k z)) by (intros k z; now rewrite <- !tm_mul, Z.mul_comm).
    assert (KY : tm rBLS y = tO). { rewrite EY, <- tm_mul, Z.mul_comm. exact (proj2 (proj2 good9) _ (all9 x)). }
    assert (CY : tcl y = tm h2BLS (tcl x)). { rewrite EY. unfold tcl. now rewrite !TM, !tpsi_m, !tm_sum. }
    assert (NY : y <> tO).
    { intros E. rewrite E, tcl_O in CY. symmetry in CY. pose proof (t_ord rBLS h2BLS (tcl x) rBLS_prime (all_K x) (t_neq _ N) CY) as D. exact (h2_coprime D). }
    assert (GY : in_G2 (tv y)). { apply (proj2 (in_G2_iff (tv y))). split; [apply ton|]. split; [intros E; apply NY, tv_inj; exact E|]. exact (proj2 (tm_inf rBLS y) KY). }
    destruct (G2_generic _ GY) as [O G]. split.
    + intros k Hk M. apply (O k Hk). apply (proj2 (tm_inf k y)). rewrite EY, TM. rewrite (proj1 (tm_inf k x) M). apply tm_O.
    + intros A B0 B C0 C1 C S HA HB0 HB HC0 HC1 HC HS.
      apply (tm_iff _ x) in HA, HB0, HC0. apply psiP_spec in HB, HC1, HC.
      assert (EB : B = tv (tpsi (tm (blsX - 1) x))) by (rewrite HB, HB0; reflexivity).
      assert (EC : C = tv (tpsi (tpsi (tm 2 x)))) by (rewrite HC, HC1, HC0; reflexivity).
      assert (ES : S = tv (tadd (tm (blsX * blsX - blsX - 1) x) (tpsi (tm (blsX - 1) x)))) by (apply tadd_fun; rewrite <- HA, <- EB; exact HS).
      destruct (G _ _ _ _ _ _ _ (tm_ok _ y) (tm_ok _ y) (tpsi_v _) (tm_ok _ y) (tpsi_v _) (tpsi_v _) (tadd_ok _ _)) as [G1 G2].
      assert (TR : forall a b, nonexc (tv (tm h2BLS a)) (tv (tm h2BLS b)) -> nonexc (tv a) (tv b)).
      { intros a b (N1 & N2 & N3 & N4). split; [|split; [|split]].
        - intros E. apply N1. rewrite (tO_eq a E), tm_O. reflexivity.
        - intros E. apply N2. rewrite (tO_eq b E), tm_O. reflexivity.
        - intros E. apply N3. rewrite (tv_inj a b E). reflexivity.
        - intros E. apply N4. rewrite <- topp_v in E. rewrite (tv_inj _ _ E), tm_opp. reflexivity. }
      rewrite HA, EB, EC, ES. split; apply TR.
      * rewrite <- tpsi_m, <- !TM, <- EY. exact G1.
      * rewrite tm_sum, <- !tpsi_m, <- !TM, <- EY. exact G2.
Qed.
