(** Cofactor clearing, Jacobian and affine. *)
From Coq Require Import ZArith NArith List Bool Lia.
From Verif Require Import Params ZMod RingPow Circuit Api Emulated ApiFacts FieldFacts Tower TowerFacts TowerProofs Pairing CurveSpec G2 HashG2 G2Spec G2Pred EcGroup G2Jac G2Mul G2Cof G2Psi.
Import ListNotations.
Open Scope Z_scope.
Local Opaque E2_Mul E2_Add E2_Sub E2_Neg E2_Conjugate.

Lemma order_nz N P k : order_above N P -> 0 < Z.abs k <= N -> ~ g2mul P k Inf.
Proof.
  intros O K H. destruct (Z.lt_ge_cases 0 k) as [L|L]; [exact (O k ltac:(lia) H)|].
  apply g2_mul_neg in H. exact (O (- k) ltac:(lia) H).
Qed.
Lemma cleared_ex P : g2on P -> exists A B0 B C0 C1 C S R,
    g2mul P (blsX * blsX - blsX - 1) A /\ g2mul P (blsX - 1) B0 /\ psi_of B0 B /\
    g2mul P 2 C0 /\ psi_of C0 C1 /\ psi_of C1 C /\ g2add A B S /\ g2add S C R /\ g2on A /\ g2on B /\ g2on C /\ g2on S /\ g2on R.
Proof.
  intros HP. destruct (g2_mul_ex P (blsX * blsX - blsX - 1) HP) as [A HA]. destruct (g2_mul_ex P (blsX - 1) HP) as [B0 HB0]. destruct (g2_mul_ex P 2 HP) as [C0 HC0].
  pose proof (g2_mul_on _ _ _ HP HA) as CA. pose proof (psiP_on _ (g2_mul_on _ _ _ HP HB0)) as CB. pose proof (psiP_on _ (psiP_on _ (g2_mul_on _ _ _ HP HC0))) as CC.
  destruct (g2_total _ _ CA CB) as [S HS]. pose proof (g2_closed _ _ _ CA CB HS) as CS. destruct (g2_total _ _ CS CC) as [R HR]. pose proof (g2_closed _ _ _ CS CC HR) as CR.
  exists A, B0, (psiP B0), C0, (psiP C0), (psiP (psiP C0)), S, R.
  split; [exact HA|]. split; [exact HB0|]. split; [now apply psiP_spec|]. split; [exact HC0|]. split; [now apply psiP_spec|]. split; [now apply psiP_spec|].
  split; [exact HS|]. split; [exact HR|]. split; [exact CA|]. split; [exact CB|]. split; [exact CC|]. split; [exact CS | exact CR].
Qed.
Lemma cleared_on P R : g2on P -> cleared P R -> g2on R.
Proof.
  intros HP (A & B0 & B & C0 & C1 & C & S & HA & HB0 & HB & HC0 & HC1 & HC & HS & HR).
  apply psiP_spec in HB, HC1, HC. subst B C1 C.
  pose proof (g2_mul_on _ _ _ HP HA) as CA. pose proof (psiP_on _ (g2_mul_on _ _ _ HP HB0)) as CB. pose proof (psiP_on _ (psiP_on _ (g2_mul_on _ _ _ HP HC0))) as CC.
  exact (g2_closed _ _ _ (g2_closed _ _ _ CA CB HS) CC HR).
Qed.
Lemma cleared_fun P R R' : g2on P -> cleared P R -> cleared P R' -> R = R'.
Proof.
  intros HP (A & B0 & B & C0 & C1 & C & S & HA & HB0 & HB & HC0 & HC1 & HC & HS & HR) (A' & B0' & B' & C0' & C1' & C' & S' & HA' & HB0' & HB' & HC0' & HC1' & HC' & HS' & HR').
  apply psiP_spec in HB, HC1, HC, HB', HC1', HC'. subst.
  pose proof (g2_mul_on _ _ _ HP HA) as CA. pose proof (psiP_on _ (g2_mul_on _ _ _ HP HB0)) as CB. pose proof (psiP_on _ (psiP_on _ (g2_mul_on _ _ _ HP HC0))) as CC.
  rewrite <- (g2_mul_fun _ _ _ _ HP HA HA'), <- (g2_mul_fun _ _ _ _ HP HB0 HB0') in HS'. rewrite <- (g2_func _ _ _ _ CA CB HS HS') in HR'.
  rewrite <- (g2_mul_fun _ _ _ _ HP HC0 HC0') in HR'. exact (g2_func _ _ _ _ (g2_closed _ _ _ CA CB HS) CC HR HR').
Qed.

(** tracked steps *)
Lemma jmul_neg J P k : jmul J P k -> jmul (G2JacobianNeg J) P (- k).
Proof. intros (Q & HQ & HJ). exists (g2neg Q). split; [now apply g2_mul_neg | now apply jrep_neg]. Qed.
Lemma jmul_const_honest J P k : g2on P -> jmul J P k -> exists r, run (G2JacobianConstScalarMul J) = Some r /\ jmul r P (k * 15132376222941642752).
Proof.
  intros HP (Q & HQ & HJ). destruct (constmul_honest J Q (g2_mul_on _ _ _ HP HQ) HJ) as (r & R & Hr & HR & HJ'). exists r. split; [exact Hr|].
  exists R. split; [exact (g2_mul_mul _ _ _ _ _ HP HQ HR) | exact HJ'].
Qed.
Lemma jmul_const_sound J P k N r : g2on P -> jmul J P k -> order_above N P -> k <> 0 -> Z.abs k * 15132376222941642752 <= N ->
  sat (G2JacobianConstScalarMul J) r -> jmul r P (k * 15132376222941642752).
Proof.
  intros HP (Q & HQ & HJ) O K L H. assert (OQ : order_above 15132376222941642752 Q).
  { intros m Hm E. apply (order_nz N P (k * m) O); [|exact (g2_mul_mul _ _ _ _ _ HP HQ E)].
    rewrite Z.abs_mul, (Z.abs_eq m) by lia. split; [apply Z.mul_pos_pos; lia|]. apply Z.le_trans with (2 := L). apply Z.mul_le_mono_nonneg_l; lia. }
  destruct (constmul_sound J Q r (g2_mul_on _ _ _ HP HQ) HJ OQ H) as (R & HR & HJ'). exists R. split; [exact (g2_mul_mul _ _ _ _ _ HP HQ HR) | exact HJ'].
Qed.
Lemma jmul_sub_honest p a P i j : g2on P -> jmul p P i -> jmul a P j -> exists r, run (G2JacobianSubAssign p a) = Some r /\ jmul r P (i - j).
Proof. intros HP Hp Ha. exact (jmul_add_honest _ _ _ _ _ HP Hp (jmul_neg _ _ _ Ha)). Qed.
Lemma mul_neq P i j A B N : g2on P -> order_above N P -> g2mul P i A -> g2mul P j B -> 0 < Z.abs (i - j) <= N -> A <> B.
Proof. intros HP O HA HB K ->. exact (order_nz N P _ O K (g2_mul_eq _ _ _ _ HP HA HB)). Qed.
Lemma jmul_add_sound' p a P i j N r : g2on P -> jmul p P i -> jmul a P j -> order_above N P -> 0 < Z.abs i <= N -> 0 < Z.abs j <= N -> 0 < Z.abs (i - j) <= N ->
  sat (G2JacobianAddAssign p a) r -> jmul r P (i + j).
Proof.
  intros HP (A & HA & Ha) (B & HB & Hb) O Hi Hj Nij H.
  assert (NA : A <> Inf) by (intros ->; exact (order_nz N P i O Hi HA)). assert (NB : B <> Inf) by (intros ->; exact (order_nz N P j O Hj HB)).
  pose proof (mul_neq P i j A B N HP O HA HB Nij) as NE.
  destruct (jac_add_sound p a A B r Ha Hb (g2_mul_on _ _ _ HP HA) (g2_mul_on _ _ _ HP HB) NA NB NE H) as (R & HR & HJ).
  exists R. split; [exact (g2_mul_add _ _ _ _ _ _ HP HA HB HR) | exact HJ].
Qed.
Lemma neg_const : - (1 * 15132376222941642752) = blsX. Proof. reflexivity. Qed.
Lemma neg_const2 : - (blsX * 15132376222941642752) = blsX * blsX. Proof. reflexivity. Qed.

Theorem clear_honest J P : g2on P -> jrep J P -> exists r R, run (ClearCofactor J) = Some r /\ cleared P R /\ jrep r R.
Proof.
  intros HP HJ. assert (H0 : jmul J P 1) by (exists P; split; [apply g2_mul_1 | exact HJ]).
  destruct (jmul_const_honest _ _ _ HP H0) as (xg & Rxg & Hxg). apply jmul_neg in Hxg. rewrite neg_const in Hxg.
  destruct (jmul_const_honest _ _ _ HP Hxg) as (xxg & Rxxg & Hxxg). apply jmul_neg in Hxxg. rewrite neg_const2 in Hxxg.
  destruct (jmul_sub_honest _ _ _ _ _ HP Hxxg Hxg) as (r1 & R1 & H1). destruct (jmul_sub_honest _ _ _ _ _ HP H1 H0) as (r2 & R2 & (A & HA & JA)).
  destruct (jmul_sub_honest _ _ _ _ _ HP Hxg H0) as (t & Rt & (B0 & HB0 & JB0)).
  destruct (jmul_double _ _ _ HP H0) as (C0 & HC0 & JC0). change (2 * 1) with 2 in HC0.
  pose proof (g2_mul_on _ _ _ HP HA) as CA. pose proof (psiP_on _ (g2_mul_on _ _ _ HP HB0)) as CB. pose proof (psiP_on _ (psiP_on _ (g2_mul_on _ _ _ HP HC0))) as CC.
  destruct (jac_add_honest r2 (G2JacobianPsi t) A (psiP B0) JA (jrep_psi _ _ JB0) CA CB) as (r3 & S & R3 & HS & JS). pose proof (g2_closed _ _ _ CA CB HS) as CS.
  pose proof (jrep_neg _ _ (jrep_w3 _ _ JC0)) as JC. rewrite g2_neg_neg in JC.
  destruct (jac_add_honest _ _ S (psiP (psiP C0)) JS JC CS CC) as (r & R & Rr & HR & JR).
  exists r, R. split; [|split; [|exact JR]].
  - unfold ClearCofactor. rewrite run_bind, Rxg. cbv zeta. rewrite run_bind, Rxxg, run_bind, R1, run_bind, R2, run_bind, Rt, run_bind, R3. exact Rr.
  - exists A, B0, (psiP B0), C0, (psiP C0), (psiP (psiP C0)), S.
    split; [exact HA|]. split; [exact HB0|]. split; [now apply psiP_spec|]. split; [exact HC0|]. split; [now apply psiP_spec|]. split; [now apply psiP_spec|]. split; [exact HS | exact HR].
Qed.
Lemma neg_neq P Q : P <> g2neg Q -> g2neg P <> Q.
Proof. intros N <-. apply N. now rewrite g2_neg_neg. Qed.
Theorem clear_sound J P r : g2on P -> jrep J P -> clear_generic P -> sat (ClearCofactor J) r -> exists R, cleared P R /\ jrep r R.
Proof.
  intros HP HJ [O G] H. assert (H0 : jmul J P 1) by (exists P; split; [apply g2_mul_1 | exact HJ]).
  unfold ClearCofactor in H. apply sat_bind in H. destruct H as (xg & Rxg & H). cbv zeta in H. apply sat_bind in H. destruct H as (xxg & Rxxg & H).
  apply sat_bind in H. destruct H as (r1 & R1 & H). apply sat_bind in H. destruct H as (r2 & R2 & H). apply sat_bind in H. destruct H as (t & Rt & H).
  apply sat_bind in H. destruct H as (r3 & R3 & H).
  pose proof (jmul_const_sound _ _ _ _ _ HP H0 O ltac:(discriminate) ltac:(discriminate) Rxg) as Hxg. apply jmul_neg in Hxg. rewrite neg_const in Hxg.
  pose proof (jmul_const_sound _ _ _ _ _ HP Hxg O ltac:(discriminate) ltac:(discriminate) Rxxg) as Hxxg. apply jmul_neg in Hxxg. rewrite neg_const2 in Hxxg.
  assert (B : forall z, (0 <? Z.abs z) && (Z.abs z <=? blsX * blsX - blsX + 1) = true -> 0 < Z.abs z <= blsX * blsX - blsX + 1).
  { intros z. rewrite andb_true_iff, Z.ltb_lt, Z.leb_le. auto. }
  pose proof (jmul_add_sound' _ _ _ _ _ _ _ HP Hxxg (jmul_neg _ _ _ Hxg) O ltac:(apply B; exact eq_refl) ltac:(apply B; exact eq_refl) ltac:(apply B; exact eq_refl) R1) as H1.
  pose proof (jmul_add_sound' _ _ _ _ _ _ _ HP H1 (jmul_neg _ _ _ H0) O ltac:(apply B; exact eq_refl) ltac:(apply B; exact eq_refl) ltac:(apply B; exact eq_refl) R2) as (A & HA & JA).
  pose proof (jmul_add_sound' _ _ _ _ _ _ _ HP Hxg (jmul_neg _ _ _ H0) O ltac:(apply B; exact eq_refl) ltac:(apply B; exact eq_refl) ltac:(apply B; exact eq_refl) Rt) as (B0 & HB0 & JB0).
  destruct (jmul_double _ _ _ HP H0) as (C0 & HC0 & JC0). change (2 * 1) with 2 in HC0.
  pose proof (g2_mul_on _ _ _ HP HA) as CA. pose proof (psiP_on _ (g2_mul_on _ _ _ HP HB0)) as CB. pose proof (psiP_on _ (psiP_on _ (g2_mul_on _ _ _ HP HC0))) as CC.
  destruct (g2_total _ _ CA CB) as [S HS]. pose proof (g2_closed _ _ _ CA CB HS) as CS.
  destruct (G A B0 (psiP B0) C0 (psiP C0) (psiP (psiP C0)) S HA HB0 (proj2 (psiP_spec _ _) eq_refl) HC0 (proj2 (psiP_spec _ _) eq_refl) (proj2 (psiP_spec _ _) eq_refl) HS) as [(N1 & N2 & N3 & _) (M1 & M2 & M3 & _)].
  destruct (jac_add_sound r2 (G2JacobianPsi t) A (psiP B0) r3 JA (jrep_psi _ _ JB0) CA CB N1 N2 N3 R3) as (S' & HS' & JS).
  rewrite (g2_func _ _ _ _ CA CB HS' HS) in JS. clear S' HS'.
  pose proof (jrep_neg _ _ (jrep_w3 _ _ JC0)) as JC. rewrite g2_neg_neg in JC.
  destruct (jac_add_sound _ _ S (psiP (psiP C0)) r JS JC CS CC M1 M2 M3 H) as (R & HR & JR).
  exists R. split; [|exact JR]. exists A, B0, (psiP B0), C0, (psiP C0), (psiP (psiP C0)), S.
  split; [exact HA|]. split; [exact HB0|]. split; [now apply psiP_spec|]. split; [exact HC0|]. split; [now apply psiP_spec|]. split; [now apply psiP_spec|]. split; [exact HS | exact HR].
Qed.

(** ** The affine version used by HashToG2 *)
Lemma aff2_surj P : P <> Inf -> exists p, P = aff2 p.
Proof. destruct P as [|x y]; [congruence|]. intros _. now exists (mkG2 x y). Qed.
Lemma on_distinct_x p q : g2on (aff2 p) -> g2on (aff2 q) -> aff2 p <> aff2 q -> aff2 p <> g2neg (aff2 q) -> g2X p <> g2X q.
Proof.
  destruct p as [x y], q as [x' y']. unfold aff2. cbn [g2X g2Y]. intros H1 H2 N1 N2 E. subst x'. destruct (same_x _ _ _ H2 H1) as [E|E]; [apply N1 | apply N2]; now rewrite E.
Qed.
Lemma aff_add_ne p q P Q : aff2 p = P -> aff2 q = Q -> g2on P -> g2on Q -> P <> Q -> P <> g2neg Q ->
  exists r, determ (G2AddAssign p q) r /\ g2add P Q (aff2 r) /\ g2on (aff2 r).
Proof.
  intros <- <- CP CQ N1 N2. destruct (aff_add p q (on_distinct_x _ _ CP CQ N1 N2)) as (r & D & H). exists r. split; [exact D|]. split; [exact H | exact (g2_closed _ _ _ CP CQ H)].
Qed.
Lemma aff_sub_ne p q P Q : aff2 p = P -> aff2 q = Q -> g2on P -> g2on Q -> P <> Q -> P <> g2neg Q ->
  exists r, determ (G2SubAssign p q) r /\ g2add P (g2neg Q) (aff2 r) /\ g2on (aff2 r).
Proof.
  intros E1 E2 CP CQ N1 N2. rewrite aff_sub_eq. apply (aff_add_ne p (affneg q) P (g2neg Q) E1); [now rewrite aff2_neg, E2 | exact CP | now apply g2_neg_on | exact N2 | now rewrite g2_neg_neg].
Qed.
Lemma aff_add_mul p q P i j N : g2on P -> order_above N P -> g2mul P i (aff2 p) -> g2mul P j (aff2 q) -> 0 < Z.abs (i - j) <= N -> 0 < Z.abs (i + j) <= N ->
  exists r, determ (G2SubAssign p q) r /\ g2mul P (i - j) (aff2 r).
Proof.
  intros HP O Hp Hq K1 K2.
  destruct (aff_sub_ne p q _ _ eq_refl eq_refl (g2_mul_on _ _ _ HP Hp) (g2_mul_on _ _ _ HP Hq)) as (r & D & H & _).
  - exact (mul_neq P i j _ _ N HP O Hp Hq K1).
  - apply (mul_neq P i (- j) _ _ N HP O Hp (g2_mul_neg _ _ _ Hq)). now rewrite Z.sub_opp_r.
  - exists r. split; [exact D|]. exact (g2_mul_add _ _ _ _ _ _ HP Hp (g2_mul_neg _ _ _ Hq) H).
Qed.
(** the conversions inside, with the constant multiplication *)
Lemma constmul_determ_aff J P k N : g2on P -> jmul J P k -> order_above N P -> k <> 0 -> Z.abs k * 15132376222941642752 <= N ->
  exists p, g2mul P (- (k * 15132376222941642752)) (aff2 p) /\
    (exists r, run (G2JacobianConstScalarMul J) = Some r /\ jmul (G2JacobianNeg r) P (- (k * 15132376222941642752))) /\
    forall r, jmul r P (- (k * 15132376222941642752)) -> determ (GetG2AffineFromG2Jac r) p.
Proof.
  intros HP HJ O K L. destruct (g2_mul_ex P (- (k * 15132376222941642752)) HP) as [Q HQ].
  assert (NQ : Q <> Inf). { intros ->. apply (order_nz N P _ O) in HQ; [contradiction|]. rewrite Z.abs_opp, Z.abs_mul. change (Z.abs 15132376222941642752) with 15132376222941642752. lia. }
  destruct (aff2_surj Q NQ) as [p ->]. exists p. split; [exact HQ|]. split.
  - destruct (jmul_const_honest J P k HP HJ) as (r & Hr & H). exists r. split; [exact Hr|]. now apply jmul_neg.
  - intros r (Q' & HQ' & HJ'). rewrite (g2_mul_fun _ _ _ _ HP HQ' HQ) in HJ'. destruct p as [x y]. exact (aff_of_jac_determ r x y HJ').
Qed.
Lemma determ_intro {A} (c : Circ A) a r : run c = Some r -> (forall b, sat c b -> b = a) -> determ c a.
Proof. intros H1 H2. split; [|exact H2]. rewrite H1. f_equal. apply H2. now apply run_sat. Qed.
Theorem clear_affine p : g2on (aff2 p) -> clear_generic (aff2 p) -> exists r, determ (G2ClearCofactor p) r /\ cleared (aff2 p) (aff2 r).
Proof.
  intros HP [O G]. set (P := aff2 p) in *.
  assert (Np : ~ (g2X p = E2_Zero /\ g2Y p = E2_Zero)).
  { intros [E1 E2]. unfold P, aff2 in HP. rewrite E2 in HP. exact (g2_no_y0 _ HP). }
  set (J := mkJ (g2X p) (g2Y p) E2_One).
  assert (DJ : determ (GetG2JacFromG2Affine p) J).
  { apply determ_intro with (r := if E2_eqb (g2X p) E2_Zero && E2_eqb (g2Y p) E2_Zero then mkJ E2_One E2_One E2_Zero else mkJ (g2X p) (g2Y p) E2_One).
    - rewrite <- jac_of_aff_honest. now destruct p.
    - intros r H. destruct p as [x y]. cbn [g2X g2Y] in *. apply jac_of_aff_sat in H. destruct H as [->|(E1 & E2 & _)]; [reflexivity | tauto]. }
  assert (H0 : jmul J P 1) by (exists P; split; [apply g2_mul_1 | exact (jrep_one _ _)]).
  assert (B : forall z, (0 <? Z.abs z) && (Z.abs z <=? blsX * blsX - blsX + 1) = true -> 0 < Z.abs z <= blsX * blsX - blsX + 1).
  { intros z. rewrite andb_true_iff, Z.ltb_lt, Z.leb_le. auto. }
  destruct (constmul_determ_aff J P 1 _ HP H0 O ltac:(discriminate) ltac:(discriminate)) as (xg & Hxg & (jxg & Rjxg & Hjxg) & Dxg). rewrite neg_const in *.
  destruct (constmul_determ_aff (G2JacobianNeg jxg) P blsX _ HP Hjxg O ltac:(discriminate) ltac:(discriminate)) as (xxg & Hxxg & (jxxg & Rjxxg & Hjxxg) & Dxxg). rewrite neg_const2 in *.
  destruct (aff_add_mul _ _ _ _ _ _ HP O Hxxg Hxg ltac:(apply B; exact eq_refl) ltac:(apply B; exact eq_refl)) as (r1 & D1 & H1).
  destruct (aff_add_mul r1 p _ _ _ _ HP O H1 (g2_mul_1 P) ltac:(apply B; exact eq_refl) ltac:(apply B; exact eq_refl)) as (r2 & D2 & HA).
  destruct (aff_add_mul xg p _ _ _ _ HP O Hxg (g2_mul_1 P) ltac:(apply B; exact eq_refl) ltac:(apply B; exact eq_refl)) as (t & Dt & HB0).
  assert (Ny : g2Y p <> E2_Zero) by (intros E; unfold P, aff2 in HP; rewrite E in HP; exact (g2_no_y0 _ HP)).
  destruct (aff_double p Ny) as (d & Dd & Hd). pose proof (g2_mul_add _ _ _ _ _ _ HP (g2_mul_1 P) (g2_mul_1 P) Hd) as HC0. change (1 + 1) with 2 in HC0.
  pose proof (g2_mul_on _ _ _ HP HA) as CA. pose proof (psiP_on _ (g2_mul_on _ _ _ HP HB0)) as CB. pose proof (psiP_on _ (psiP_on _ (g2_mul_on _ _ _ HP HC0))) as CC.
  destruct (g2_total _ _ CA CB) as [S HS].
  destruct (G (aff2 r2) (aff2 t) (psiP (aff2 t)) (aff2 d) (psiP (aff2 d)) (psiP (psiP (aff2 d))) S HA HB0 (proj2 (psiP_spec _ _) eq_refl) HC0 (proj2 (psiP_spec _ _) eq_refl) (proj2 (psiP_spec _ _) eq_refl) HS) as [(_ & _ & N3 & N4) (_ & _ & M3 & M4)].
  destruct (aff_add_ne r2 (G2Psi t) _ _ eq_refl (aff_psi t) CA CB N3 N4) as (r3 & D3 & HS' & CS). rewrite (g2_func _ _ _ _ CA CB HS HS') in M3, M4. clear S HS.
  set (w := mkG2 (E2_MulByElement (g2X d) thirdRootOneG1) (g2Y d)).
  assert (Ew : aff2 w = g2neg (psiP (psiP (aff2 d)))). { unfold aff2 at 2. rewrite psiP_psi. symmetry. exact (g2_neg_neg (aff2 w)). }
  destruct (aff_sub_ne r3 w _ _ eq_refl Ew CS (g2_neg_on _ CC)) as (r & Dr & HR & _).
  { exact M4. } { rewrite g2_neg_neg. exact M3. }
  rewrite g2_neg_neg in HR. exists r. split.
  - split.
    + unfold G2ClearCofactor. rewrite run_bind, (proj1 DJ), run_bind, Rjxg. cbv zeta. rewrite run_bind, Rjxxg, run_bind, (proj1 (Dxg _ Hjxg)), run_bind, (proj1 (Dxxg _ Hjxxg)).
      rewrite run_bind, (proj1 D1), run_bind, (proj1 D2), run_bind, (proj1 Dt), run_bind, (proj1 D3), run_bind, (proj1 Dd). exact (proj1 Dr).
    + intros r' H. unfold G2ClearCofactor in H. apply sat_bind in H. destruct H as (J' & HJ' & H). apply (proj2 DJ) in HJ'. subst J'.
      apply sat_bind in H. destruct H as (a1 & Ha1 & H). cbv zeta in H.
      pose proof (jmul_neg _ _ _ (jmul_const_sound _ _ _ _ _ HP H0 O ltac:(discriminate) ltac:(discriminate) Ha1)) as K1. rewrite neg_const in K1.
      apply sat_bind in H. destruct H as (a2 & Ha2 & H).
      pose proof (jmul_neg _ _ _ (jmul_const_sound _ _ _ _ _ HP K1 O ltac:(discriminate) ltac:(discriminate) Ha2)) as K2. rewrite neg_const2 in K2.
      apply sat_bind in H. destruct H as (a3 & Ha3 & H). apply (proj2 (Dxg _ K1)) in Ha3. subst a3.
      apply sat_bind in H. destruct H as (a4 & Ha4 & H). apply (proj2 (Dxxg _ K2)) in Ha4. subst a4.
      apply sat_bind in H. destruct H as (a5 & Ha5 & H). apply (proj2 D1) in Ha5. subst a5.
      apply sat_bind in H. destruct H as (a6 & Ha6 & H). apply (proj2 D2) in Ha6. subst a6.
      apply sat_bind in H. destruct H as (a7 & Ha7 & H). apply (proj2 Dt) in Ha7. subst a7.
      apply sat_bind in H. destruct H as (a8 & Ha8 & H). apply (proj2 D3) in Ha8. subst a8.
      apply sat_bind in H. destruct H as (a9 & Ha9 & H). apply (proj2 Dd) in Ha9. subst a9.
      exact (proj2 Dr _ H).
  - exists (aff2 r2), (aff2 t), (psiP (aff2 t)), (aff2 d), (psiP (aff2 d)), (psiP (psiP (aff2 d))), (aff2 r3).
    split; [exact HA|]. split; [exact HB0|]. split; [now apply psiP_spec|]. split; [exact HC0|]. split; [now apply psiP_spec|]. split; [now apply psiP_spec|]. split; [exact HS' | exact HR].
Qed.
