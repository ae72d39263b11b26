(** More about cofactor clearing: it commutes with negation, it is additive in
    the order of the point, so the order of a point can be read off its image. *)
From Coq Require Import ZArith List Bool Lia.
From Verif Require Import Params ZMod RingPow Emulated Tower FieldFacts TowerFacts CurveSpec G2 G2Spec EcGroup G2Jac G2Mul G2Cof G2Psi G2Clear G2Order.
Import ListNotations.
Open Scope Z_scope.
Local Opaque E2_Mul E2_Add E2_Sub E2_Neg.

Lemma mul_inf w R : g2mul Inf w R -> R = Inf.
Proof.
  assert (Z : forall n S, ec_mul E2 E2_Zero E2_One E2_Add E2_Mul E2_Sub E2_Neg g2a Inf n S -> S = Inf). { induction 1 as [|n S T HS IH A]; [reflexivity|]. subst. now inversion A. }
  unfold g2mul, ec_zmul. destruct (0 <=? w); [apply Z|]. intros (R' & HR & ->). now rewrite (Z _ _ HR).
Qed.
Lemma kill_mul P k m A : g2on P -> g2mul P k Inf -> g2mul P m A -> g2mul A k Inf.
Proof.
  intros HP HK HA. destruct (g2_mul_ex A k (g2_mul_on _ _ _ HP HA)) as [Q HQ]. pose proof (g2_mul_mul _ _ _ _ _ HP HA HQ) as H1.
  destruct (g2_mul_ex Inf m I) as [J HJ]. pose proof (mul_inf _ _ HJ) as E. subst J. pose proof (g2_mul_mul _ _ _ _ _ HP HK HJ) as H2. rewrite Z.mul_comm in H2.
  rewrite (g2_mul_fun _ _ _ _ HP H1 H2) in HQ. exact HQ.
Qed.
(** [k](A+B) = [k]A + [k]B *)
Lemma shuffle A B S X Y Z U V W : g2on A -> g2on B -> g2on X -> g2on Y -> g2add A B S -> g2add X Y Z -> g2add X A U -> g2add Y B V -> g2add U V W -> g2add Z S W.
Proof.
  intros OA OB OX OY HS HZ HU HV HW. pose proof (g2_closed _ _ _ OY OB HV) as OV. pose proof (g2_closed _ _ _ OA OB HS) as OS.
  destruct (g2_assoc_ex _ _ _ _ _ OX OA OV HU HW) as (T & T1 & T2). (* A + V = T, X + T = W *)
  destruct (g2_assoc_ex' _ _ _ _ _ OA OY OB HV T1) as (D & D1 & D2). (* A + Y = D, D + B = T *)
  apply g2_comm in D1. destruct (g2_assoc_ex _ _ _ _ _ OY OA OB D1 D2) as (S' & S1 & S2). (* A + B = S', Y + S' = T *)
  rewrite (g2_func _ _ _ _ OA OB S1 HS) in S2. destruct (g2_assoc_ex' _ _ _ _ _ OX OY OS S2 T2) as (Z' & Z1 & Z2).
  rewrite (g2_func _ _ _ _ OX OY Z1 HZ) in Z2. exact Z2.
Qed.
Notation nmul := (ec_mul E2 E2_Zero E2_One E2_Add E2_Mul E2_Sub E2_Neg g2a) (only parsing).
Lemma nmul_on P n X : g2on P -> nmul P n X -> g2on X.
Proof.
  intros HP H. apply (g2_mul_on P (Z.of_nat n) X HP). unfold g2mul, ec_zmul. rewrite (proj2 (Z.leb_le 0 (Z.of_nat n))) by lia. now rewrite Nat2Z.id.
Qed.
Lemma nmul_sum A B S n : g2on A -> g2on B -> g2add A B S -> forall X Y Z, nmul A n X -> nmul B n Y -> g2add X Y Z -> nmul S n Z.
Proof.
  intros OA OB HS. induction n as [|n IH]; intros X Y Z HX HY HZ.
  - inversion HX; inversion HY; subst. inversion HZ; subst; constructor.
  - inversion HX as [|? X' ? HX' AX]; inversion HY as [|? Y' ? HY' AY]; subst.
    pose proof (nmul_on _ _ _ OA HX') as OX. pose proof (nmul_on _ _ _ OB HY') as OY.
    destruct (g2_total X' Y' OX OY) as [Z' HZ']. econstructor; [exact (IH _ _ _ HX' HY' HZ')|]. exact (shuffle A B S X' Y' Z' X Y Z OA OB OX OY HS HZ' AX AY HZ).
Qed.
Lemma mul_sum A B S k X Y Z : g2on A -> g2on B -> g2add A B S -> g2mul A k X -> g2mul B k Y -> g2add X Y Z -> g2mul S k Z.
Proof.
  intros OA OB HS. unfold g2mul, ec_zmul. destruct (0 <=? k); [now apply nmul_sum|].
  intros (X' & HX & ->) (Y' & HY & ->) HZ. exists (g2neg Z). split; [|symmetry; apply g2_neg_neg].
  apply (nmul_sum A B S _ OA OB HS X' Y' _ HX HY). apply g2_neg_add in HZ. unfold g2neg in HZ. rewrite !g2_neg_neg in HZ. exact HZ.
Qed.
Lemma kill_add A B S k : g2on A -> g2on B -> g2add A B S -> g2mul A k Inf -> g2mul B k Inf -> g2mul S k Inf.
Proof. intros OA OB HS HA HB. exact (mul_sum A B S k _ _ _ OA OB HS HA HB (g2_add_Inf _)). Qed.
Lemma kill_psi P k : g2mul P k Inf -> g2mul (psiP P) k Inf.
Proof. intros H. exact (psi_mul _ _ _ H). Qed.
Theorem cleared_kill P R k : g2on P -> cleared P R -> g2mul P k Inf -> g2mul R k Inf.
Proof.
  intros HP (A & B0 & B & C0 & C1 & C & S & HA & HB0 & HB & HC0 & HC1 & HC & HS & HR) HK.
  apply psiP_spec in HB, HC1, HC. subst B C1 C.
  pose proof (g2_mul_on _ _ _ HP HA) as CA. pose proof (psiP_on _ (g2_mul_on _ _ _ HP HB0)) as CB. pose proof (psiP_on _ (psiP_on _ (g2_mul_on _ _ _ HP HC0))) as CC.
  pose proof (kill_add _ _ _ k CA CB HS (kill_mul _ _ _ _ HP HK HA) (kill_psi _ _ (kill_mul _ _ _ _ HP HK HB0))) as KS.
  exact (kill_add _ _ _ k (g2_closed _ _ _ CA CB HS) CC HR KS (kill_psi _ _ (kill_psi _ _ (kill_mul _ _ _ _ HP HK HC0)))).
Qed.
Theorem cleared_order P R N : g2on P -> cleared P R -> order_above N R -> order_above N P.
Proof. intros HP C O k K HK. exact (O k K (cleared_kill P R k HP C HK)). Qed.

(** ** negation *)
Lemma mul_of_neg P k Q : g2on P -> g2mul P k Q -> g2mul (g2neg P) k (g2neg Q).
Proof.
  intros HP H. destruct (g2_mul_ex (g2neg P) k (g2_neg_on _ HP)) as [R HR]. pose proof (g2_mul_mul _ _ _ _ _ HP (g2_mul_neg _ _ _ (g2_mul_1 P)) HR) as H1.
  replace (- (1) * k) with (- k) in H1 by lia. rewrite (g2_mul_fun _ _ _ _ HP H1 (g2_mul_neg _ _ _ H)) in HR. exact HR.
Qed.
Lemma cleared_neg P R : g2on P -> cleared P R -> cleared (g2neg P) (g2neg R).
Proof.
  intros HP (A & B0 & B & C0 & C1 & C & S & HA & HB0 & HB & HC0 & HC1 & HC & HS & HR).
  apply psiP_spec in HB, HC1, HC. subst B C1 C.
  exists (g2neg A), (g2neg B0), (g2neg (psiP B0)), (g2neg C0), (g2neg (psiP C0)), (g2neg (psiP (psiP C0))), (g2neg S).
  split; [now apply mul_of_neg|]. split; [now apply mul_of_neg|]. split; [apply psiP_spec; now rewrite psiP_neg|]. split; [now apply mul_of_neg|].
  split; [apply psiP_spec; now rewrite psiP_neg|]. split; [apply psiP_spec; now rewrite psiP_neg|]. split; now apply g2_neg_add.
Qed.
Lemma nonexc_neg P Q : nonexc P Q -> nonexc (g2neg P) (g2neg Q).
Proof.
  intros (N1 & N2 & N3 & N4). assert (I : forall X, X <> Inf -> g2neg X <> Inf) by (intros [|x y] H; [exact H | discriminate]).
  split; [now apply I|]. split; [now apply I|]. split.
  - intros E. apply N3. rewrite <- (g2_neg_neg P), <- (g2_neg_neg Q). now f_equal.
  - intros E. apply N4. rewrite <- (g2_neg_neg P). rewrite E. apply f_equal, g2_neg_neg.
Qed.
Lemma mul_neg_back P k Q : g2on P -> g2mul (g2neg P) k Q -> g2mul P k (g2neg Q).
Proof. intros HP H. pose proof (mul_of_neg _ _ _ (g2_neg_on _ HP) H) as H'. now rewrite g2_neg_neg in H'. Qed.
Theorem generic_neg P : g2on P -> clear_generic P -> clear_generic (g2neg P).
Proof.
  intros HP (O & G). split.
  - intros k K H. apply (mul_neg_back P k Inf HP) in H. exact (O k K H).
  - intros A B0 B C0 C1 C S HA HB0 HB HC0 HC1 HC HS. apply psiP_spec in HB, HC1, HC. subst B C1 C.
    assert (X : nonexc (g2neg A) (g2neg (psiP B0)) /\ nonexc (g2neg S) (g2neg (psiP (psiP C0)))).
    { apply (G (g2neg A) (g2neg B0) (g2neg (psiP B0)) (g2neg C0) (g2neg (psiP C0)) (g2neg (psiP (psiP C0))) (g2neg S)).
      - now apply mul_neg_back.
      - now apply mul_neg_back.
      - apply psiP_spec; now rewrite psiP_neg.
      - now apply mul_neg_back.
      - apply psiP_spec; now rewrite psiP_neg.
      - apply psiP_spec; now rewrite psiP_neg.
      - now apply g2_neg_add. }
    destruct X as [X1 X2]. apply nonexc_neg in X1, X2. rewrite !g2_neg_neg in X1, X2. split; assumption.
Qed.
(** given the three points, genericity is a finite check *)
Theorem generic_intro P A B0 C0 S R : g2on P -> in_G2 R -> g2mul P (blsX * blsX - blsX - 1) A -> g2mul P (blsX - 1) B0 -> g2mul P 2 C0 ->
  g2add A (psiP B0) S -> g2add S (psiP (psiP C0)) R -> nonexc A (psiP B0) -> nonexc S (psiP (psiP C0)) -> clear_generic P /\ cleared P R.
Proof.
  intros HP HR HA HB HC HS HT N1 N2.
  assert (CL : cleared P R). { exists A, B0, (psiP B0), C0, (psiP C0), (psiP (psiP C0)), S. split; [exact HA|]. split; [exact HB|]. split; [now apply psiP_spec|]. split; [exact HC|]. split; [now apply psiP_spec|]. split; [now apply psiP_spec|]. split; assumption. }
  split; [split|exact CL].
  - apply (cleared_order P R _ HP CL). exact (proj1 (G2_generic R HR)).
  - intros A' B0' B C0' C1 C S' HA' HB' HPB HC' HC1 HPC HS'. apply psiP_spec in HPB, HC1, HPC. subst B C1 C.
    pose proof (g2_mul_fun _ _ _ _ HP HA' HA) as E1. pose proof (g2_mul_fun _ _ _ _ HP HB' HB) as E2. pose proof (g2_mul_fun _ _ _ _ HP HC' HC) as E3. subst A' B0' C0'.
    pose proof (g2_mul_on _ _ _ HP HA) as CA. pose proof (psiP_on _ (g2_mul_on _ _ _ HP HB)) as CB.
    rewrite (g2_func _ _ _ _ CA CB HS' HS). split; assumption.
Qed.
