(** Final exponentiation: statements over the specification ring, existence of
    inputs, and the two negative results. *)
From Coq Require Import ZArith List Bool Lia Ring Field Znumtheory.
From Verif Require Import Params ZMod RingPow ZPow Primes Circuit Api Emulated Tower TowerSpec FieldFacts ApiFacts TowerFacts
  Frobenius TowerProofs TorusFacts CycloFacts Pairing FinalExp FinalExpProofs Counting.
Import ListNotations.
Open Scope Z_scope.

Notation finN := (Z.to_N (3 * ((pBLS ^ 12 - 1) / rBLS))).
Notation easyN := (Z.to_N ((pBLS ^ 6 - 1) * (pBLS ^ 2 + 1))).
Notation phiN := (Z.to_N (pBLS ^ 4 - pBLS ^ 2 + 1)).

Lemma z12_toN x k : 0 <= k -> e12pow x (Z.to_N k) = z12 x k.
Proof. intros H. rewrite <- z12_N, Z2N.id by exact H. reflexivity. Qed.
Lemma fin_pos : 0 <= 3 * ((pBLS ^ 12 - 1) / rBLS).
Proof. apply Z.mul_nonneg_nonneg; [discriminate|]. apply Z.div_pos; [|reflexivity].
  assert (0 < pBLS ^ 12) by (apply Z.pow_pos_nonneg; [reflexivity | discriminate]). lia. Qed.
Lemma e12_fin x : e12pow x finN = z12 x (easyE * hardE).
Proof. rewrite z12_toN by apply fin_pos. rewrite exp_eq. reflexivity. Qed.
Lemma e12_easy x : e12pow x easyN = z12 x easyE.
Proof.
  rewrite z12_toN.
  - rewrite easy_eq. reflexivity.
  - assert (0 < pBLS ^ 6) by (apply Z.pow_pos_nonneg; [reflexivity | discriminate]).
    assert (0 < pBLS ^ 2) by (apply Z.pow_pos_nonneg; [reflexivity | discriminate]).
    apply Z.mul_nonneg_nonneg; lia.
Qed.
Lemma phi_eq : pBLS ^ 4 - pBLS ^ 2 + 1 = phi12.
Proof. unfold phi12. generalize pBLS. intros p. ring. Qed.
Lemma e12_phi x : e12pow x phiN = z12 x phi12.
Proof.
  rewrite z12_toN.
  - rewrite phi_eq. reflexivity.
  - replace (pBLS ^ 4) with (pBLS ^ 2 * pBLS ^ 2) by (generalize pBLS; intros p; ring).
    assert (0 < pBLS ^ 2) by (apply Z.pow_pos_nonneg; [reflexivity | discriminate]).
    generalize dependent (pBLS ^ 2). intros q Hq. nia.
Qed.

Lemma rep12_inj x y : rep12 x = rep12 y -> x = y.
Proof.
  destruct x as [[[? ?] [? ?] [? ?]] [[? ?] [? ?] [? ?]]], y as [[[? ?] [? ?] [? ?]] [[? ?] [? ?] [? ?]]].
  cbn. intros H. injection H as -> -> -> -> -> -> -> -> -> -> -> ->. reflexivity.
Qed.
Lemma rep12_one : rep12 E12_One = S12one. Proof. reflexivity. Qed.
Lemma rep12_zero : rep12 E12_Zero = S12zero. Proof. reflexivity. Qed.
Lemma rep12_neq x y : x <> y <-> rep12 x <> rep12 y.
Proof. split; intros H E; apply H; [now apply rep12_inj | now rewrite E]. Qed.

(** *** existence of inputs with a nontrivial result *)
Lemma exists_fin : exists e, e <> E12_Zero /\ z12 e (easyE * hardE) <> E12_One.
Proof.
  destruct (E12_not_all_roots (3 * ((pBLS ^ 12 - 1) / rBLS))) as (x & H0 & H).
  - assert (P : 0 < pBLS ^ 12 - 1).
    { assert (E : 2 ^ 12 <= pBLS ^ 12) by (apply Z.pow_le_mono_l; split; [discriminate | discriminate]).
      change (2 ^ 12) with 4096 in E. generalize dependent (pBLS ^ 12). intros q E. lia. }
    assert (R : exists h, pBLS ^ 12 - 1 = h * rBLS).
    { exists (easyE * hcof). pose proof (proj1 (Z.eqb_eq _ _) r_h) as R.
      rewrite <- Z.mul_assoc, (Z.mul_comm hcof), R, <- easy_eq. unfold phi12. generalize pBLS. intros p. ring. }
    destruct R as [h R]. rewrite R in *. rewrite Z.div_mul by discriminate.
    assert (B : 3 < rBLS) by reflexivity. clear R. generalize dependent rBLS. intros r P B. nia.
  - exists x. split; [exact H0|]. rewrite <- e12_fin. exact H.
Qed.

(** *** the unsafe variant at 0 *)
Lemma unsafe_transfer e r : sat (FinalExponentiationUnsafe e) (r, e) ->
  sat (FinalExponentiationUnsafe E12_Zero) (r, E12_Zero).
Proof.
  unfold FinalExponentiationUnsafe, finalExponentiation. cbv zeta. intros S.
  apply sat_bind in S. destruct S as ([s1 e2] & S0 & S).
  apply sat_ret_inv in S0. injection S0 as <- <-.
  apply sat_bind in S. destruct S as (q & Sq & S).
  apply sat_bind. exists (f0 rBN, E12_Zero). split; [reflexivity|]. cbv beta iota.
  apply sat_bind. exists q. split; [apply sat_E6_Div; cbn [C0 C1 E12_Zero]; ring|].
  clear Sq.
  apply sat_bind in S; destruct S as (a1 & H1 & S).
  apply sat_bind in S; destruct S as (a2 & H2 & S).
  apply sat_bind in S; destruct S as (a3 & H3 & S).
  apply sat_bind in S; destruct S as (a4 & H4 & S).
  apply sat_bind in S; destruct S as (a5 & H5 & S).
  apply sat_bind in S; destruct S as (a6 & H6 & S).
  apply sat_bind in S; destruct S as (a7 & H7 & S).
  apply sat_bind in S; destruct S as (a8 & H8 & S).
  apply sat_bind in S; destruct S as (a9 & H9 & S).
  apply sat_bind in S; destruct S as (a10 & H10 & S).
  apply sat_bind in S; destruct S as (a11 & H11 & S).
  apply sat_bind in S; destruct S as (a12 & H12 & S).
  apply sat_bind in S; destruct S as (a13 & H13 & S).
  apply sat_bind in S; destruct S as (a14 & H14 & S).
  apply sat_bind in S; destruct S as (a15 & H15 & S).
  apply sat_ret_inv in S. injection S as <-.
  apply sat_bind; exists a1; split; [exact H1|].
  apply sat_bind; exists a2; split; [exact H2|].
  apply sat_bind; exists a3; split; [exact H3|].
  apply sat_bind; exists a4; split; [exact H4|].
  apply sat_bind; exists a5; split; [exact H5|].
  apply sat_bind; exists a6; split; [exact H6|].
  apply sat_bind; exists a7; split; [exact H7|].
  apply sat_bind; exists a8; split; [exact H8|].
  apply sat_bind; exists a9; split; [exact H9|].
  apply sat_bind; exists a10; split; [exact H10|].
  apply sat_bind; exists a11; split; [exact H11|].
  apply sat_bind; exists a12; split; [exact H12|].
  apply sat_bind; exists a13; split; [exact H13|].
  apply sat_bind; exists a14; split; [exact H14|].
  apply sat_bind; exists a15; split; [exact H15|].
  reflexivity.
Qed.
Lemma unsafe_sat e : e <> E12_Zero -> z12 e (easyE * hardE) <> E12_One ->
  sat (FinalExponentiationUnsafe e) (z12 e (easyE * hardE), e).
Proof.
  intros H N. apply run_sat, unsafe_complete; [|exact N].
  intros Z. apply N. now apply C1_zero_fin.
Qed.
Lemma fin_order e : e <> E12_Zero -> z12 (z12 e (easyE * hardE)) rBLS = E12_One.
Proof.
  intros H. rewrite <- zpow_mulE12 by exact H.
  pose proof (proj1 (Z.eqb_eq _ _) r_h) as R. pose proof (proj1 (Z.eqb_eq _ _) three_h) as H3.
  rewrite hardE_def, <- H3.
  replace (easyE * (3 * hcof) * rBLS) with (easyE * phi12 * 3).
  - rewrite zpow_mulE12, (zpow_mulE12 e easyE phi12), easy_cyc by exact H. apply zpow_one.
  - rewrite <- R. generalize easyE hcof rBLS. intros a b c. ring.
Qed.
Lemma unsafe_zero_free : exists r1 r2, r1 <> r2 /\
  sat (FinalExponentiationUnsafe E12_Zero) (r1, E12_Zero) /\
  sat (FinalExponentiationUnsafe E12_Zero) (r2, E12_Zero).
Proof.
  destruct exists_fin as (e & H0 & H).
  assert (H2 : E12_Mul e e <> E12_Zero) by now apply e12mul_neq0.
  assert (E2 : z12 (E12_Mul e e) (easyE * hardE) = E12_Mul (z12 e (easyE * hardE)) (z12 e (easyE * hardE))).
  { apply (zpow_mulb _ _ _ _ _ _ _ _ E12_ft); exact H0. }
  pose proof (fin_order e H0) as O.
  pose proof (unsafe_sat _ H0 H) as S1.
  assert (N2 : z12 (E12_Mul e e) (easyE * hardE) <> E12_One).
  { rewrite E2. pose proof (zpow_neq0E12 e (easyE * hardE) H0) as M0.
    generalize dependent (z12 e (easyE * hardE)). intros m H E2 O _ M0 S. apply H.
    assert (R : exists k, rBLS = 2 * k + 1) by (exists (rBLS / 2); reflexivity).
    destruct R as [k R]. rewrite R, zpow_addE12, zpow_mulE12, z12_2, S, zpow_one in O by exact M0.
    transitivity (E12_Mul E12_One (z12 m 1)); [rewrite (zpow_1 E12_One E12_Mul E12_inv); ring | exact O]. }
  pose proof (unsafe_sat _ H2 N2) as S2.
  exists (z12 e (easyE * hardE)), (z12 (E12_Mul e e) (easyE * hardE)).
  split; [|split; [exact (unsafe_transfer _ _ S1) | exact (unsafe_transfer _ _ S2)]].
  rewrite E2. pose proof (zpow_neq0E12 e (easyE * hardE) H0) as M0.
  clear - H M0. generalize dependent (z12 e (easyE * hardE)). intros m H M0 E. apply H.
  apply (e12cancel m); [exact M0|]. rewrite <- E. ring.
Qed.

(** *** the safe variant changes its argument *)
Lemma z12_e6 a : a <> E6_Zero -> z12 (e12_of a) easyE = E12_One.
Proof.
  intros H. rewrite easyE_def2, zpow_mulE12 by now apply e12_of_neq0.
  rewrite C1_zero_pow, zpow_one; [reflexivity | now apply e12_of_neq0 | reflexivity].
Qed.
Lemma exists_C0 : exists a, a <> E6_Zero /\ z12 (mkE12 a E6_One) easyE <> E12_One.
Proof.
  destruct exists_fin as (e & H0 & H).
  assert (H1 : C1 e <> E6_Zero) by (intros Z; apply H; now apply C1_zero_fin).
  assert (Hg : z12 e easyE <> E12_One).
  { intros Z. apply H. rewrite zpow_mulE12, Z by exact H0. apply zpow_one. }
  set (a := E6_div (C0 e) (C1 e)).
  assert (Ea : E12_Mul (mkE12 a E6_One) (e12_of (C1 e)) = e).
  { destruct e as [x y]. cbn [C0 C1] in *. unfold a, e12_of. apply E12_ext; cbn [C0 C1 E12_Mul].
    - e6_norm. transitivity (E6_Mul (E6_div x y) y); [ring | field; exact H1].
    - ring. }
  assert (W : forall a, mkE12 a E6_One <> E12_Zero).
  { intros b Z. apply (f_equal C1) in Z. now apply E6_1_neq0. }
  assert (Hw : z12 (mkE12 a E6_One) easyE <> E12_One).
  { intros Z. apply Hg. rewrite <- Ea.
    rewrite (zpow_mulb _ _ _ _ _ _ _ _ E12_ft) by (try apply W; now apply e12_of_neq0).
    rewrite Z, z12_e6 by exact H1. ring. }
  exists a. split; [|exact Hw]. intros Za. apply Hw.
  assert (Zc : a = C0 E12_Zero) by exact Za. rewrite Zc. exact zero_easy.
Qed.
Lemma safe_modifies : exists e r e', sat (FinalExponentiation e) (r, e') /\ e' <> e.
Proof.
  destruct exists_C0 as (a & Ha & H).
  assert (E : e1_of (e12_of a) = mkE12 a E6_One).
  { unfold e1_of, e12_of. cbn [C0 C1]. now rewrite E6_eqb_refl. }
  exists (e12_of a), (z12 (e12_of a) (easyE * hardE)), (e1_of (e12_of a)). split.
  - apply run_sat, safe_complete; [now apply e12_of_neq0|]. rewrite E. exact H.
  - rewrite E. intros X. apply (f_equal C1) in X. cbn [C1 e12_of] in X. now apply E6_1_neq0.
Qed.

(** *** statements on the specification ring *)
Lemma expt_spec x m z mz : Storus (rep6 x) (rep12 m) -> Storus (rep6 z) (rep12 mz) ->
  (sat (ExptTorus x) z -> S12mul (rep12 mz) (S12pow (rep12 m) 15132376222941642752) = S12one) /\
  (sat (ExptHalfTorus x) z -> S12mul (rep12 mz) (S12pow (rep12 m) 7566188111470821376) = S12one).
Proof.
  intros H1 H2. apply Storus_eq in H1, H2. subst m mz.
  pose proof (tval_neq0 x) as N0. assert (T1 : T (tval x) x 1) by reflexivity.
  assert (G : forall k, T (tval x) z (- Z.of_N k) -> S12mul (rep12 (tval z)) (S12pow (rep12 (tval x)) k) = S12one).
  { intros k Tz. rewrite <- rep12_pow, <- rep12_one, <- z12_N.
    destruct (fp12_arith (tval z) (z12 (tval x) (Z.of_N k))) as (_ & _ & M & _). rewrite <- M. f_equal.
    unfold T in Tz. rewrite Tz. apply zpow_oppE12, N0. }
  split; intros S; apply G.
  - apply (T_expt _ N0 _ _ _ T1) in S. eapply T_eq; [|exact S]. reflexivity.
  - apply (T_half _ N0 _ _ _ T1) in S. eapply T_eq; [|exact S]. reflexivity.
Qed.
Lemma expt_total x m : Storus (rep6 x) (rep12 m) -> S12pow (rep12 m) phiN = S12one ->
  exists z, determ (ExptTorus x) z.
Proof.
  intros H1 H2. apply Storus_eq in H1. subst m. rewrite <- rep12_pow, e12_phi, <- rep12_one in H2.
  apply rep12_inj in H2. pose proof (tval_neq0 x) as N0.
  destruct (Tc_expt (tval x) N0 (tval_neq1 x) H2 x 1) as (z & D & _); [reflexivity | apply rel_prime_1|].
  now exists z.
Qed.

Lemma finexp_sound e r e' :
  (rep12 e <> S12zero -> sat (FinalExponentiationUnsafe e) (r, e') ->
     rep12 r = S12pow (rep12 e) finN /\ rep12 r <> S12one) /\
  (sat (FinalExponentiation e) (r, e') -> rep12 e <> S12zero /\ rep12 r = S12pow (rep12 e) finN).
Proof.
  rewrite <- rep12_pow, e12_fin, <- rep12_zero, <- rep12_one, <- !rep12_neq. split.
  - intros H S. apply unsafe_sound in S; [|exact H]. destruct S as (_ & -> & N). split; [reflexivity | exact N].
  - intros S. apply safe_sound in S. destruct S as (_ & N & _ & ->). split; [exact N | reflexivity].
Qed.
Lemma finexp_complete e :
  (S12pow (rep12 e) finN <> S12one -> rep12 e <> S12zero ->
     exists r, determ (FinalExponentiationUnsafe e) (r, e) /\ rep12 r = S12pow (rep12 e) finN) /\
  (C1 e <> E6_Zero -> S12pow (rep12 e) easyN <> S12one ->
     exists r, determ (FinalExponentiation e) (r, e) /\ rep12 r = S12pow (rep12 e) finN).
Proof.
  rewrite <- !rep12_pow, e12_fin, e12_easy, <- rep12_zero, <- rep12_one, <- !rep12_neq. split.
  - intros N H. exists (z12 e (easyE * hardE)). split; [|reflexivity].
    apply unsafe_complete; [|exact N]. intros Z. apply N. now apply C1_zero_fin.
  - intros H1 N. exists (z12 e (easyE * hardE)). split; [|reflexivity].
    pose proof (e1_T0 e H1) as E. rewrite <- E at 3. apply safe_complete; [|now rewrite E].
    intros Z. apply H1. now rewrite Z.
Qed.
Lemma finexp_arg e r e' :
  (sat (FinalExponentiationUnsafe e) (r, e') -> e <> E12_Zero -> e' = e) /\
  (sat (FinalExponentiation e) (r, e') -> C1 e <> E6_Zero -> e' = e) /\
  (sat (FinalExponentiation e) (r, e') -> C1 e = E6_Zero -> e' = mkE12 (C0 e) E6_One).
Proof.
  split; [|split].
  - intros S H. now apply unsafe_sound in S.
  - intros S H. apply safe_sound in S. destruct S as (-> & _). now apply e1_T0.
  - intros S H. apply safe_sound in S. destruct S as (-> & _). unfold e1_of. now rewrite H, E6_eqb_refl.
Qed.
