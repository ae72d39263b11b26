(** Final exponentiation: the two entry points. *)
From Coq Require Import ZArith List Bool Lia Ring Field Znumtheory.
From Verif Require Import Params ZMod RingPow ZPow Primes Circuit Api Emulated Tower TowerSpec FieldFacts ApiFacts TowerFacts
  Frobenius TowerProofs TorusFacts CycloFacts Pairing FinalExp.
Import ListNotations.
Open Scope Z_scope.

Definition p6m1 : Z := pBLS * pBLS * (pBLS * pBLS) * (pBLS * pBLS) - 1.
(** easy part *)
Definition easyE : Z := p6m1 * (pBLS * pBLS + 1).
(** hard part *)
Definition hardE : Z :=
  (xbls - 1) * (xbls - 1) * (xbls + pBLS) * (xbls * xbls + pBLS * pBLS - 1) + 3.

Lemma exp_eq : easyE * hardE = 3 * ((pBLS ^ 12 - 1) / rBLS).
Proof.
  pose proof (proj1 (Z.eqb_eq _ _) r_h) as R. pose proof (proj1 (Z.eqb_eq _ _) three_h) as H3.
  unfold hardE. rewrite <- H3.
  assert (E : pBLS ^ 12 - 1 = easyE * hcof * rBLS).
  { rewrite <- Z.mul_assoc, (Z.mul_comm hcof), R. unfold easyE, p6m1, phi12. generalize pBLS. intros p. ring. }
  rewrite E, Z.div_mul by discriminate. generalize easyE hcof. intros a b. ring.
Qed.

Lemma conj_neq0 e : e <> E12_Zero -> E12_Conjugate e <> E12_Zero.
Proof.
  intros H E. apply H. destruct e as [a b].
  pose proof (f_equal C0 E) as E1. pose proof (f_equal C1 E) as E2. cbn [E12_Conjugate C0 C1 E12_Zero] in E1, E2.
  apply E12_ext; cbn [C0 C1 E12_Zero]; [exact E1|].
  transitivity (E6_Neg (E6_Neg b)); [ring|]. rewrite E2. ring.
Qed.
Lemma z12_p6 e : e <> E12_Zero -> E12_Mul (z12 e p6m1) e = E12_Conjugate e.
Proof.
  intros H. rewrite <- e12pow_p6, <- z12_N, !N2Z.inj_mul, <- p_of_N. unfold p6m1.
  generalize (pBLS * pBLS * (pBLS * pBLS) * (pBLS * pBLS)). intros q.
  rewrite <- (zpow_1 E12_One E12_Mul E12_inv e) at 2. rewrite <- zpow_addE12 by exact H. f_equal. ring.
Qed.
Lemma easy_eq : (pBLS ^ 6 - 1) * (pBLS ^ 2 + 1) = easyE.
Proof. unfold easyE, p6m1. generalize pBLS. intros p. ring. Qed.
Lemma hardE_def : hardE = (xbls - 1) * (xbls - 1) * (xbls + pBLS) * (xbls * xbls + pBLS * pBLS - 1) + 3.
Proof. reflexivity. Qed.
Lemma easyE_def : easyE = p6m1 + p6m1 * (pBLS * pBLS).
Proof. unfold easyE. generalize p6m1 pBLS. intros a b. ring. Qed.
Lemma easyE_def2 : easyE = p6m1 * (1 + pBLS * pBLS).
Proof. unfold easyE. generalize p6m1 pBLS. intros a b. ring. Qed.
Opaque p6m1 easyE hardE.
Lemma c_val e q : C1 e <> E6_Zero -> E6_Mul q (C1 e) = C0 e -> tval (E6_Neg q) = z12 e p6m1.
Proof.
  intros H1 Hq.
  assert (H : e <> E12_Zero) by (intros ->; now apply H1).
  symmetry. apply tval_unique. apply (e12cancel e); [exact H|].
  pose proof (z12_p6 e H) as A. generalize dependent (z12 e p6m1). intros m A.
  transitivity (E12_Mul (E12_Mul m e) (den (E6_Neg q))); [ring|].
  rewrite A. clear A m. destruct e as [a b]. cbn [C0 C1] in *. subst a.
  unfold num, den, E12_Conjugate. cbn [C0 C1].
  apply E12_ext; cbn [C0 C1 E12_Mul]; e6_norm; ring.
Qed.
(** x^(p^12-1) = 1, so the easy part lands in the cyclotomic subgroup *)
Lemma fermat12 e : e <> E12_Zero -> z12 e (p6m1 * (p6m1 + 2)) = E12_One.
Proof.
  intros H. pose proof (z12_p6 e H) as A. pose proof (z12_p6 _ (conj_neq0 e H)) as B.
  assert (CC : E12_Conjugate (E12_Conjugate e) = e).
  { destruct e as [a b]. unfold E12_Conjugate. cbn [C0 C1]. f_equal. ring. }
  rewrite CC in B.
  assert (P : forall a, a <> E12_Zero -> z12 a (p6m1 + 1) = E12_Mul (z12 a p6m1) a).
  { intros a Ha. rewrite zpow_addE12 by exact Ha. reflexivity. }
  replace (p6m1 * (p6m1 + 2)) with ((p6m1 + 1) * (p6m1 + 1) + - 1) by ring.
  apply (e12cancel e); [exact H|].
  rewrite zpow_addE12, zpow_mulE12 by exact H. rewrite (P e H), A, (P _ (conj_neq0 e H)), B.
  pose proof (zpow_oppE12 e 1 H) as O. rewrite (zpow_1 E12_One E12_Mul E12_inv e) in O.
  transitivity (E12_Mul e (E12_Mul (z12 e (- (1))) e)); [change (-1) with (- (1)); ring|]. rewrite O. ring.
Qed.
Transparent easyE p6m1.
Lemma easy_phi : easyE * phi12 = p6m1 * (p6m1 + 2).
Proof. unfold easyE, p6m1, phi12. generalize (pBLS * pBLS). intros q. ring. Qed.
Opaque easyE p6m1.
Lemma easy_cyc e : e <> E12_Zero -> z12 (z12 e easyE) phi12 = E12_One.
Proof. intros H. rewrite <- zpow_mulE12, easy_phi by exact H. apply fermat12, H. Qed.

(** *** soundness *)
Section Sound.
Context (e : E12) (e0 : e <> E12_Zero).
Lemma hard_sound {A} c k (K : E6 -> E6 -> Circ A) z : T e c k ->
  sat (t0 <- SquareTorus c ;;
  t1 <- ExptHalfTorus t0 ;;
  let t2 := InverseTorus c in
  t1 <- MulTorus t1 t2 ;;
  t2 <- ExptTorus t1 ;;
  let t1 := InverseTorus t1 in
  t1 <- MulTorus t1 t2 ;;
  t2 <- ExptTorus t1 ;;
  let t1 := FrobeniusTorus t1 in
  t1 <- MulTorus t1 t2 ;;
  c <- MulTorus c t0 ;;
  t0 <- ExptTorus t1 ;;
  t2 <- ExptTorus t0 ;;
  let t0 := FrobeniusSquareTorus t1 in
  let t1 := InverseTorus t1 in
  t1 <- MulTorus t1 t2 ;;
  t1 <- MulTorus t1 t0 ;; K c t1) z ->
  exists r u, T e r (3 * k) /\ T e u ((hardE - 3) * k) /\ sat (K r u) z.
Proof.
  intros H S. cbv zeta in S.
  apply sat_bind in S; destruct S as (t0 & S1 & S). apply (T_sq e e0 _ _ _ H) in S1.
  apply sat_bind in S; destruct S as (t1 & S2 & S). apply (T_half e e0 _ _ _ S1) in S2.
  pose proof (T_inv e e0 _ _ H) as S3.
  apply sat_bind in S; destruct S as (t3 & S4 & S). apply (T_mul e e0 _ _ _ _ _ S2 S3) in S4.
  apply (T_eq e _ _ ((xbls - 1) * k)) in S4; [|unfold xbls, xabs, xhalf; ring].
  apply sat_bind in S; destruct S as (t4 & S5 & S). apply (T_expt e e0 _ _ _ S4) in S5.
  apply sat_bind in S; destruct S as (t5 & S6 & S). apply (T_mul e e0 _ _ _ _ _ (T_inv e e0 _ _ S4) S5) in S6.
  apply (T_eq e _ _ ((xbls - 1) * (xbls - 1) * k)) in S6; [|ring].
  apply sat_bind in S; destruct S as (t6 & S7 & S). apply (T_expt e e0 _ _ _ S6) in S7.
  apply sat_bind in S; destruct S as (t7 & S8 & S). apply (T_mul e e0 _ _ _ _ _ (T_frob e e0 _ _ S6) S7) in S8.
  apply (T_eq e _ _ ((xbls - 1) * (xbls - 1) * (xbls + pBLS) * k)) in S8; [|ring].
  apply sat_bind in S; destruct S as (c3 & S9 & S). apply (T_mul e e0 _ _ _ _ _ H S1) in S9.
  apply sat_bind in S; destruct S as (t8 & S10 & S). apply (T_expt e e0 _ _ _ S8) in S10.
  apply sat_bind in S; destruct S as (t9 & S11 & S). apply (T_expt e e0 _ _ _ S10) in S11.
  apply sat_bind in S; destruct S as (t10 & S12 & S). apply (T_mul e e0 _ _ _ _ _ (T_inv e e0 _ _ S8) S11) in S12.
  apply sat_bind in S; destruct S as (t11 & S13 & S). apply (T_mul e e0 _ _ _ _ _ S12 (T_frobsq e e0 _ _ S8)) in S13.
  exists c3, t11. split; [|split; [|exact S]].
  - eapply T_eq; [|exact S9]. ring.
  - eapply T_eq; [|exact S13]. rewrite hardE_def. ring.
Qed.
End Sound.


(** *** completeness *)
Section Comp.
Context (g : E12) (g0 : g <> E12_Zero) (g1 : g <> E12_One) (gc : z12 g phi12 = E12_One).
Lemma hard_complete {A} c (K : E6 -> E6 -> Circ A) z : T g c 1 ->
  (forall r u, T g r 3 -> T g u (hardE - 3) -> determ (K r u) z) ->
  determ (t0 <- SquareTorus c ;;
  t1 <- ExptHalfTorus t0 ;;
  let t2 := InverseTorus c in
  t1 <- MulTorus t1 t2 ;;
  t2 <- ExptTorus t1 ;;
  let t1 := InverseTorus t1 in
  t1 <- MulTorus t1 t2 ;;
  t2 <- ExptTorus t1 ;;
  let t1 := FrobeniusTorus t1 in
  t1 <- MulTorus t1 t2 ;;
  c <- MulTorus c t0 ;;
  t0 <- ExptTorus t1 ;;
  t2 <- ExptTorus t0 ;;
  let t0 := FrobeniusSquareTorus t1 in
  let t1 := InverseTorus t1 in
  t1 <- MulTorus t1 t2 ;;
  t1 <- MulTorus t1 t0 ;; K c t1) z.
Proof.
  intros H HK. cbv zeta.
  pose proof (cop_mul : forall a b, cop a -> cop b -> cop (a * b)) as CM.
  assert (C1 : cop 1) by apply rel_prime_1.
  assert (Cx1 : cop (xbls - 1)) by apply copX1.
  destruct (Tc_sq g g0 g1 gc _ _ H C1) as (t0 & D1 & T1).
  destruct (Tc_half g g0 g1 gc _ _ T1) as (t1 & D2 & T2); [apply CM; [apply cop2 | exact C1]|].
  pose proof (T_inv g g0 _ _ H) as S3.
  destruct (Tc_mul g g0 g1 gc _ _ _ _ T2 S3) as (t3 & D4 & T4).
  { replace (- xhalf * (2 * 1) + - (1)) with (xbls - 1) by (unfold xbls, xabs, xhalf; ring). exact Cx1. }
  apply (T_eq g _ _ (xbls - 1)) in T4; [|unfold xbls, xabs, xhalf; ring].
  destruct (Tc_expt g g0 g1 gc _ _ T4 Cx1) as (t4 & D5 & T5).
  assert (Cxx : cop ((xbls - 1) * (xbls - 1))) by (apply CM; exact Cx1).
  destruct (Tc_mul g g0 g1 gc _ _ _ _ (T_inv g g0 _ _ T4) T5) as (t5 & D6 & T6).
  { replace (- (xbls - 1) + xbls * (xbls - 1)) with ((xbls - 1) * (xbls - 1)) by ring. exact Cxx. }
  apply (T_eq g _ _ ((xbls - 1) * (xbls - 1))) in T6; [|ring].
  destruct (Tc_expt g g0 g1 gc _ _ T6 Cxx) as (t6 & D7 & T7).
  assert (Ct : cop ((xbls - 1) * (xbls - 1) * (xbls + pBLS))) by (apply CM; [exact Cxx | apply copXP]).
  destruct (Tc_mul g g0 g1 gc _ _ _ _ (T_frob g g0 _ _ T6) T7) as (t7 & D8 & T8).
  { replace ((xbls - 1) * (xbls - 1) * pBLS + xbls * ((xbls - 1) * (xbls - 1)))
      with ((xbls - 1) * (xbls - 1) * (xbls + pBLS)) by ring. exact Ct. }
  apply (T_eq g _ _ ((xbls - 1) * (xbls - 1) * (xbls + pBLS))) in T8; [|ring].
  destruct (Tc_mul g g0 g1 gc _ _ _ _ H T1) as (c3 & D9 & T9); [apply cop3|].
  destruct (Tc_expt g g0 g1 gc _ _ T8 Ct) as (t8 & D10 & T10).
  destruct (Tc_expt g g0 g1 gc _ _ T10) as (t9 & D11 & T11); [apply CM; [apply copX | exact Ct]|].
  destruct (Tc_mul g g0 g1 gc _ _ _ _ (T_inv g g0 _ _ T8) T11) as (t10 & D12 & T12).
  { replace (- ((xbls - 1) * (xbls - 1) * (xbls + pBLS)) + xbls * (xbls * ((xbls - 1) * (xbls - 1) * (xbls + pBLS))))
      with ((xbls - 1) * (xbls - 1) * (xbls + pBLS) * ((xbls - 1) * (xbls + 1))) by ring.
    apply CM; [exact Ct|]. apply CM; [exact Cx1 | apply copX2]. }
  destruct (Tc_mul g g0 g1 gc _ _ _ _ T12 (T_frobsq g g0 _ _ T8)) as (t11 & D13 & T13).
  { match goal with |- cop ?k => replace k with ((xbls - 1) * (xbls - 1) * (xbls + pBLS) * (xbls * xbls + pBLS * pBLS - 1)) by ring end.
    apply CM; [exact Ct | apply copXPP]. }
  apply (determ_bind _ _ _ _ D1). apply (determ_bind _ _ _ _ D2). apply (determ_bind _ _ _ _ D4).
  apply (determ_bind _ _ _ _ D5). apply (determ_bind _ _ _ _ D6). apply (determ_bind _ _ _ _ D7).
  apply (determ_bind _ _ _ _ D8). apply (determ_bind _ _ _ _ D9). apply (determ_bind _ _ _ _ D10).
  apply (determ_bind _ _ _ _ D11). apply (determ_bind _ _ _ _ D12). apply (determ_bind _ _ _ _ D13).
  apply HK.
  - exact T9.
  - eapply T_eq; [|exact T13]. rewrite hardE_def. ring.
Qed.
End Comp.

(** *** the entry points *)
Definition e1_of (e : E12) : E12 := if E6_eqb (C1 e) E6_Zero then mkE12 (C0 e) E6_One else e.
Notation finE := (easyE * hardE).

Lemma fin_split : easyE * hardE = 3 * easyE + (hardE - 3) * easyE.
Proof. generalize easyE hardE. intros a b. ring. Qed.

Lemma z12_base e c k : e <> E12_Zero -> T (z12 e k) c 1 <-> T e c k.
Proof. intros H. unfold T. rewrite (zpow_1 E12_One E12_Mul E12_inv). reflexivity. Qed.

Lemma easy_sound e q c0 c : C1 e <> E6_Zero -> E6_Mul q (C1 e) = C0 e -> c0 = E6_Neg q ->
  sat (MulTorus (FrobeniusSquareTorus c0) c0) c -> T e c easyE.
Proof.
  intros H1 Hq -> S.
  assert (H : e <> E12_Zero) by (intros ->; now apply H1).
  assert (T0 : T e (E6_Neg q) p6m1) by exact (c_val e q H1 Hq).
  eapply T_eq; [|eapply (T_mul e H); [apply (T_frobsq e H); exact T0|exact T0|exact S]].
  rewrite easyE_def. generalize p6m1 (pBLS * pBLS). intros a b. ring.
Qed.

Lemma T_neq1 e y k : T e y k -> z12 e k <> E12_One.
Proof. unfold T. intros <-. apply tval_neq1. Qed.

Lemma unsafe_sound e r e' : e <> E12_Zero -> sat (FinalExponentiationUnsafe e) (r, e') ->
  e' = e /\ r = z12 e finE /\ r <> E12_One.
Proof.
  intros H S. unfold FinalExponentiationUnsafe, finalExponentiation in S.
  cbv zeta in S. apply sat_bind in S. destruct S as ([s1 e2] & S0 & S).
  apply sat_ret_inv in S0. injection S0 as <- <-.
  apply sat_bind in S. destruct S as (q & Sq & S). apply sat_E6_Div in Sq.
  assert (H1 : C1 e <> E6_Zero).
  { intros Z. apply H. rewrite Z in Sq. apply E12_ext; [rewrite <- Sq; cbn [C0 E12_Zero]; ring | exact Z]. }
  apply sat_bind in S. destruct S as (c & Sc & S).
  apply (easy_sound e q _ c H1 Sq eq_refl) in Sc.
  apply (hard_sound e H c easyE (fun c t1 => m <- MulTorus c t1 ;; result <- DecompressTorus m ;; Ret (result, e))) in S;
    [|exact Sc].
  destruct S as (c3 & t1 & T3 & T1 & S).
  apply sat_bind in S. destruct S as (m & Sm & S). apply (T_mul e H _ _ _ _ _ T3 T1) in Sm.
  apply sat_bind in S. destruct S as (d & Sd & S). apply sat_DecompressTorus in Sd.
  apply sat_ret_inv in S. injection S as <- <-.
  assert (E : d = z12 e finE).
  { rewrite Sd. unfold T in Sm. rewrite Sm, fin_split. reflexivity. }
  split; [reflexivity|]. split; [exact E|]. rewrite Sd. apply tval_neq1.
Qed.

Lemma C1_zero_pow e : e <> E12_Zero -> C1 e = E6_Zero -> z12 e p6m1 = E12_One.
Proof.
  intros H Z. apply (e12cancel e); [exact H|]. rewrite z12_p6 by exact H.
  destruct e as [a b]. cbn [C1] in Z. subst b.
  apply E12_ext; cbn [E12_Conjugate E12_Mul E12_One C0 C1]; e6_norm; ring.
Qed.
Lemma C1_zero_fin e : e <> E12_Zero -> C1 e = E6_Zero -> z12 e finE = E12_One.
Proof.
  intros H Z. rewrite zpow_mulE12 by exact H. rewrite easyE_def2.
  rewrite zpow_mulE12, C1_zero_pow, !zpow_one by assumption. reflexivity.
Qed.

Lemma E6_eqb_refl x : E6_eqb x x = true. Proof. now apply E6_eqb_eq. Qed.
Lemma E6_1_neq0 : E6_One <> E6_Zero. Proof. exact (F_1_neq_0 E6_ft). Qed.
Lemma e1_C1 e : C1 (e1_of e) <> E6_Zero.
Proof.
  unfold e1_of. destruct (E6_eqb (C1 e) E6_Zero) eqn:E; cbn [C1]; [apply E6_1_neq0|].
  intros Z. apply E6_eqb_eq in Z. congruence.
Qed.
Lemma e1_neq0 e : e1_of e <> E12_Zero.
Proof. intros Z. apply (e1_C1 e). now rewrite Z. Qed.
Lemma e1_T0 e : C1 e <> E6_Zero -> e1_of e = e.
Proof. intros H. unfold e1_of. destruct (E6_eqb _ _) eqn:E; [|reflexivity]. now apply E6_eqb_eq in E. Qed.

Lemma one_minus_bF b : fsub (f1 rBN) (bF b) = bF (negb b).
Proof. destruct b; cbn [bF negb]; ring. Qed.
Lemma bF_mul a b : fmul (bF a) (bF b) = bF (a && b).
Proof. destruct a, b; cbn [bF andb]; ring. Qed.
Lemma bF_false : f0 rBN = bF false. Proof. reflexivity. Qed.

(** the value of the first selector block of the safe path *)
Lemma safe_prefix e : determ (selector1 <- E6_IsZero (C1 e) ;;
    c1 <- E6_Select selector1 E6_One (C1 e) ;; Ret (selector1, mkE12 (C0 e) c1))
  (bF (E6_eqb (C1 e) E6_Zero), e1_of e).
Proof.
  eapply determ_bind; [apply determ_E6_IsZero|]. eapply determ_bind; [apply determ_E6_Select|].
  unfold e1_of. destruct (E6_eqb (C1 e) E6_Zero); [apply determ_ret|]. destruct e; apply determ_ret.
Qed.

Lemma p2_even : exists k, 1 + pBLS * pBLS = 2 * k.
Proof. exists 8009641123864852705971874322159486308847560049665276329931192268492988374245678571700328039651096714987477192770085365265551942269853452968100101210518217905546506517135906379008203984748165830709270511838887449985712996744742685. reflexivity. Qed.
Lemma z12_2 a : z12 a 2 = E12_Mul a a. Proof. reflexivity. Qed.
Lemma neg_sq a : E12_Mul (E12_Neg a) (E12_Neg a) = E12_Mul a a. Proof. ring. Qed.
Lemma mul_1 a : E12_Mul a E12_One = a. Proof. ring. Qed.
Lemma neg_one_even k : z12 (E12_Neg E12_One) (2 * k) = E12_One.
Proof.
  assert (N : E12_Neg E12_One <> E12_Zero) by (rewrite <- tval_0; apply tval_neq0).
  rewrite zpow_mulE12 by exact N. rewrite z12_2, neg_sq, mul_1. apply zpow_one.
Qed.

Lemma zero_easy : z12 (e1_of E12_Zero) easyE = E12_One.
Proof.
    assert (Z : e1_of E12_Zero = mkE12 E6_Zero E6_One) by reflexivity.
    (* w^(p^6-1) = -1 *)
    assert (W : z12 (e1_of E12_Zero) p6m1 = E12_Neg E12_One).
    { rewrite <- tval_0. symmetry. rewrite <- (c_val (e1_of E12_Zero) E6_Zero (e1_C1 _)).
      - f_equal.
      - rewrite Z. cbn [C0 C1]. ring. }
    pose proof neg_one_even as P.
    rewrite easyE_def2.
    rewrite zpow_mulE12, W by apply e1_neq0.
    assert (X : exists k, 1 + pBLS * pBLS = 2 * k) by exact p2_even.
    destruct X as [k ->]. apply P.
Qed.

Lemma safe_sound e r e' : sat (FinalExponentiation e) (r, e') ->
  e' = e1_of e /\ e <> E12_Zero /\ z12 (e1_of e) easyE <> E12_One /\ r = z12 e finE.
Proof.
  intros S. unfold FinalExponentiation, finalExponentiation in S.
  cbv zeta in S. apply sat_bind in S. destruct S as ([s1 e2] & S0 & S).
  apply (determ_sat _ _ (safe_prefix e)) in S0. injection S0 as -> ->.
  apply sat_bind in S. destruct S as (q & Sq & S). apply sat_E6_Div in Sq.
  pose proof (e1_C1 e) as H1. pose proof (e1_neq0 e) as H.
  apply sat_bind in S. destruct S as (c & Sc & S).
  apply (easy_sound _ q _ c H1 Sq eq_refl) in Sc.
  apply (hard_sound _ H c easyE (fun c t1 =>
     selector2 <- E6_IsZero (E6_Add c t1) ;;
     t1 <- E6_Select selector2 E6_One t1 ;;
     m <- MulTorus c t1 ;;
     d <- DecompressTorus m ;;
     result <- E12_Select (fmul (fsub (f1 rBN) (bF (E6_eqb (C1 e) E6_Zero))) (fsub (f1 rBN) selector2)) d E12_One ;;
     Ret (result, e1_of e))) in S; [|exact Sc].
  destruct S as (c3 & t1 & T3 & T1 & S).
  apply sat_bind in S. destruct S as (s2 & S2 & S). apply (determ_sat _ _ (determ_E6_IsZero _)) in S2. subst s2.
  apply sat_bind in S. destruct S as (t1' & St & S). apply (determ_sat _ _ (determ_E6_Select _ _ _)) in St.
  apply sat_bind in S. destruct S as (m & Sm & S).
  apply sat_bind in S. destruct S as (d & Sd & S). apply sat_DecompressTorus in Sd.
  apply sat_bind in S. destruct S as (res & Sr & S).
  apply sat_ret_inv in S. injection S as <- <-.
  rewrite !one_minus_bF, bF_mul in Sr. apply (determ_sat _ _ (determ_E12_Select _ _ _)) in Sr.
  split; [reflexivity|].
  assert (He : e <> E12_Zero).
  { intros ->. apply (T_neq1 _ _ _ Sc). exact zero_easy. }
  split; [exact He|]. split; [exact (T_neq1 _ _ _ Sc)|].
  destruct (E6_eqb (C1 e) E6_Zero) eqn:Ez.
  - cbn [negb andb] in Sr. rewrite Sr. symmetry. apply C1_zero_fin; [exact He|]. now apply E6_eqb_eq.
  - cbn [negb andb] in Sr.
    assert (Ee : e1_of e = e). { apply e1_T0. intros Z. apply E6_eqb_eq in Z. congruence. }
    rewrite Ee in *.
    destruct (E6_eqb (E6_Add c3 t1) E6_Zero) eqn:E2; cbn [negb] in Sr.
    + rewrite Sr. apply E6_eqb_eq in E2. apply torus_opp_prod in E2. unfold T in T3, T1.
      rewrite T3, T1, <- zpow_addE12 in E2 by exact H. symmetry. rewrite fin_split. exact E2.
    + rewrite Sr, Sd. subst t1'. apply (T_mul e H _ _ _ _ _ T3 T1) in Sm. unfold T in Sm. rewrite Sm, fin_split. reflexivity.
Qed.

(** *** completeness *)
Lemma easy_complete e : C1 e <> E6_Zero -> z12 e easyE <> E12_One ->
  exists c, determ (MulTorus (FrobeniusSquareTorus (E6_Neg (E6_div (C0 e) (C1 e)))) (E6_Neg (E6_div (C0 e) (C1 e)))) c
  /\ T e c easyE.
Proof.
  intros H1 Hn.
  assert (H : e <> E12_Zero) by (intros ->; now apply H1).
  set (c0 := E6_Neg (E6_div (C0 e) (C1 e))).
  assert (Hq : E6_Mul (E6_div (C0 e) (C1 e)) (C1 e) = C0 e) by (field; exact H1).
  assert (T0 : T e c0 p6m1) by exact (c_val e _ H1 Hq).
  pose proof (T_frobsq e H _ _ T0) as T1.
  destruct (determ_MulTorus (FrobeniusSquareTorus c0) c0) as (c & D).
  - intros Z. apply torus_opp_prod in Z. apply Hn. unfold T in T0, T1.
    rewrite T0, T1, <- zpow_addE12 in Z by exact H. rewrite easyE_def, Z.add_comm. exact Z.
  - exists c. split; [exact D|]. apply (easy_sound e _ c0 c H1 Hq eq_refl). apply run_sat, D.
Qed.

Lemma easy_neq0 e : e <> E12_Zero -> z12 e easyE <> E12_Zero.
Proof. intros H. now apply zpow_neq0E12. Qed.

Lemma unsafe_complete e : C1 e <> E6_Zero -> z12 e finE <> E12_One ->
  determ (FinalExponentiationUnsafe e) (z12 e finE, e).
Proof.
  intros H1 Hn.
  assert (H : e <> E12_Zero) by (intros ->; now apply H1).
  assert (Hg : z12 e easyE <> E12_One).
  { intros Z. apply Hn. rewrite zpow_mulE12, Z by exact H. apply zpow_one. }
  destruct (easy_complete e H1 Hg) as (c & Dc & Tc).
  unfold FinalExponentiationUnsafe, finalExponentiation. cbv zeta.
  eapply determ_bind; [apply determ_ret|]. cbv beta iota.
  eapply determ_bind; [exact (determ_E6_Div (C0 e) (C1 e) H1)|].
  eapply determ_bind; [exact Dc|].
  apply (hard_complete (z12 e easyE) (easy_neq0 e H) Hg (easy_cyc e H) c
    (fun c t1 => m <- MulTorus c t1 ;; result <- DecompressTorus m ;; Ret (result, e))).
  { now apply z12_base. }
  intros r u Tr Tu.
  destruct (determ_MulTorus r u) as (m & Dm).
  { intros Z. apply torus_opp_prod in Z. apply Hn. unfold T in Tr, Tu.
    rewrite zpow_mulE12 by exact H. rewrite Tr, Tu, <- zpow_addE12 in Z by exact (easy_neq0 e H).
    replace (3 + (hardE - 3)) with hardE in Z by (generalize hardE; intros a; ring). exact Z. }
  eapply determ_bind; [exact Dm|]. eapply determ_bind; [apply determ_DecompressTorus|].
  pose proof (T_mul _ (easy_neq0 e H) _ _ _ _ _ Tr Tu (run_sat _ _ (proj1 Dm))) as Tm.
  unfold T in Tm. rewrite Tm.
  replace (3 + (hardE - 3)) with hardE by (generalize hardE; intros a; ring).
  rewrite zpow_mulE12 by exact H. apply determ_ret.
Qed.

(** -1 = the torus coordinate dummy's mirror: (w-1)/(-1-w) is not in the cyclotomic subgroup *)
Opaque del.
Lemma cross_cyc n d fn fd ffn ffd M fM ffM : E12_Mul M d = n -> E12_Mul fM fd = fn -> E12_Mul ffM ffd = ffn ->
  E12_Mul ffM M = fM -> E12_Mul (E12_Mul ffn n) fd = E12_Mul fn (E12_Mul ffd d).
Proof. intros <- <- <- <-. ring. Qed.
Lemma frobsq12_mul a b : frobsq12 (E12_Mul a b) = E12_Mul (frobsq12 a) (frobsq12 b).
Proof.
  pose proof (e12pow_p2 a) as A. pose proof (e12pow_p2 b) as B. pose proof (e12pow_p2 (E12_Mul a b)) as C.
  rewrite npow_mulbE12, A, B in C. symmetry. exact C.
Qed.
Lemma tval_m1_notcyc y : y = E6_Neg E6_One -> z12 (tval y) phi12 <> E12_One.
Proof.
  intros Ey H0. pose proof (proj1 (cyc_iff _ (tval_neq0 y)) H0) as H. clear H0.
  pose proof (tval_spec y) as S.
  pose proof frobsq12_mul as F.
  pose proof (f_equal frobsq12 S) as S1. rewrite F in S1.
  pose proof (f_equal frobsq12 S1) as S2. rewrite F in S2.
  set (M := tval y) in *. clearbody M.
  assert (E : E12_Mul (E12_Mul (frobsq12 (frobsq12 (num y))) (num y)) (frobsq12 (den y)) =
              E12_Mul (frobsq12 (num y)) (E12_Mul (frobsq12 (frobsq12 (den y))) (den y))).
  { exact (cross_cyc _ _ _ _ _ _ _ _ _ S S1 S2 H). }
  clear S S1 S2 H F M.
  assert (En : num y = wmk (E2_Neg E2_One) E2_One E2_Zero E2_Zero E2_Zero E2_Zero).
  { unfold num, wmk. rewrite Ey. apply E12_ext; cbn [C0 C1]; [|reflexivity]. apply E6_ext; cbn [B0 B1 B2 E6_Neg E6_One]; ring. }
  assert (Ed : den y = wmk (E2_Neg E2_One) (E2_Neg E2_One) E2_Zero E2_Zero E2_Zero E2_Zero).
  { unfold den, wmk. rewrite Ey. apply E12_ext; cbn [C0 C1]; apply E6_ext; cbn [B0 B1 B2 E6_Neg E6_One]; ring. }
  rewrite En, Ed in E. clear En Ed Ey y. rewrite !frobsq12_wmk, !wmk_mul in E.
  pose proof del_min2 as M.
  generalize dependent (e2_of del). intros d E M.
  assert (Md : E2_Mul d d = E2_Sub d E2_One).
  { transitivity (E2_Sub (E2_Add (E2_Add (E2_Sub (E2_Mul d d) d) E2_One) d) E2_One); [ring | rewrite M; ring]. }
  apply wmk_inj in E. destruct E as (_ & _ & _ & E3 & _ & _).
  assert (X : E2_Add E2_One E2_One = E2_Zero).
  { match type of E3 with ?l = ?r =>
      transitivity (E2_Sub l r); [ring [Md] | rewrite E3; ring] end. }
  apply (f_equal A0) in X. exact (fp_2_neq0 X).
Qed.
Transparent del.

Lemma safe_complete e : e <> E12_Zero -> z12 (e1_of e) easyE <> E12_One ->
  determ (FinalExponentiation e) (z12 e finE, e1_of e).
Proof.
  intros He Hg. pose proof (e1_C1 e) as H1. pose proof (e1_neq0 e) as H.
  destruct (easy_complete _ H1 Hg) as (c & Dc & Tc).
  cut (exists z, determ (FinalExponentiation e) z).
  { intros ([r e'] & D). pose proof (safe_sound e r e' (run_sat _ _ (proj1 D))) as (-> & _ & _ & ->). exact D. }
  unfold FinalExponentiation, finalExponentiation. cbv zeta.
  assert (K : exists z, forall r u, T (z12 (e1_of e) easyE) r 3 -> T (z12 (e1_of e) easyE) u (hardE - 3) ->
    determ (selector2 <- E6_IsZero (E6_Add r u) ;;
     t1 <- E6_Select selector2 E6_One u ;;
     m <- MulTorus r t1 ;;
     d <- DecompressTorus m ;;
     result <- E12_Select (fmul (fsub (f1 rBN) (bF (E6_eqb (C1 e) E6_Zero))) (fsub (f1 rBN) selector2)) d E12_One ;;
     Ret (result, e1_of e)) z).
  { exists (z12 e finE, e1_of e). intros r u Tr Tu.
    set (g := z12 (e1_of e) easyE) in *. assert (g0 : g <> E12_Zero) by exact (easy_neq0 _ H).
    pose proof (easy_cyc _ H) as gc. fold g in gc.
    set (u' := if E6_eqb (E6_Add r u) E6_Zero then E6_One else u).
    assert (Dm : exists m, determ (MulTorus r u') m).
    { apply determ_MulTorus. unfold u'. destruct (E6_eqb (E6_Add r u) E6_Zero) eqn:E.
      - intros Z. apply (tval_m1_notcyc r).
        + transitivity (E6_Sub (E6_Add r E6_One) E6_One); [ring | rewrite Z; ring].
        + exact (T_cyc g g0 gc r 3 Tr).
      - intros Z. apply E6_eqb_eq in Z. congruence. }
    destruct Dm as (m & Dm).
    eapply determ_bind; [apply determ_E6_IsZero|].
    eapply determ_bind; [apply determ_E6_Select|]. fold u'.
    eapply determ_bind; [exact Dm|].
    eapply determ_bind; [apply determ_DecompressTorus|].
    rewrite !one_minus_bF, bF_mul.
    eapply determ_bind; [apply determ_E12_Select|].
    match goal with |- determ (Ret (?a, _)) (?b, _) => cut (a = b); [intros ->; apply determ_ret|] end.
    destruct (E6_eqb (C1 e) E6_Zero) eqn:Ez; cbn [negb andb].
    - symmetry. apply C1_zero_fin; [exact He|]. now apply E6_eqb_eq.
    - assert (Ee : e1_of e = e). { apply e1_T0. intros Z. apply E6_eqb_eq in Z. congruence. }
      assert (G : z12 e finE = E12_Mul (z12 g 3) (z12 g (hardE - 3))).
      { rewrite zpow_mulE12 by exact He. rewrite <- zpow_addE12 by exact g0. unfold g. rewrite Ee.
        replace (3 + (hardE - 3)) with hardE by (generalize hardE; intros a; ring). reflexivity. }
      rewrite G. unfold T in Tr, Tu. rewrite <- Tr, <- Tu. unfold u' in Dm.
      destruct (E6_eqb (E6_Add r u) E6_Zero) eqn:E2; cbn [negb].
      + symmetry. apply torus_opp_prod. now apply E6_eqb_eq.
      + apply sat_MulTorus. apply run_sat, Dm. }
  destruct K as (z & K). exists z.
  eapply determ_bind; [exact (safe_prefix e)|]. cbv beta iota.
  eapply determ_bind; [exact (determ_E6_Div _ _ H1)|].
  eapply determ_bind; [exact Dc|].
  apply (hard_complete _ (easy_neq0 _ H) Hg (easy_cyc _ H) c
    (fun c t1 =>
     selector2 <- E6_IsZero (E6_Add c t1) ;;
     t1 <- E6_Select selector2 E6_One t1 ;;
     m <- MulTorus c t1 ;;
     d <- DecompressTorus m ;;
     result <- E12_Select (fmul (fsub (f1 rBN) (bF (E6_eqb (C1 e) E6_Zero))) (fsub (f1 rBN) selector2)) d E12_One ;;
     Ret (result, e1_of e))).
  { apply z12_base; [exact H | exact Tc]. }
  exact K.
Qed.
