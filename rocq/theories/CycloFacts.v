(** Correctness of the Granger-Scott squaring used by the torus-square hint. *)
From Coq Require Import ZArith List Bool Lia Ring Field.
From Verif Require Import Params ZMod RingPow ZPow Primes FastTower Circuit Api Emulated Tower FieldFacts TowerFacts
  Frobenius TowerProofs TorusFacts.
Import ListNotations.
Open Scope Z_scope.

Lemma del_min : fadd (fsub (fmul del del) del) fp1 = fp0.
Proof. unfold del. fast_fp. Qed.
Lemma del_min2 : E2_Add (E2_Sub (E2_Mul (e2_of del) (e2_of del)) (e2_of del)) E2_One = E2_Zero.
Proof.
  rewrite <- e2_of_mul.
  transitivity (e2_of (fadd (fsub (fmul del del) del) fp1)); [|rewrite del_min; reflexivity].
  unfold e2_of. generalize del. intros d. e2_ring.
Qed.

(** product of two elements written on the basis 1, w, ..., w^5 over E2 *)
Definition wmk (a0 a1 a2 a3 a4 a5 : E2) : E12 := mkE12 (mkE6 a0 a2 a4) (mkE6 a1 a3 a5).
Lemma wmk_mul a0 a1 a2 a3 a4 a5 b0 b1 b2 b3 b4 b5 :
  let x := E2_NonResidue in
  let P := E2_Mul in let A := E2_Add in
  E12_Mul (wmk a0 a1 a2 a3 a4 a5) (wmk b0 b1 b2 b3 b4 b5) =
  wmk (A (P a0 b0) (P x (A (P a1 b5) (A (P a2 b4) (A (P a3 b3) (A (P a4 b2) (P a5 b1)))))))
      (A (A (P a0 b1) (P a1 b0)) (P x (A (P a2 b5) (A (P a3 b4) (A (P a4 b3) (P a5 b2))))))
      (A (A (P a0 b2) (A (P a1 b1) (P a2 b0))) (P x (A (P a3 b5) (A (P a4 b4) (P a5 b3)))))
      (A (A (P a0 b3) (A (P a1 b2) (A (P a2 b1) (P a3 b0)))) (P x (A (P a4 b5) (P a5 b4))))
      (A (A (P a0 b4) (A (P a1 b3) (A (P a2 b2) (A (P a3 b1) (P a4 b0))))) (P x (P a5 b5)))
      (A (P a0 b5) (A (P a1 b4) (A (P a2 b3) (A (P a3 b2) (A (P a4 b1) (P a5 b0)))))).
Proof.
  cbv zeta. unfold wmk. apply E12_ext; cbn [C0 C1 E12_Mul]; apply E6_ext;
    cbn [B0 B1 B2 E6_Add E6_Mul E6_Sub E6_MulByNonResidue]; e2_norm; ring.
Qed.
Lemma wmk_eta x : x = wmk (B0 (C0 x)) (B0 (C1 x)) (B1 (C0 x)) (B1 (C1 x)) (B2 (C0 x)) (B2 (C1 x)).
Proof. destruct x as [[? ? ?] [? ? ?]]. reflexivity. Qed.
Lemma wmk_inj a0 a1 a2 a3 a4 a5 b0 b1 b2 b3 b4 b5 :
  wmk a0 a1 a2 a3 a4 a5 = wmk b0 b1 b2 b3 b4 b5 ->
  a0 = b0 /\ a1 = b1 /\ a2 = b2 /\ a3 = b3 /\ a4 = b4 /\ a5 = b5.
Proof. unfold wmk. intros H. injection H as -> -> -> -> -> ->. tauto. Qed.

Opaque del.
Lemma frobsq12_wmk a0 a1 a2 a3 a4 a5 : let d := e2_of del in
  frobsq12 (wmk a0 a1 a2 a3 a4 a5) =
  wmk a0 (E2_Mul d a1) (E2_Mul (E2_Mul d d) a2) (E2_Neg a3) (E2_Neg (E2_Mul d a4)) (E2_Neg (E2_Mul (E2_Mul d d) a5)).
Proof.
  cbv zeta. unfold frobsq12, wmk; cbv zeta; cbn [C0 C1 B0 B1 B2]. rewrite !e2_of_mul.
  pose proof del3 as D.
  assert (D3 : forall a, E2_Mul (E2_Mul (E2_Mul (e2_of del) (e2_of del)) (e2_of del)) a = E2_Neg a).
  { intros a. transitivity (E2_Mul (E2_Mul (e2_of del) (E2_Mul (e2_of del) (e2_of del))) a); [ring | rewrite D; ring]. }
  generalize dependent (e2_of del). intros d D D3.
  apply E12_ext; cbn [C0 C1]; apply E6_ext; cbn [B0 B1 B2]; try ring.
  - transitivity (E2_Mul (E2_Mul (E2_Mul d d) d) (E2_Mul d a4)); [ring | apply D3].
  - apply D3.
  - transitivity (E2_Mul (E2_Mul (E2_Mul d d) d) (E2_Mul (E2_Mul d d) a5)); [ring | apply D3].
Qed.

Lemma e2cancel x a b : x <> E2_Zero -> E2_Mul x a = E2_Mul x b -> a = b.
Proof.
  intros X H. apply (cancel _ _ _ _ _ _ _ _ E2_ft x); [exact X|].
  transitivity (E2_Mul x a); [ring|]. rewrite H. ring.
Qed.

(** Granger-Scott: on elements with x^(p^4) x = x^(p^2), squaring is E12_CyclotomicSquare *)
Lemma cyclo_square x : E12_Mul (frobsq12 (frobsq12 x)) x = frobsq12 x ->
  E12_CyclotomicSquare x = E12_Mul x x.
Proof.
  rewrite (wmk_eta x). generalize (B0 (C0 x)) (B0 (C1 x)) (B1 (C0 x)) (B1 (C1 x)) (B2 (C0 x)) (B2 (C1 x)).
  clear x. intros a0 a1 a2 a3 a4 a5.
  rewrite !frobsq12_wmk, !wmk_mul. intros H.
  apply wmk_inj in H.
  unfold E12_CyclotomicSquare. unfold wmk at 1 2 3 4 5 6 7 8 9 10 11 12 13 14 15 16 17 18.
  cbv zeta. e2_norm. cbn [C0 C1 B0 B1 B2] in *. fold (wmk a0 a1 a2 a3 a4 a5).
  pose proof del_min2 as M. pose proof del3 as D3.
  assert (dn : e2_of del <> E2_Zero) by apply del_neq0.
  generalize dependent (e2_of del). intros d H M D3 dn.
  assert (Md : E2_Mul d d = E2_Sub d E2_One).
  { transitivity (E2_Sub (E2_Add (E2_Add (E2_Sub (E2_Mul d d) d) E2_One) d) E2_One); [ring | rewrite M; ring]. }
  set (xi := E2_NonResidue) in *. clearbody xi.
  destruct H as (H0 & H1 & H2 & H3 & H4 & H5).
  assert (F : forall k l r s g, l = r -> g = E2_Add s (E2_Mul k (E2_Sub l r)) -> g = s).
  { intros k l r s g E ->. rewrite E. ring. }
  set (two := E2_Add E2_One E2_One).
  unfold wmk. apply E12_ext; cbn [C0 C1]; apply E6_ext; cbn [B0 B1 B2].
  - apply (F two _ _ _ _ H0). unfold two. ring [Md].
  - apply (F (E2_Mul two (E2_Neg d)) _ _ _ _ H2). unfold two. ring [Md].
  - apply (F (E2_Mul two (E2_Sub d E2_One)) _ _ _ _ H4). unfold two. ring [Md].
  - apply (F (E2_Neg (E2_Mul two (E2_Sub E2_One d))) _ _ _ _ H1). unfold two. ring [Md].
  - apply (F two _ _ _ _ H3). unfold two. ring [Md].
  - apply (F (E2_Neg (E2_Mul two d)) _ _ _ _ H5). unfold two. ring [Md].
Qed.
Transparent del.

(** ** elements of the cyclotomic subgroup *)
Notation zpow_addE12 := (zpow_add _ _ _ _ _ _ _ _ E12_ft).
Notation zpow_mulE12 := (zpow_mul _ _ _ _ _ _ _ _ E12_ft).
Notation zpow_oppE12 := (zpow_opp _ _ _ _ _ _ _ _ E12_ft).
Notation zpow_neq0E12 := (zpow_neq0 _ _ _ _ _ _ _ _ E12_ft).

Lemma p_of_N : pBLS = Z.of_N pN.
Proof. symmetry. apply Z2N.id. discriminate. Qed.
Lemma z12_N x n : z12 x (Z.of_N n) = e12pow x n.
Proof. apply zpow_N. Qed.
Lemma z12_p x : z12 x pBLS = e12pow x pN.
Proof. rewrite p_of_N at 1. apply z12_N. Qed.
Lemma z12_p2 x : z12 x (pBLS * pBLS) = frobsq12 x.
Proof. rewrite <- e12pow_p2, <- z12_N, N2Z.inj_mul, <- p_of_N. reflexivity. Qed.
Definition phi12 : Z := pBLS * pBLS * (pBLS * pBLS) - pBLS * pBLS + 1.
Lemma cyc_iff x : x <> E12_Zero -> z12 x phi12 = E12_One <-> E12_Mul (frobsq12 (frobsq12 x)) x = frobsq12 x.
Proof.
  intros X. unfold phi12. rewrite <- !z12_p2.
  rewrite <- (zpow_mulE12 x (pBLS * pBLS) (pBLS * pBLS)) by exact X.
  generalize (pBLS * pBLS). intros q.
  assert (E : E12_Mul (z12 x (q * q)) x = E12_Mul (z12 x (q * q - q + 1)) (z12 x q)).
  { rewrite <- zpow_addE12 by exact X. rewrite <- (zpow_1 E12_One E12_Mul E12_inv x) at 2.
    rewrite <- zpow_addE12 by exact X. f_equal. ring. }
  rewrite E. split.
  - intros ->. ring.
  - intros H. apply (e12cancel (z12 x q)); [now apply zpow_neq0E12|]. rewrite H. ring.
Qed.
Lemma hint_Decompress_eq y : hint_DecompressTorus y = tval y.
Proof. reflexivity. Qed.

Lemma hint_Compress_val m : E12_Mul m (E12_Conjugate m) = E12_One -> m <> E12_One ->
  tval (hint_CompressTorus m) = m.
Proof.
  intros Nm Hn. unfold hint_CompressTorus. destruct (E6_eqb (C1 m) E6_Zero) eqn:E.
  - apply E6_eqb_eq in E. rewrite tval_0. destruct m as [a b]. cbn [C0 C1] in E. subst b.
    assert (S : E6_Mul a a = E6_One).
    { apply (f_equal C0) in Nm. cbn [E12_Mul E12_Conjugate C0 C1 E12_One] in Nm.
      rewrite E6_MulByNonResidue_eq in Nm. rewrite <- Nm. ring. }
    assert (S' : E6_Mul (E6_Sub a E6_One) (E6_Add a E6_One) = E6_Zero).
    { transitivity (E6_Sub (E6_Mul a a) E6_One); [ring | rewrite S; ring]. }
    destruct (E6_eq_dec a E6_One) as [O|O].
    + exfalso. apply Hn. now subst.
    + assert (Q : E6_Add a E6_One = E6_Zero).
      { apply (e6cancel (E6_Sub a E6_One)).
        - intros D. apply O. transitivity (E6_Add (E6_Sub a E6_One) E6_One); [ring | rewrite D; ring].
        - transitivity (E6_Mul (E6_Sub a E6_One) (E6_Add a E6_One)); [ring | rewrite S'; ring]. }
      apply E12_ext; cbn [E12_Neg E12_One C0 C1]; [|ring].
      transitivity (E6_Sub E6_Zero E6_One); [ring | rewrite <- Q; ring].
  - symmetry. apply tval_surj; [exact Nm|]. intros Z. apply E6_eqb_eq in Z. congruence.
Qed.
Opaque hint_CompressTorus hint_DecompressTorus E12_CyclotomicSquare E12_Mul tval E12_Conjugate.
Lemma conj_square m : E12_Mul m (E12_Conjugate m) = E12_One ->
  E12_Mul (E12_Mul m m) (E12_Conjugate (E12_Mul m m)) = E12_One.
Proof.
  intros C. rewrite E12_Conj_mul. generalize dependent (E12_Conjugate m). intros b C.
  transitivity (E12_Mul (E12_Mul m b) (E12_Mul m b)); [ring|]. rewrite C. ring.
Qed.
Lemma squareTorusHint_val y : z12 (tval y) phi12 = E12_One -> E12_Mul (tval y) (tval y) <> E12_One ->
  tval (squareTorusHint y) = E12_Mul (tval y) (tval y).
Proof.
  intros Hc Hn. unfold squareTorusHint.
  assert (E : E12_CyclotomicSquare (hint_DecompressTorus y) = E12_Mul (tval y) (tval y)).
  { transitivity (E12_CyclotomicSquare (tval y)); [f_equal; apply hint_Decompress_eq|].
    exact (cyclo_square (tval y) (proj1 (cyc_iff _ (tval_neq0 y)) Hc)). }
  rewrite E.
  apply hint_Compress_val; [|exact Hn]. exact (conj_square _ (E12_Conj_tval y)).
Qed.
Transparent hint_CompressTorus hint_DecompressTorus E12_CyclotomicSquare E12_Mul tval E12_Conjugate.

Opaque squareTorusHint tval E6_Mul E6_Sub E6_Double E6_eqb E12_Mul.
Lemma run_ask_assert {T : Set} (h : T) (f : T -> bool) :
  run (Ask T (Some h) (fun t => assert (f t) ;;; Ret t)) = if f h then Some h else None.
Proof. cbn [run]. rewrite run_bind. now destruct (f h). Qed.
Lemma run_SquareTorus y :
  run (SquareTorus y) =
  if E6_eqb (E6_Mul (E6_Sub (E6_Double (squareTorusHint y)) y) y) (mkE6 E2_Zero E2_One E2_Zero)
  then Some (squareTorusHint y) else None.
Proof.
  exact (run_ask_assert (squareTorusHint y)
    (fun sq => E6_eqb (E6_Mul (E6_Sub (E6_Double sq) y) y) (mkE6 E2_Zero E2_One E2_Zero))).
Qed.
Lemma sat_ask_assert {T : Set} (h : option T) (f : T -> bool) z :
  sat (Ask T h (fun t => assert (f t) ;;; Ret t)) z <-> f z = true.
Proof.
  cbn [sat]. split.
  - intros (t & S). apply sat_assert_bind in S. destruct S as [S1 S2]. cbn in S2. now subst.
  - intros H. exists z. rewrite H. reflexivity.
Qed.
Lemma sat_SquareTorus_eqb y z : sat (SquareTorus y) z ->
  E6_eqb (E6_Mul (E6_Sub (E6_Double z) y) y) (mkE6 E2_Zero E2_One E2_Zero) = true.
Proof.
  exact (proj1 (sat_ask_assert (Some (squareTorusHint y))
    (fun sq => E6_eqb (E6_Mul (E6_Sub (E6_Double sq) y) y) (mkE6 E2_Zero E2_One E2_Zero)) z)).
Qed.
Lemma determ_SquareTorus y : z12 (tval y) phi12 = E12_One -> E12_Mul (tval y) (tval y) <> E12_One ->
  exists z, determ (SquareTorus y) z /\ tval z = E12_Mul (tval y) (tval y).
Proof.
  intros Hc Hn. pose proof (squareTorusHint_val y Hc Hn) as Hz.
  exists (squareTorusHint y). split; [|exact Hz].
  pose proof (proj2 (sat_SquareTorus y (squareTorusHint y)) Hz) as S. split.
  - rewrite run_SquareTorus, (sat_SquareTorus_eqb _ _ S). reflexivity.
  - intros b Hb. apply sat_SquareTorus in Hb. apply tval_inj. rewrite Hb. symmetry. exact Hz.
Qed.
Transparent squareTorusHint tval E6_Mul E6_Sub E6_Double E6_eqb E12_Mul.
