(** Integer powers in a field.  General mathematics: nothing here models code. *)
From Coq Require Import ZArith Lia Ring Field Field_theory.
From Verif Require Import RingPow.
Open Scope Z_scope.

Section ZP.
Context {R : Type} (rO rI : R) (radd rmul rsub : R -> R -> R) (ropp : R -> R)
        (rdiv : R -> R -> R) (rinv : R -> R).
Hypothesis ft : field_theory rO rI radd rmul rsub ropp rdiv rinv (@eq R).
Let rt := F_R ft.
Add Ring RR : rt.
Local Infix "*r" := rmul (at level 40, left associativity).
Local Notation pw := (npow rI rmul).

Definition zpow (x : R) (z : Z) : R :=
  match z with
  | Z0 => rI
  | Zpos p => ppow rmul x p
  | Zneg p => ppow rmul (rinv x) p
  end.

Lemma inv_l x : x <> rO -> rinv x *r x = rI. Proof. apply (Finv_l ft). Qed.

Lemma cancel x a b : x <> rO -> a *r x = b *r x -> a = b.
Proof.
  intros H E.
  transitivity (a *r (rinv x *r x)); [rewrite inv_l by assumption; ring|].
  transitivity (b *r (rinv x *r x)); [|rewrite inv_l by assumption; ring].
  transitivity (rinv x *r (a *r x)); [ring|]. rewrite E. ring.
Qed.
Lemma mul_neq0 x y : x <> rO -> y <> rO -> x *r y <> rO.
Proof.
  intros Hx Hy E. apply Hx. apply (cancel y); [assumption|]. rewrite E. ring.
Qed.
Lemma pw_neq0 x n : x <> rO -> pw x n <> rO.
Proof.
  intros H. induction n as [|n IH] using N.peano_ind.
  - exact (F_1_neq_0 ft).
  - rewrite (npow_succ _ _ _ _ _ _ rt). now apply mul_neq0.
Qed.
Lemma inv_neq0 x : x <> rO -> rinv x <> rO.
Proof.
  intros H E. apply (F_1_neq_0 ft). rewrite <- (inv_l x H), E. ring.
Qed.
Lemma pw_inv x n : x <> rO -> pw (rinv x) n *r pw x n = rI.
Proof.
  intros H. rewrite <- (npow_mulb _ _ _ _ _ _ rt), inv_l by assumption.
  apply (npow_1l _ _ _ _ _ _ rt).
Qed.
Lemma zpow_N x (n : N) : zpow x (Z.of_N n) = pw x n.
Proof. destruct n; reflexivity. Qed.
Lemma zpow_negN x (n : N) : zpow x (- Z.of_N n) = pw (rinv x) n.
Proof. destruct n; reflexivity. Qed.

Lemma zpow_spec x (a b : N) : x <> rO -> zpow x (Z.of_N a - Z.of_N b) *r pw x b = pw x a.
Proof.
  intros H. destruct (N.le_ge_cases b a) as [L|L].
  - replace (Z.of_N a - Z.of_N b) with (Z.of_N (a - b)) by lia.
    rewrite zpow_N, <- (npow_add _ _ _ _ _ _ rt). f_equal. lia.
  - replace (Z.of_N a - Z.of_N b) with (- Z.of_N (b - a)) by lia.
    rewrite zpow_negN.
    replace b with ((b - a) + a)%N at 2 by lia.
    rewrite (npow_add _ _ _ _ _ _ rt).
    transitivity (pw (rinv x) (b - a) *r pw x (b - a) *r pw x a); [ring|].
    rewrite pw_inv by assumption. ring.
Qed.
Lemma Z_split z : exists a b, z = Z.of_N a - Z.of_N b.
Proof. exists (Z.to_N z), (Z.to_N (- z)). lia. Qed.

Lemma zpow_add x m n : x <> rO -> zpow x (m + n) = zpow x m *r zpow x n.
Proof.
  intros H. destruct (Z_split m) as (a & b & ->), (Z_split n) as (c & d & ->).
  pose proof (zpow_spec x (a + c) (b + d) H) as S.
  pose proof (zpow_spec x a b H) as S1. pose proof (zpow_spec x c d H) as S2.
  replace (Z.of_N a - Z.of_N b + (Z.of_N c - Z.of_N d))
    with (Z.of_N (a + c) - Z.of_N (b + d)) by lia.
  apply (cancel (pw x (b + d))); [now apply pw_neq0|].
  rewrite S. rewrite !(npow_add _ _ _ _ _ _ rt), <- S1, <- S2. ring.
Qed.
Lemma zpow_neq0 x m : x <> rO -> zpow x m <> rO.
Proof.
  intros H. destruct m; cbn [zpow]; [exact (F_1_neq_0 ft)| |].
  - apply (pw_neq0 x (Npos p) H).
  - apply (pw_neq0 (rinv x) (Npos p)). now apply inv_neq0.
Qed.
Lemma zpow_1 x : zpow x 1 = x. Proof. reflexivity. Qed.
Lemma zpow_0 x : zpow x 0 = rI. Proof. reflexivity. Qed.
Lemma zpow_opp x m : x <> rO -> zpow x (- m) *r zpow x m = rI.
Proof.
  intros H. rewrite <- zpow_add by assumption. replace (- m + m) with 0 by lia. reflexivity.
Qed.
Lemma inv_unique x y : x *r y = rI -> x = rinv y.
Proof.
  intros E.
  assert (Hy : y <> rO).
  { intros ->. apply (F_1_neq_0 ft). rewrite <- E. ring. }
  apply (cancel y); [assumption|]. now rewrite E, inv_l.
Qed.
Lemma zpow_opp_inv x m : x <> rO -> zpow x (- m) = rinv (zpow x m).
Proof. intros H. now apply inv_unique, zpow_opp. Qed.
Lemma zpow_mul x m n : x <> rO -> zpow x (m * n) = zpow (zpow x m) n.
Proof.
  intros H.
  assert (P : forall k : N, zpow x (m * Z.of_N k) = zpow (zpow x m) (Z.of_N k)).
  { intros k. induction k as [|k IH] using N.peano_ind; [rewrite Z.mul_0_r; reflexivity|].
    replace (Z.of_N (N.succ k)) with (Z.of_N k + 1) by lia.
    rewrite Z.mul_add_distr_l, Z.mul_1_r, zpow_add, IH by assumption.
    rewrite zpow_add by now apply zpow_neq0. reflexivity. }
  destruct (Z.le_ge_cases 0 n) as [L|L].
  - replace n with (Z.of_N (Z.to_N n)) by lia. apply P.
  - replace n with (- Z.of_N (Z.to_N (- n))) by lia.
    rewrite Z.mul_opp_r, !zpow_opp_inv, P; [reflexivity | now apply zpow_neq0 | assumption].
Qed.
Lemma zpow_mulb x y n : x <> rO -> y <> rO -> zpow (x *r y) n = zpow x n *r zpow y n.
Proof.
  intros Hx Hy.
  assert (E : rinv (x *r y) = rinv x *r rinv y).
  { symmetry. apply inv_unique.
    transitivity ((rinv x *r x) *r (rinv y *r y)); [ring|]. rewrite !inv_l by assumption. ring. }
  destruct n; cbn [zpow]; [ring| |].
  - apply (npow_mulb _ _ _ _ _ _ rt x y (Npos p)).
  - rewrite E. apply (npow_mulb _ _ _ _ _ _ rt _ _ (Npos p)).
Qed.
End ZP.
