(** Powers, binomial theorem and Frobenius in commutative rings of prime
    characteristic; Fermat's little theorem; Pocklington primality
    certificates.  General mathematics: nothing here models code. *)
From Coq Require Import ZArith Lia Bool List Ring_theory Ring Znumtheory NArith Arith.
From Verif Require Import ZMod.
Import ListNotations.
Open Scope Z_scope.

Section RP.
Context {R : Type} (rO rI : R) (radd rmul rsub : R -> R -> R) (ropp : R -> R).
Hypothesis rt : ring_theory rO rI radd rmul rsub ropp (@eq R).
Add Ring Rring : rt.
Local Infix "+r" := radd (at level 50, left associativity).
Local Infix "*r" := rmul (at level 40, left associativity).

(** Binary powering. *)
Fixpoint ppow (x : R) (p : positive) : R :=
  match p with
  | xH => x
  | xO q => let y := ppow x q in y *r y
  | xI q => let y := ppow x q in x *r (y *r y)
  end.
Definition npow (x : R) (n : N) : R := match n with N0 => rI | Npos p => ppow x p end.

Lemma ppow_succ x p : ppow x (Pos.succ p) = x *r ppow x p.
Proof. induction p as [p IH|p IH|]; cbn; [rewrite IH; ring | ring | ring]. Qed.

Lemma npow_0 x : npow x 0 = rI. Proof. reflexivity. Qed.
Lemma npow_1 x : npow x 1 = x. Proof. reflexivity. Qed.
Lemma npow_2 x : npow x 2 = x *r x. Proof. reflexivity. Qed.
Lemma npow_succ x n : npow x (N.succ n) = x *r npow x n.
Proof. destruct n; cbn; [ring | apply ppow_succ]. Qed.

Lemma npow_add x m n : npow x (m + n) = npow x m *r npow x n.
Proof.
  induction m as [|m IH] using N.peano_ind; [cbn [N.add]; rewrite npow_0; ring|].
  rewrite N.add_succ_l, !npow_succ, IH. ring.
Qed.
Lemma npow_mul x m n : npow x (m * n) = npow (npow x m) n.
Proof.
  induction n as [|n IH] using N.peano_ind; [rewrite N.mul_0_r; reflexivity|].
  rewrite N.mul_succ_r, npow_add, npow_succ, IH. ring.
Qed.
Lemma npow_mulb x y n : npow (x *r y) n = npow x n *r npow y n.
Proof.
  induction n as [|n IH] using N.peano_ind; [cbn; ring|].
  rewrite !npow_succ, IH; ring.
Qed.
Lemma npow_1l n : npow rI n = rI.
Proof.
  induction n as [|n IH] using N.peano_ind; [reflexivity|]. rewrite npow_succ, IH; ring.
Qed.
Lemma npow_0l n : n <> 0%N -> npow rO n = rO.
Proof.
  destruct n as [|n _] using N.peano_ind; [congruence|]. intros _. rewrite npow_succ; ring.
Qed.
Lemma npow_comm x m n : npow (npow x m) n = npow (npow x n) m.
Proof. rewrite <- !npow_mul. f_equal. apply N.mul_comm. Qed.

(** nat powers, for the binomial theorem *)
Fixpoint apow (x : R) (n : nat) : R := match n with O => rI | S k => x *r apow x k end.
Lemma apow_npow x n : apow x n = npow x (N.of_nat n).
Proof.
  induction n as [|n IH]; [reflexivity|]. rewrite Nat2N.inj_succ, npow_succ, <- IH. reflexivity.
Qed.

Fixpoint nm (n : nat) (x : R) : R := match n with O => rO | S k => x +r nm k x end.
Lemma nm_add m n x : nm (m + n) x = nm m x +r nm n x.
Proof. induction m as [|m IH]; cbn; [ring | rewrite IH; ring]. Qed.
Lemma nm_mulr n x y : nm n (x *r y) = nm n x *r y.
Proof. induction n as [|n IH]; cbn; [ring | rewrite IH; ring]. Qed.
Lemma nm_mull n x y : nm n (x *r y) = x *r nm n y.
Proof. induction n as [|n IH]; cbn; [ring | rewrite IH; ring]. Qed.
Lemma nm_O n : nm n rO = rO.
Proof. induction n as [|n IH]; cbn; [ring | rewrite IH; ring]. Qed.
Lemma nm_nm m n x : nm (m * n) x = nm m (nm n x).
Proof. induction m as [|m IH]; cbn; [reflexivity | rewrite nm_add, IH; reflexivity]. Qed.
Lemma nm_addx n x y : nm n (x +r y) = nm n x +r nm n y.
Proof. induction n as [|n IH]; cbn; [ring | rewrite IH; ring]. Qed.

Fixpoint binom (n k : nat) : nat :=
  match n, k with
  | _, O => 1
  | O, S _ => 0
  | S n', S k' => binom n' k' + binom n' (S k')
  end%nat.

Lemma binom_gt n : forall k, (n < k)%nat -> binom n k = 0%nat.
Proof. induction n as [|n IH]; intros [|k] H; cbn; try lia. rewrite !IH; lia. Qed.
Lemma binom_n0 n : binom n 0 = 1%nat. Proof. destruct n; reflexivity. Qed.
Lemma binom_nn n : binom n n = 1%nat.
Proof. induction n as [|n IH]; cbn; [reflexivity|]. rewrite IH, binom_gt; lia. Qed.
Lemma binom_absorb n : forall k, ((S k) * binom (S n) (S k) = (S n) * binom n k)%nat.
Proof.
  induction n as [|n IH]; intros k.
  - destruct k as [|k]; cbn; [reflexivity|]. destruct k; cbn; lia.
  - change (binom (S (S n)) (S k)) with (binom (S n) k + binom (S n) (S k))%nat.
    rewrite Nat.mul_add_distr_l, IH.
    destruct k as [|k].
    + rewrite !binom_n0. lia.
    + change (binom (S n) (S k)) with (binom n k + binom n (S k))%nat.
      specialize (IH k) as IHk.
      change (binom (S n) (S k)) with (binom n k + binom n (S k))%nat in IHk.
      nia.
Qed.

Fixpoint sum (f : nat -> R) (n : nat) : R := match n with O => rO | S k => sum f k +r f k end.
Lemma sum_ext f g n : (forall k, (k < n)%nat -> f k = g k) -> sum f n = sum g n.
Proof.
  induction n as [|n IH]; intros H; cbn; [reflexivity|]. rewrite IH, H; auto.
Qed.
Lemma sum_add f g n : sum (fun k => f k +r g k) n = sum f n +r sum g n.
Proof. induction n as [|n IH]; cbn; [ring | rewrite IH; ring]. Qed.
Lemma sum_mul c f n : sum (fun k => c *r f k) n = c *r sum f n.
Proof. induction n as [|n IH]; cbn; [ring | rewrite IH; ring]. Qed.
Lemma sum_shift f n : sum f (S n) = f O +r sum (fun k => f (S k)) n.
Proof. induction n as [|n IH]; cbn in *; [ring | rewrite IH; ring]. Qed.
Lemma sum_zero f n : (forall k, (k < n)%nat -> f k = rO) -> sum f n = rO.
Proof.
  induction n as [|n IH]; intros H; cbn; [reflexivity|]. rewrite IH, H; auto; ring.
Qed.

Lemma binomial x y n :
  apow (x +r y) n =
  sum (fun k => nm (binom n k) (apow x k *r apow y (n - k))) (S n).
Proof.
  induction n as [|n IH].
  - cbn. ring.
  - cbn [apow]. rewrite IH. clear IH.
    rewrite (sum_shift _ (S n)).
    set (F := fun k => nm (binom n k) (apow x k *r apow y (n - k))).
    transitivity (x *r sum F (S n) +r y *r sum F (S n)); [ring|].
    rewrite <- !sum_mul.
    (* y-part: shift *)
    rewrite (sum_shift (fun k => y *r F k) n).
    assert (E : sum (fun k => nm (binom (S n) (S k)) (apow x (S k) *r apow y (S n - S k))) (S n)
              = sum (fun k => x *r F k) (S n) +r
                sum (fun k => nm (binom n (S k)) (apow x (S k) *r apow y (n - k))) (S n)).
    { rewrite <- sum_add. apply sum_ext. intros k Hk. unfold F.
      change (binom (S n) (S k)) with (binom n k + binom n (S k))%nat.
      rewrite nm_add. rewrite <- nm_mull. cbn [Nat.sub]. f_equal. f_equal.
      cbn [apow]. ring. }
    rewrite E.
    assert (E2 : sum (fun k => nm (binom n (S k)) (apow x (S k) *r apow y (n - k))) (S n)
               = sum (fun k => y *r F (S k)) n).
    { cbn [sum]. rewrite (binom_gt n (S n)) by lia. cbn [nm].
      rewrite (sum_ext _ (fun k => y *r F (S k))); [ring|].
      intros k Hk. unfold F. rewrite <- nm_mull. f_equal.
      replace (n - k)%nat with (S (n - S k)) by lia. cbn [apow]. ring. }
    rewrite E2. unfold F. rewrite !binom_n0, Nat.sub_0_r.
    cbn [nm apow Nat.sub]. ring.
Qed.

Section Char.
Variable p : Z.
Hypothesis p_prime : prime p.
Lemma prime_divides_binom k : 0 < k < p -> (p | Z.of_nat (binom (Z.to_nat p) (Z.to_nat k))).
Proof.
  intros Hk.
  destruct (Z.to_nat p) as [|n] eqn:Ep; [lia|].
  destruct (Z.to_nat k) as [|j] eqn:Ek; [lia|].
  pose proof (binom_absorb n j) as H.
  apply (Gauss p (Z.of_nat (S j))).
  - exists (Z.of_nat (binom n j)).
    rewrite <- Nat2Z.inj_mul, H, Nat2Z.inj_mul. replace (Z.of_nat (S n)) with p by lia. ring.
  - apply rel_prime_sym. apply rel_prime_le_prime; [exact p_prime | lia].
Qed.

Hypothesis char_p : nm (Z.to_nat p) rI = rO.

Lemma nm_p x : nm (Z.to_nat p) x = rO.
Proof.
  transitivity (nm (Z.to_nat p) (rI *r x)); [f_equal; ring|].
  rewrite nm_mulr, char_p. ring.
Qed.

Lemma freshman x y : npow (x +r y) (Z.to_N p) = npow x (Z.to_N p) +r npow y (Z.to_N p).
Proof.
  assert (Hp : 2 <= p) by (apply prime_ge_2; exact p_prime).
  replace (Z.to_N p) with (N.of_nat (Z.to_nat p)) by lia.
  rewrite <- !apow_npow, binomial.
  assert (exists n, Z.to_nat p = S n) as [n Ep] by (exists (Z.to_nat (p - 1)); lia).
  rewrite Ep.
  rewrite sum_shift; cbn [sum].
  rewrite sum_zero.
  - rewrite binom_n0, binom_nn; cbn [nm apow]; rewrite Nat.sub_diag, Nat.sub_0_r;
       cbn [nm apow]; ring.
  - intros k Hk.
    assert (D : (p | Z.of_nat (binom (S n) (S k)))).
    { rewrite <- Ep; replace (S k) with (Z.to_nat (Z.of_nat (S k))) by lia;
            apply prime_divides_binom; lia. }
    destruct D as [c Hc].
    replace (binom (S n) (S k)) with (Z.to_nat c * Z.to_nat p)%nat by nia.
    rewrite nm_nm, nm_p; apply nm_O.
Qed.
End Char.
End RP.

Arguments ppow {R} rmul x p.
Arguments npow {R} rI rmul x n.

(** ** Z/n *)
Notation fpow := (npow (f1 _) fmul).

Lemma nm_ofZ n k : nm (f0 n) fadd k (f1 n) = ofZ n (Z.of_nat k).
Proof.
  induction k as [|k IH]; [reflexivity|]. cbn [nm]. rewrite IH. unfold f1.
  rewrite <- ofZ_add. f_equal. lia.
Qed.

Lemma char_Fm p : 0 < p -> nm (f0 p) fadd (Z.to_nat p) (f1 p) = f0 p.
Proof.
  intros H. rewrite nm_ofZ. apply ofZ_0_iff; [exact H|]. exists 1. lia.
Qed.

Lemma fermat p (x : Fm p) : prime p -> fpow x (Z.to_N p) = x.
Proof.
  intros Hp. pose proof (prime_ge_2 p Hp) as H2.
  rewrite <- (ofZ_fval x). pose proof (fval_range x ltac:(lia)) as Hx.
  generalize (fval x) Hx. intros z Hz. clear x Hx. revert Hz.
  assert (forall k : nat, fpow (ofZ p (Z.of_nat k)) (Z.to_N p) = ofZ p (Z.of_nat k)) as G.
  { induction k as [|k IH].
    - change (ofZ p (Z.of_nat 0)) with (f0 p). apply (npow_0l (f0 p) (f1 p) _ _ _ _ Fm_rt). lia.
    - replace (Z.of_nat (S k)) with (Z.of_nat k + 1) by lia. rewrite ofZ_add.
      rewrite (freshman _ _ _ _ _ _ Fm_rt p Hp) by (apply char_Fm; lia).
      rewrite IH. f_equal. apply (npow_1l (f0 p) (f1 p) _ _ _ _ Fm_rt). }
  intros Hz. specialize (G (Z.to_nat z)). rewrite Z2Nat.id in G by lia. exact G.
Qed.

Section FieldMod.
Variable p : Z.
Hypothesis Hp : prime p.
Add Ring Fr : (@Fm_rt p).

Lemma fm_integral (x y : Fm p) : fmul x y = f0 p -> x = f0 p \/ y = f0 p.
Proof.
  pose proof (prime_ge_2 p Hp) as H2.
  rewrite <- (ofZ_fval x), <- (ofZ_fval y). generalize (fval x) (fval y). clear x y. intros x y.
  rewrite <- ofZ_mul. rewrite !ofZ_0_iff by lia. now apply prime_mult.
Qed.

Lemma fm_1_neq_0 : f1 p <> f0 p.
Proof.
  pose proof (prime_ge_2 p Hp) as H2. intros E. apply ofZ_0_iff in E; [|lia].
  apply Z.divide_1_r_nonneg in E; lia.
Qed.

Lemma fermat1 (x : Fm p) : x <> f0 p -> fpow x (Z.to_N (p - 1)) = f1 p.
Proof.
  intros Hx. pose proof (prime_ge_2 p Hp) as H2.
  pose proof (fermat p x Hp) as F.
  replace (Z.to_N p) with (N.succ (Z.to_N (p - 1))) in F by lia.
  rewrite (npow_succ _ _ _ _ _ _ Fm_rt) in F.
  set (y := npow (f1 p) fmul x (Z.to_N (p - 1))) in *.
  assert (fmul x (fsub y (f1 p)) = f0 p) as E.
  { transitivity (fsub (fmul x y) x); [ring | rewrite F; ring]. }
  apply fm_integral in E. destruct E as [E|E]; [contradiction|].
  transitivity (fadd (fsub y (f1 p)) (f1 p)); [ring | rewrite E; ring].
Qed.
End FieldMod.

(** ** Pocklington *)
Lemma prime_divisor n : 1 < n -> exists d, prime d /\ (d | n).
Proof.
  intros H. assert (forall k : nat, forall n, 1 < n <= Z.of_nat k -> exists d, prime d /\ (d | n)) as G.
  { induction k as [|k IH]; intros m Hm; [lia|].
    destruct (prime_dec m) as [P|P]; [exists m; split; [exact P | apply Z.divide_refl]|].
    destruct (not_prime_divide m ltac:(lia) P) as (c & Hc & Hd).
    destruct (IH c ltac:(lia)) as (d & Pd & Dd).
    exists d; split; [exact Pd | eapply Z.divide_trans; eauto]. }
  apply (G (Z.to_nat n)). lia.
Qed.

Lemma prime_by_divisors n : 1 < n -> (forall d, prime d -> (d | n) -> n < d * d) -> prime n.
Proof.
  intros H G. destruct (prime_dec n) as [P|P]; [exact P|exfalso].
  destruct (not_prime_divide n H P) as (c & Hc & [e He]).
  assert (1 < e) by nia.
  destruct (prime_divisor c ltac:(lia)) as (d1 & P1 & D1).
  destruct (prime_divisor e ltac:(lia)) as (d2 & P2 & D2).
  assert (n < d1 * d1) by (apply G; [exact P1 | eapply Z.divide_trans; [exact D1 | exists e; lia]]).
  assert (n < d2 * d2) by (apply G; [exact P2 | eapply Z.divide_trans; [exact D2 | exists c; lia]]).
  apply Z.divide_pos_le in D1; [|lia]. apply Z.divide_pos_le in D2; [|lia].
  pose proof (prime_ge_2 _ P1). pose proof (prime_ge_2 _ P2).
  assert (d1 * d1 <= c * c) by nia. assert (d2 * d2 <= e * e) by nia.
  assert (n * n < (c * c) * (e * e)) by nia. subst n. nia.
Qed.

(** trial division *)
Fixpoint no_div (n : Z) (d : Z) (k : nat) : bool :=
  match k with O => true | S k' => negb (n mod d =? 0) && no_div n (d + 1) k' end.
Lemma no_div_spec n k : forall d, 0 < d -> no_div n d k = true ->
  forall e, d <= e < d + Z.of_nat k -> ~ (e | n).
Proof.
  induction k as [|k IH]; intros d Hd H e He; [lia|].
  cbn [no_div] in H. apply andb_true_iff in H. destruct H as [H1 H2].
  destruct (Z.eq_dec e d) as [->|].
  - intros D. apply Z.mod_divide in D; [|lia]. rewrite D in H1. discriminate.
  - apply (IH (d + 1)); auto; lia.
Qed.
Definition trial (n s : Z) : bool := (1 <? n) && (n <? (s + 1) * (s + 1)) && (0 <? s) && no_div n 2 (Z.to_nat (s - 1)).
Lemma trial_prime n s : trial n s = true -> prime n.
Proof.
  unfold trial. rewrite !andb_true_iff, !Z.ltb_lt. intros [[[H1 H2] H3] H4].
  apply prime_by_divisors; [exact H1|]. intros d P D.
  pose proof (prime_ge_2 _ P).
  assert (~ d <= s).
  { intros L. eapply (no_div_spec n (Z.to_nat (s - 1)) 2); eauto; lia. }
  nia.
Qed.

Definition pock_check (n q a : Z) : bool :=
  let k := (n - 1) / q in
  ((n - 1) =? k * q) && (0 <? k) &&
  feqb (fpow (ofZ n a) (Z.to_N (n - 1))) (f1 n) &&
  (Z.gcd (fval (fpow (ofZ n a) (Z.to_N k)) - 1) n =? 1).

(** change of modulus d | n *)
Lemma fpow_ofZ n a k : exists z, forall d, 0 < d -> 0 < n -> (d | n) ->
   fpow (ofZ d a) k = ofZ d z /\ fval (fpow (ofZ n a) k) mod d = z mod d.
Proof.
  induction k as [|k IH] using N.peano_ind.
  - exists 1. intros d Hd Hn D. split; [reflexivity|].
    change (fpow (ofZ n a) 0) with (ofZ n 1). rewrite fval_ofZ.
    destruct D as [c ->]. rewrite <- Zmod_div_mod; try lia. exists c; ring.
  - destruct IH as [z IH]. exists (a * z). intros d Hd Hn D.
    destruct (IH d Hd Hn D) as [E1 E2]. rewrite !(npow_succ _ _ _ _ _ _ Fm_rt). split.
    + rewrite E1, ofZ_mul. reflexivity.
    + unfold fmul at 1. rewrite !fval_ofZ.
      rewrite <- Zmod_div_mod by (auto; lia).
      rewrite Zmult_mod, E2. rewrite <- Zmod_div_mod by (auto; lia).
      rewrite <- Zmult_mod. reflexivity.
Qed.

Lemma pock_step n q a d :
  1 < n -> prime q -> pock_check n q a = true -> prime d -> (d | n) -> (q | d - 1).
Proof.
  intros Hn Pq H Pd D. unfold pock_check in H.
  rewrite !andb_true_iff in H. destruct H as [[[H1 H2] H3] H4].
  apply Z.eqb_eq in H1. apply Z.ltb_lt in H2. apply feqb_eq in H3. apply Z.eqb_eq in H4.
  set (k := (n - 1) / q) in *.
  pose proof (prime_ge_2 _ Pq) as Q2. pose proof (prime_ge_2 _ Pd) as D2.
  destruct (Zdivide_dec q (d - 1)) as [Y|Y]; [exact Y | exfalso].
  destruct (fpow_ofZ n a (Z.to_N k)) as [zk Ek].
  destruct (Ek d ltac:(lia) ltac:(lia) D) as [Ek1 Ek2].
  destruct (fpow_ofZ n a (Z.to_N (n - 1))) as [zn En].
  destruct (En d ltac:(lia) ltac:(lia) D) as [En1 En2].
  (* b = a^k in Z/d *)
  set (b := fpow (ofZ d a) (Z.to_N k)) in *.
  assert (bq : fpow b (Z.to_N q) = f1 d).
  { unfold b. rewrite <- (npow_mul _ _ _ _ _ _ Fm_rt).
    replace (Z.to_N k * Z.to_N q)%N with (Z.to_N (n - 1)) by lia.
    rewrite En1. apply fval_inj. unfold f1. rewrite !fval_ofZ. rewrite <- En2, H3.
    unfold f1. rewrite fval_ofZ. destruct D as [c ->]. rewrite <- Zmod_div_mod; try lia. exists c; ring. }
  assert (b1 : b <> f1 d).
  { intros E. rewrite Ek1 in E. apply (f_equal fval) in E. unfold f1 in E. rewrite !fval_ofZ in E.
    rewrite <- Ek2 in E.
    assert (DD : (d | fval (fpow (ofZ n a) (Z.to_N k)) - 1)).
    { apply Z.mod_divide; [lia|]. rewrite Zminus_mod, E, <- Zminus_mod, Z.sub_diag. apply Zmod_0_l. }
    assert (G : (d | 1)) by (rewrite <- H4; now apply Z.gcd_greatest).
    apply Z.divide_1_r_nonneg in G; lia. }
  assert (b0 : b <> f0 d).
  { intros E. rewrite E in bq. rewrite (npow_0l _ _ _ _ _ _ Fm_rt) in bq by lia.
    symmetry in bq. now apply (fm_1_neq_0 d Pd) in bq. }
  pose proof (fermat1 d Pd b b0) as F.
  (* bezout *)
  assert (RP : rel_prime q (d - 1)) by (apply prime_rel_prime; auto).
  apply rel_prime_bezout in RP. destruct RP as [u v UV].
  (* choose nonneg exponents: (u + t(d-1)) q = 1 + (t q - v)(d-1) *)
  set (t := Z.abs u + Z.abs v).
  assert (0 <= u + t * (d - 1)) by (unfold t; nia).
  assert (0 <= t * q - v) by (unfold t; nia).
  apply b1.
  transitivity (fpow b (Z.to_N (q * (u + t * (d - 1))))).
  - replace (Z.to_N (q * (u + t * (d - 1)))) with (1 + Z.to_N (d - 1) * Z.to_N (t * q - v))%N.
    + rewrite (npow_add _ _ _ _ _ _ Fm_rt), (npow_mul _ _ _ _ _ _ Fm_rt), F.
      rewrite (npow_1l _ _ _ _ _ _ Fm_rt), npow_1.
      apply fval_inj. rewrite fval_mul. unfold f1. rewrite fval_ofZ, Zmult_mod_idemp_r, Z.mul_1_r.
      symmetry. apply fval_mod.
    + rewrite <- Z2N.inj_mul by lia. change 1%N with (Z.to_N 1). rewrite <- Z2N.inj_add by nia.
      f_equal. nia.
  - rewrite Z2N.inj_mul by lia. rewrite (npow_mul _ _ _ _ _ _ Fm_rt), bq. apply (npow_1l _ _ _ _ _ _ Fm_rt).
Qed.

Definition prodZ (l : list Z) : Z := fold_right Z.mul 1 l.


Lemma rel_prime_prod q l : (forall x, In x l -> rel_prime q x) -> rel_prime q (prodZ l).
Proof.
  induction l as [|x l IH]; intros H; cbn [prodZ fold_right].
  - apply rel_prime_sym, rel_prime_1.
  - apply rel_prime_mult.
    + apply H; now left.
    + apply IH; intros; apply H; now right.
Qed.

Lemma div_prod m l : NoDup l -> (forall x, In x l -> prime x /\ (x | m)) -> (prodZ l | m).
Proof.
  induction l as [|x l IH]; intros ND H; cbn [prodZ fold_right].
  - exists m. lia.
  - inversion ND as [|? ? Nin ND']; subst.
    destruct (H x (or_introl eq_refl)) as [Px [c Hc]].
    assert (Dl : (prodZ l | m)) by (apply IH; [exact ND' | intros y Hy; apply H; now right]).
    subst m. rewrite Z.mul_comm in Dl.
    apply Gauss in Dl.
    + destruct Dl as [e ->]. exists e. fold (prodZ l). ring.
    + apply rel_prime_sym. apply rel_prime_prod. intros y Hy.
      destruct (H y (or_intror Hy)) as [Py _].
      apply prime_rel_prime; [exact Px|]. intros Dxy.
      apply prime_div_prime in Dxy; auto. subst. contradiction.
Qed.

Theorem pocklington n (l : list (Z * Z)) :
  1 < n -> NoDup (map fst l) ->
  (forall q a, In (q, a) l -> prime q /\ pock_check n q a = true) ->
  n < prodZ (map fst l) * prodZ (map fst l) -> 0 < prodZ (map fst l) -> prime n.
Proof.
  intros Hn ND H B Hpos. apply prime_by_divisors; [exact Hn|]. intros d Pd D.
  pose proof (prime_ge_2 _ Pd).
  assert (DD : (prodZ (map fst l) | d - 1)).
  { apply div_prod; [exact ND|]. intros x Hx. apply in_map_iff in Hx.
    destruct Hx as ([q a] & <- & Hin). destruct (H q a Hin) as [Pq Ck]. cbn. split; [exact Pq|].
    eapply pock_step; eauto. }
  apply Z.divide_pos_le in DD; nia.
Qed.
