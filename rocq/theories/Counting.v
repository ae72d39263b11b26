(** A polynomial of degree < n with n roots vanishes; x^n = 1 has at most n
    solutions; the finite fields of the tower have p, p^2, p^6, p^12 elements.
    General mathematics: nothing here models code. *)
From Coq Require Import ZArith NArith Nnat List FinFun Bool Lia Ring Field Field_theory.
From Verif Require Import Params ZMod RingPow ZPow Primes Emulated Tower FieldFacts TowerFacts.
Import ListNotations.

Section Roots.
Context {R : Type} (rO rI : R) (radd rmul rsub : R -> R -> R) (ropp : R -> R)
        (rdiv : R -> R -> R) (rinv : R -> R).
Hypothesis ft : field_theory rO rI radd rmul rsub ropp rdiv rinv (@eq R).
Let rt := F_R ft.
Add Ring RR : rt.
Fixpoint peval (l : list R) (y : R) : R :=
  match l with [] => rO | a :: t => radd a (rmul y (peval t y)) end.
Lemma pdiv x l : exists q, length q = Nat.pred (length l) /\
  forall y, peval l y = radd (rmul (rsub y x) (peval q y)) (peval l x).
Proof.
  induction l as [|a l (q & Lq & Hq)].
  - exists []. split; [reflexivity|]. intros y. cbn. ring.
  - destruct l as [|b l].
    + exists []. split; [reflexivity|]. intros y. cbn. ring.
    + exists (peval (b :: l) x :: q). split; [cbn in *; lia|].
      intros y. cbn [peval] in *. rewrite (Hq y). ring.
Qed.
Lemma many_roots rs : NoDup rs -> forall l, (length l <= length rs)%nat ->
  (forall r, In r rs -> peval l r = rO) -> forall y, peval l y = rO.
Proof.
  induction 1 as [|x rs Nx Nd IH]; intros l L H y.
  - destruct l; [reflexivity | cbn in L; lia].
  - destruct (pdiv x l) as (q & Lq & Hq).
    assert (Hx : peval l x = rO) by (apply H; now left).
    rewrite Hq, Hx. rewrite IH; [ring| |].
    + rewrite Lq. cbn in L. lia.
    + intros r Hr. pose proof (Hq r) as E. rewrite Hx, (H r) in E by now right.
      apply (cancel rO rI radd rmul rsub ropp rdiv rinv ft (rsub r x)).
      * intros Z. apply Nx. replace x with r; [exact Hr|].
        transitivity (radd (rsub r x) x); [ring | rewrite Z; ring].
      * transitivity (radd (rmul (rsub r x) (peval q r)) rO); [ring|]. rewrite <- E. ring.
Qed.
Fixpoint mono (n : nat) : list R := match n with O => [rI] | S n => rO :: mono n end.
Lemma mono_len n : length (mono n) = S n. Proof. induction n; cbn; congruence. Qed.
Fixpoint pn (x : R) (n : nat) : R := match n with O => rI | S n => rmul x (pn x n) end.
Lemma mono_eval n x : peval (mono n) x = pn x n.
Proof. induction n as [|n IH]; cbn [mono peval pn]; [ring | rewrite IH; ring]. Qed.
Lemma pn_npow x n : pn x n = npow rI rmul x (N.of_nat n).
Proof.
  induction n as [|n IH]; [reflexivity|].
  rewrite Nat2N.inj_succ, (npow_succ _ _ _ _ _ _ rt), <- IH. reflexivity.
Qed.
Lemma roots_of_unity rs n : NoDup rs -> (forall r, In r rs -> pn r n = rI) -> (0 < n)%nat -> (length rs <= n)%nat.
Proof.
  intros Nd H Hn. destruct n as [|n]; [lia|].
  destruct (Nat.le_gt_cases (length rs) (S n)) as [L|L]; [exact L|]. exfalso.
  assert (E : peval (ropp rI :: mono n) rO = rO).
  { apply (many_roots rs Nd); [cbn [length]; rewrite mono_len; lia|].
    intros r Hr. specialize (H r Hr). cbn [pn] in H. cbn [peval]. rewrite mono_eval, H. ring. }
  cbn [peval] in E. apply (F_1_neq_0 ft).
  transitivity (ropp (radd (ropp rI) (rmul rO (peval (mono n) rO)))); [ring | rewrite E; ring].
Qed.
End Roots.

Lemma NoDup_prod {A B} (l : list A) (m : list B) : NoDup l -> NoDup m -> NoDup (list_prod l m).
Proof.
  intros Hl Hm. induction Hl as [|x l Nx Nd IH]; cbn [list_prod]; [constructor|].
  assert (Q : forall (u v : list (A * B)), NoDup u -> NoDup v -> (forall z, In z u -> ~ In z v) -> NoDup (u ++ v)).
  { clear. induction u as [|a u IH]; intros v Hu Hv D; [exact Hv|]. cbn. inversion Hu; subst. constructor.
    - intros H. apply in_app_or in H. destruct H as [H|H]; [contradiction|]. apply (D a); [now left | exact H].
    - apply IH; [assumption..|]. intros z Hz. apply D. now right. }
  apply Q; [|exact IH|].
  - apply FinFun.Injective_map_NoDup; [|exact Hm]. intros a b E. now injection E.
  - intros [a b] H1 H2. apply in_map_iff in H1. destruct H1 as (c & E & _). injection E as <- _.
    apply in_prod_iff in H2. now apply Nx.
Qed.

Open Scope Z_scope.
Definition allFp : list Fp := map (fun i => ofZ pBLS (Z.of_nat i)) (seq 0 (Z.to_nat pBLS)).
Lemma allFp_NoDup : NoDup allFp.
Proof.
  unfold allFp.
  assert (H : forall l, NoDup l -> (forall i, In i l -> Z.of_nat i < pBLS) -> NoDup (map (fun i => ofZ pBLS (Z.of_nat i)) l)).
  { induction 1 as [|i l Ni Nd IH]; intros B; cbn; constructor.
    - intros H. apply in_map_iff in H. destruct H as (j & E & Hj). apply (f_equal fval) in E.
      rewrite !fval_ofZ, !Z.mod_small in E.
      + apply Nat2Z.inj in E. subst j. contradiction.
      + split; [lia|]. apply B. now left.
      + split; [lia|]. apply B. now right.
    - apply IH. intros j Hj. apply B. now right. }
  apply H; [apply seq_NoDup|].
  intros i Hi. apply in_seq in Hi. destruct Hi as [_ Hi]. rewrite Nat.add_0_l in Hi.
  apply Nat2Z.inj_lt in Hi. rewrite Z2Nat.id in Hi by discriminate. exact Hi.
Qed.
Lemma allFp_len : length allFp = Z.to_nat pBLS.
Proof. unfold allFp. now rewrite map_length, seq_length. Qed.
Definition allE2 : list E2 := map (fun z => mkE2 (fst z) (snd z)) (list_prod allFp allFp).
Definition allE6 : list E6 := map (fun z => mkE6 (fst (fst z)) (snd (fst z)) (snd z)) (list_prod (list_prod allE2 allE2) allE2).
Definition allE12 : list E12 := map (fun z => mkE12 (fst z) (snd z)) (list_prod allE6 allE6).
Lemma allE2_NoDup : NoDup allE2.
Proof.
  apply FinFun.Injective_map_NoDup; [|apply NoDup_prod; apply allFp_NoDup].
  intros [a b] [c d] E. injection E as <- <-. reflexivity.
Qed.
Lemma allE6_NoDup : NoDup allE6.
Proof.
  apply FinFun.Injective_map_NoDup; [|repeat apply NoDup_prod; apply allE2_NoDup].
  intros [[a b] c] [[d e] f] E. injection E as <- <- <-. reflexivity.
Qed.
Lemma allE12_NoDup : NoDup allE12.
Proof.
  apply FinFun.Injective_map_NoDup; [|apply NoDup_prod; apply allE6_NoDup].
  intros [a b] [c d] E. injection E as <- <-. reflexivity.
Qed.
Lemma allE12_len : Z.of_nat (length allE12) = pBLS ^ 12.
Proof.
  unfold allE12, allE6, allE2. rewrite !map_length, !prod_length, !map_length, !prod_length, !map_length, !prod_length, allFp_len.
  rewrite !Nat2Z.inj_mul, Z2Nat.id by discriminate. generalize pBLS. intros p. ring.
Qed.

(** not all nonzero elements of E12 satisfy x^k = 1 when 0 < k < p^12 - 1 *)
Lemma E12_not_all_roots k : 0 < k < pBLS ^ 12 - 1 ->
  exists x, x <> E12_Zero /\ e12pow x (Z.to_N k) <> E12_One.
Proof.
  pose proof allE12_len as AL. pose proof allE12_NoDup as Nd12.
  generalize dependent (pBLS ^ 12). generalize dependent allE12. intros all Nd12 q AL [K1 K2].
  set (nz := filter (fun x => negb (E12_eqb x E12_Zero)) all).
  assert (Dec : (exists x, In x nz /\ e12pow x (Z.to_N k) <> E12_One) \/
                (forall x, In x nz -> e12pow x (Z.to_N k) = E12_One)).
  { generalize (Z.to_N k). intros n. clearbody nz. induction nz as [|a l IH].
    - right. intros x [].
    - destruct (E12_eqb (e12pow a n) E12_One) eqn:E.
      + apply E12_eqb_eq in E. destruct IH as [(x & Hx & N)|IH].
        * left. exists x. split; [now right | exact N].
        * right. intros x [<-|Hx]; [exact E | now apply IH].
      + left. exists a. split; [now left|]. intros Z. apply E12_eqb_eq in Z. congruence. }
  destruct Dec as [(x & Hx & N)|H].
  - exists x. split; [|exact N]. apply filter_In in Hx. destruct Hx as [_ Hx].
    intros Z. apply E12_eqb_eq in Z. rewrite Z in Hx. discriminate.
  - exfalso.
    assert (L : (length nz <= Z.to_nat k)%nat).
    { apply (roots_of_unity E12_Zero E12_One E12_Add E12_Mul E12_Sub E12_Neg E12_div E12_inv E12_ft nz (Z.to_nat k)).
      - apply NoDup_filter, Nd12.
      - intros r Hr. rewrite (pn_npow _ _ _ _ _ _ _ _ E12_ft), Z_nat_N. now apply H.
      - rewrite <- Z2Nat.inj_0. apply Z2Nat.inj_lt; lia. }
    assert (C : (length all <= S (length nz))%nat).
    { unfold nz. pose proof Nd12 as Nd. revert Nd. generalize all. intros l Nd.
      induction Nd as [|a l Na Nd IH]; cbn [filter length]; [lia|].
      destruct (E12_eqb a E12_Zero) eqn:E; cbn [negb].
      - apply le_n_S. apply E12_eqb_eq in E. subst a.
        clear IH. assert (F : filter (fun x => negb (E12_eqb x E12_Zero)) l = l).
        { clear Nd. induction l as [|b l IHl]; [reflexivity|]. cbn [filter].
          destruct (E12_eqb b E12_Zero) eqn:Eb.
          - apply E12_eqb_eq in Eb. exfalso. apply Na. now left.
          - cbn [negb]. f_equal. apply IHl. intros Hl. apply Na. now right. }
        rewrite F. lia.
      - cbn [length]. lia. }
    apply Nat2Z.inj_le in L, C. rewrite Z2Nat.id in L by lia. rewrite AL in C. rewrite Nat2Z.inj_succ in C.
    lia.
Qed.
