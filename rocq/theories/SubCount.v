(** Counting the elements of an abelian group: adjoining an element of prime
    order to a subgroup multiplies its size by the prime, and a subgroup with
    more than half as many elements as the group can have is the group. *)
From Coq Require Import ZArith List Bool Lia Znumtheory FinFun.
Import ListNotations.
Open Scope Z_scope.

Section Count.
Variable G : Type.
Variables (add : G -> G -> G) (opp : G -> G) (O : G).
Local Infix "+'" := add (at level 50, left associativity).
Hypothesis dec : forall x y : G, {x = y} + {x <> y}.
Hypothesis add_assoc : forall x y z, (x +' y) +' z = x +' (y +' z).
Hypothesis add_comm : forall x y, x +' y = y +' x.
Hypothesis add_O : forall x, O +' x = x.
Hypothesis add_opp : forall x, x +' opp x = O.

(** *** multiples *)
Definition npow (x : G) (k : nat) : G := Nat.iter k (fun y => y +' x) O.
Definition zm (k : Z) (x : G) : G := if 0 <=? k then npow x (Z.to_nat k) else opp (npow x (Z.to_nat (- k))).
Lemma add_O_r x : x +' O = x. Proof. now rewrite add_comm, add_O. Qed.
Lemma cancel_r x y z : x +' z = y +' z -> x = y.
Proof. intros H. rewrite <- (add_O_r x), <- (add_O_r y), <- (add_opp z), <- !add_assoc. now rewrite H. Qed.
Lemma cancel_l x y z : z +' x = z +' y -> x = y.
Proof. rewrite !(add_comm z). apply cancel_r. Qed.
Lemma opp_unique x y : x +' y = O -> y = opp x.
Proof. intros H. apply (cancel_l _ _ x). now rewrite H, add_opp. Qed.
Lemma opp_O : opp O = O. Proof. symmetry. apply opp_unique. apply add_O. Qed.
Lemma opp_opp x : opp (opp x) = x. Proof. symmetry. apply opp_unique. now rewrite add_comm, add_opp. Qed.
Lemma swap4 a b c d : (a +' b) +' (c +' d) = (a +' c) +' (b +' d).
Proof. rewrite !add_assoc. f_equal. rewrite <- !add_assoc. f_equal. apply add_comm. Qed.
Lemma opp_add x y : opp (x +' y) = opp x +' opp y.
Proof. symmetry. apply opp_unique. now rewrite swap4, !add_opp, add_O. Qed.
Lemma npow_S x k : npow x (S k) = npow x k +' x. Proof. reflexivity. Qed.
Lemma zm_0 x : zm 0 x = O. Proof. reflexivity. Qed.
Lemma zm_1 x : zm 1 x = x. Proof. apply add_O. Qed.
Lemma zm_neg k x : zm (- k) x = opp (zm k x).
Proof.
  unfold zm. destruct (Z.leb_spec 0 k), (Z.leb_spec 0 (- k)); try lia.
  - replace k with 0 by lia. cbn. now rewrite opp_O.
  - now rewrite Z.opp_involutive.
  - now rewrite opp_opp.
Qed.
Lemma zm_step k x : zm (k + 1) x = zm k x +' x.
Proof.
  assert (P : forall n, 0 <= n -> zm (n + 1) x = zm n x +' x).
  { intros n Hn. unfold zm. destruct (Z.leb_spec 0 (n + 1)), (Z.leb_spec 0 n); try lia. replace (Z.to_nat (n + 1)) with (S (Z.to_nat n)) by lia. apply npow_S. }
  destruct (Z.le_gt_cases 0 k) as [H|H]; [now apply P|].
  pose proof (P (- k - 1) ltac:(lia)) as E. replace (- k - 1 + 1) with (- k) in E by lia. rewrite zm_neg in E. replace (- k - 1) with (- (k + 1)) in E by lia. rewrite zm_neg in E.
  apply (f_equal opp) in E. rewrite opp_add, !opp_opp in E. rewrite E, add_assoc, (add_comm (opp x)), add_opp. now rewrite add_O_r.
Qed.
Lemma zm_ind (P : Z -> Prop) : P 0 -> (forall k, P k <-> P (k + 1)) -> forall k, P k.
Proof.
  intros H0 HS. assert (A : forall n, 0 <= n -> P n). { apply (natlike_ind P); [exact H0|]. intros k _ Hk. unfold Z.succ. exact (proj1 (HS k) Hk). }
  assert (B : forall n, 0 <= n -> P (- n)). { apply (natlike_ind (fun n => P (- n))); [exact H0|]. intros k _ Hk. apply (proj2 (HS (- Z.succ k))). now replace (- Z.succ k + 1) with (- k) by lia. }
  intros k. destruct (Z.le_gt_cases 0 k); [now apply A|]. replace k with (- (- k)) by lia. apply B. lia.
Qed.
Lemma zm_add i j x : zm (i + j) x = zm i x +' zm j x.
Proof.
  revert j. apply zm_ind.
  - now rewrite Z.add_0_r, zm_0, add_O_r.
  - intros j. rewrite Z.add_assoc, !zm_step, <- add_assoc. split; [intros ->; reflexivity | apply cancel_r].
Qed.
Lemma zm_sum k x y : zm k (x +' y) = zm k x +' zm k y.
Proof.
  revert k. apply zm_ind; [now rewrite !zm_0, add_O|]. intros k. rewrite !zm_step, swap4. split; [intros ->; reflexivity | apply cancel_r].
Qed.
Lemma zm_O k : zm k O = O.
Proof. apply (cancel_r _ _ (zm k O)). now rewrite <- zm_sum, !add_O. Qed.
Lemma zm_mul i j x : zm (i * j) x = zm i (zm j x).
Proof.
  revert i. apply zm_ind; [reflexivity|]. intros i. rewrite zm_step. replace ((i + 1) * j) with (i * j + j)%Z by ring. rewrite zm_add. split; [intros ->; reflexivity | apply cancel_r].
Qed.
Lemma zm_opp k x : zm k (opp x) = opp (zm k x).
Proof. apply opp_unique. now rewrite <- zm_sum, add_opp, zm_O. Qed.
Lemma zm_kill m k x : zm m x = O -> (m | k) -> zm k x = O.
Proof. intros H [q ->]. now rewrite zm_mul, H, zm_O. Qed.
(** ux +' vl = 1 *)
Lemma bezout1 l d : prime l -> ~ (l | d) -> exists u v, (u * d + v * l = 1)%Z.
Proof. intros P N. destruct (rel_prime_bezout _ _ (rel_prime_sym _ _ (prime_rel_prime _ P _ N))) as [u v E]. now exists u, v. Qed.
Lemma zm_unit l d x : prime l -> zm l x = O -> ~ (l | d) -> exists u, x = zm u (zm d x).
Proof.
  intros P HL N. destruct (bezout1 l d P N) as (u & v & E). exists u. rewrite <- zm_mul. rewrite <- (zm_1 x) at 1. rewrite <- E, zm_add, (zm_mul v l), HL, zm_O, add_O_r. reflexivity.
Qed.

(** *** subgroups *)
Definition subgrp (H : G -> Prop) : Prop := H O /\ (forall x y, H x -> H y -> H (x +' y)) /\ (forall x, H x -> H (opp x)).
Definition ext (H : G -> Prop) (g : G) : G -> Prop := fun x => exists h k, H h /\ x = h +' zm k g.
Definition size (H : G -> Prop) (n : Z) : Prop := exists l, NoDup l /\ (forall x, In x l <-> H x) /\ Z.of_nat (length l) = n.
Definition triv : G -> Prop := fun x => x = O.

Lemma sub_zm H k x : subgrp H -> H x -> H (zm k x).
Proof.
  intros (H0 & HA & HN) Hx. revert k. apply zm_ind; [exact H0|]. intros k. rewrite zm_step. split; [intros Hk; now apply HA|]. intros Hk.
  replace (zm k x) with ((zm k x +' x) +' opp x) by now rewrite add_assoc, add_opp, add_O_r. apply HA; [exact Hk | now apply HN].
Qed.
Lemma sub_cancel H x y : subgrp H -> H y -> H (x +' y) -> H x.
Proof. intros (H0 & HA & HN) Hy Hxy. replace x with ((x +' y) +' opp y) by now rewrite add_assoc, add_opp, add_O_r. apply HA; auto. Qed.
Lemma triv_sub : subgrp triv.
Proof. unfold triv. split; [reflexivity|]. split; [intros x y -> ->; apply add_O | intros x ->; apply opp_O]. Qed.
Lemma triv_size : size triv 1.
Proof. exists [O]. split; [constructor; [intros [] | constructor]|]. split; [|reflexivity]. intros x. cbn. unfold triv. intuition congruence. Qed.
Lemma ext_sub H g : subgrp H -> subgrp (ext H g).
Proof.
  intros (H0 & HA & HN). split; [exists O, 0; split; [exact H0 | now rewrite zm_0, add_O]|]. split.
  - intros x y (h & k & Hh & ->) (h' & k' & Hh' & ->). exists (h +' h'), (k + k')%Z. split; [now apply HA|]. now rewrite swap4, zm_add.
  - intros x (h & k & Hh & ->). exists (opp h), (- k)%Z. split; [now apply HN|]. now rewrite opp_add, zm_neg.
Qed.
Lemma ext_in (H : G -> Prop) g (K : G -> Prop) : subgrp K -> (forall x, H x -> K x) -> K g -> forall x, ext H g x -> K x.
Proof. intros HK HS Hg x (h & k & Hh & ->). pose proof HK as (_ & KA & _). apply KA; [now apply HS | now apply sub_zm]. Qed.
Lemma ext_kill (H : G -> Prop) g m l : (forall x, H x -> zm m x = O) -> zm l g = O -> forall x, ext H g x -> zm (m * l) x = O.
Proof. intros HK Hg x (h & k & Hh & ->). rewrite zm_sum, (zm_kill m), (zm_kill l); [apply add_O | rewrite <- zm_mul, Z.mul_comm, zm_mul, Hg; apply zm_O | now exists m | now apply HK | exists l; ring]. Qed.
(** an element of order l is in no subgroup that m kills *)
Lemma not_in (H : G -> Prop) m l g : prime l -> (forall x, H x -> zm m x = O) -> zm l g = O -> g <> O -> ~ (l | m) -> ~ H g.
Proof. intros P HK HL N D Hg. destruct (zm_unit l m g P HL D) as (u & E). rewrite (HK g Hg), zm_O in E. contradiction. Qed.
Lemma not_in2 (H : G -> Prop) m l a g : prime l -> (forall x, H x -> zm m x = O) -> zm l a = O -> zm l g = O -> ~ (l | m) -> (forall k, g <> zm k a) -> ~ ext H a g.
Proof.
  intros P HK HA HL D N (h & k & Hh & E). destruct (zm_unit l m g P HL D) as (u & E'). rewrite E in E' at 2. rewrite zm_sum, (HK h Hh), add_O, <- !zm_mul in E'. exact (N _ E').
Qed.

Lemma NoDup_app {A} (l1 l2 : list A) : NoDup l1 -> NoDup l2 -> (forall x, In x l1 -> ~ In x l2) -> NoDup (l1 ++ l2).
Proof.
  induction l1 as [|a l1 IH]; intros H1 H2 D; [exact H2|]. inversion H1 as [|? ? N1 N2]; subst. cbn. constructor.
  - rewrite in_app_iff. intros [I|I]; [contradiction | exact (D a (or_introl eq_refl) I)].
  - apply IH; auto. intros x I. apply D. now right.
Qed.
Lemma NoDup_shift g l : NoDup l -> NoDup (map (fun h => h +' g) l).
Proof. apply FinFun.Injective_map_NoDup. intros x y. apply cancel_r. Qed.
Theorem ext_size H g n l : subgrp H -> size H n -> prime l -> zm l g = O -> ~ H g -> size (ext H g) (n * l).
Proof.
  intros HS (L & ND & HL & Hn) P HG N. pose proof P as P'. destruct P' as [L1 _]. pose proof HS as (H0 & HA & HN).
  assert (B : forall m : nat, Z.of_nat m <= l -> exists M, NoDup M /\ (forall x, In x M <-> exists h k, H h /\ 0 <= k < Z.of_nat m /\ x = h +' zm k g) /\ Z.of_nat (length M) = n * Z.of_nat m).
  { induction m as [|m IH]; intros Hm.
    - exists []. split; [constructor|]. split; [|cbn; lia]. intros x. split; [intros []|]. intros (h & k & _ & K & _). lia.
    - destruct IH as (M & NM & HM & LM); [lia|]. exists (M ++ map (fun h => h +' zm (Z.of_nat m) g) L). split; [|split].
      + apply NoDup_app; [exact NM | now apply NoDup_shift|]. intros x I1 I2. apply HM in I1. destruct I1 as (h & k & Hh & Hk & ->). apply in_map_iff in I2. destruct I2 as (h' & E & I). apply HL in I.
        assert (Hd : H (zm (Z.of_nat m - k) g)).
        { replace (Z.of_nat m) with (k + (Z.of_nat m - k))%Z in E by lia. rewrite zm_add in E. rewrite <- add_assoc, (add_comm h'), add_assoc, (add_comm h) in E. apply cancel_l in E.
          apply (sub_cancel H _ h' HS I). now rewrite add_comm, E. }
        destruct (zm_unit l (Z.of_nat m - k) g P HG) as (u & E'); [intros D; apply Z.divide_pos_le in D; lia|]. apply N. rewrite E'. now apply sub_zm.
      + intros x. rewrite in_app_iff, HM, in_map_iff. split.
        * intros [(h & k & Hh & Hk & ->)|(h & <- & I)]; [exists h, k; repeat split; try lia; assumption|]. exists h, (Z.of_nat m). apply HL in I. repeat split; try lia. exact I.
        * intros (h & k & Hh & Hk & ->). destruct (Z.eq_dec k (Z.of_nat m)) as [->|Nk]; [right; exists h; split; [reflexivity | now apply HL]|]. left. exists h, k. repeat split; try lia. exact Hh.
      + rewrite app_length, map_length, Nat2Z.inj_add, LM, Hn. lia. }
  destruct (B (Z.to_nat l) ltac:(lia)) as (M & NM & HM & LM). exists M. split; [exact NM|]. split; [|rewrite LM; f_equal; lia].
  intros x. rewrite HM. split; [intros (h & k & Hh & _ & E); now exists h, k|]. intros (h & k & Hh & ->). exists h, (k mod l). split; [exact Hh|].
  rewrite Z2Nat.id by lia. split; [apply Z.mod_pos_bound; lia|]. f_equal. rewrite (Z.div_mod k l) at 1 by lia. rewrite zm_add, Z.mul_comm, zm_mul, HG, zm_O. apply add_O.
Qed.
(** *** a subgroup with more than half the elements *)
Theorem full H n (code : G -> Z) (N : Z) : subgrp H -> size H n -> (forall x, 0 <= code x < N) -> (forall x y, code x = code y -> x = y) -> N < 2 * n -> forall x, H x.
Proof.
  intros HS (L & ND & HL & Hn) CR CI B x. destruct (in_dec dec x L) as [I|NI]; [now apply HL|exfalso].
  assert (ND2 : NoDup (map code (L ++ map (fun h => h +' x) L))).
  { apply FinFun.Injective_map_NoDup; [exact CI|]. apply NoDup_app; [exact ND | now apply NoDup_shift|]. intros y I1 I2. apply HL in I1. apply in_map_iff in I2. destruct I2 as (h & <- & Ih). apply HL in Ih.
    apply NI, HL. apply (sub_cancel H x h HS Ih). now rewrite add_comm. }
  apply (NoDup_incl_length (l' := map Z.of_nat (seq 0 (Z.to_nat N)))) in ND2.
  - rewrite !map_length, seq_length, app_length, map_length in ND2. pose proof (CR x). lia.
  - intros c Hc. apply in_map_iff in Hc. destruct Hc as (y & <- & _). pose proof (CR y). apply in_map_iff. exists (Z.to_nat (code y)). split; [lia|]. apply in_seq. lia.
Qed.
End Count.
