(** The Grain LFSR of PoseidonSpec, sixteen bits at a time on primitive
    integers, with its refinement proof; and uniqueness of the parameters.
    Used only inside proofs. *)
From Coq Require Import ZArith List Bool Lia Uint63.
From Verif Require Import Params ZMod FastMod PoseidonSpec PoseidonLin.
Import ListNotations.
Open Scope Z_scope.
Local Notation fr0 := (f0 rBN).
Local Notation T n := (Z.of_nat n).

(** ** the sequence exists and is unique *)
Definition gshift (l : list bool) : list bool :=
  tl l ++ [xorb (nth 62 l false) (xorb (nth 51 l false) (xorb (nth 38 l false) (xorb (nth 23 l false) (xorb (nth 13 l false) (nth 0 l false)))))].
Definition gbit (t nP : nat) (i : nat) : bool := nth 0 (iter i gshift (grain_init t nP)) false.
Lemma grain_init_len t nP : length (grain_init t nP) = 80%nat.
Proof. unfold grain_init, bits_msb. rewrite !app_length, !map_length, !seq_length, repeat_length. reflexivity. Qed.
Lemma gshift_len l : length l = 80%nat -> length (gshift l) = 80%nat.
Proof. intros H. unfold gshift. rewrite app_length. destruct l; [discriminate|]. cbn [tl length] in *. lia. Qed.
Lemma giter_len i l : length l = 80%nat -> length (iter i gshift l) = 80%nat.
Proof. intros H. induction i; [exact H|]. cbn [iter]. now apply gshift_len. Qed.
Lemma gshift_nth l j : length l = 80%nat -> (j < 79)%nat -> nth j (gshift l) false = nth (S j) l false.
Proof.
  intros H Hj. unfold gshift. destruct l as [|x l]; [discriminate|]. cbn [length] in H. cbn [tl].
  rewrite app_nth1 by lia. reflexivity.
Qed.
Lemma giter_nth l : length l = 80%nat -> forall j i, (j < 80)%nat -> nth j (iter i gshift l) false = nth 0 (iter (i + j) gshift l) false.
Proof.
  intros H j. induction j as [|j IH]; intros i Hj; [now rewrite Nat.add_0_r|].
  rewrite Nat.add_succ_r. change (S (i + j)) with (S i + j)%nat. rewrite <- IH by lia. cbn [iter].
  symmetry. apply gshift_nth; [now apply giter_len | lia].
Qed.
Lemma gbit_seq t nP : grain_seq t nP (gbit t nP).
Proof.
  pose proof (grain_init_len t nP) as L. split.
  - intros i Hi. unfold gbit. exact (eq_sym (giter_nth _ L i 0%nat Hi)).
  - intros i. unfold gbit. replace (i + 80)%nat with (S i + 79)%nat by lia.
    rewrite <- (giter_nth _ L 79 (S i)) by lia. cbn [iter]. unfold gshift at 1.
    pose proof (giter_len i _ L) as Li.
    rewrite app_nth2; (assert (length (tl (iter i gshift (grain_init t nP))) = 79%nat) as Lt by (destruct (iter i gshift (grain_init t nP)); [discriminate|]; cbn [tl length] in *; lia)); rewrite Lt; [|lia].
    cbn [Nat.sub nth]. rewrite (giter_nth _ L 62 i), (giter_nth _ L 51 i), (giter_nth _ L 38 i), (giter_nth _ L 23 i), (giter_nth _ L 13 i) by lia. reflexivity.
Qed.
Lemma grain_seq_unique t nP b b' : grain_seq t nP b -> grain_seq t nP b' -> forall i, b i = b' i.
Proof.
  intros [I R] [I' R'] i. induction i as [i IH] using (well_founded_induction Wf_nat.lt_wf).
  destruct (Nat.lt_ge_cases i 80) as [Hi|Hi]; [now rewrite I, I'|].
  replace i with (i - 80 + 80)%nat by lia. rewrite R, R'.
  repeat (rewrite (IH _) by lia; f_equal).
Qed.

(** ** self-shrinking *)
Lemma shrunk_skip b i l j : shrunk b i l j -> b j = false -> shrunk b i l (j + 2).
Proof. induction 1; intros Hj; [apply sh_skip; [exact Hj | constructor] | apply sh_skip; auto | apply sh_take; auto]. Qed.
Lemma shrunk_take b i l j : shrunk b i l j -> b j = true -> shrunk b i (l ++ [b (j + 1)%nat]) (j + 2).
Proof. induction 1; intros Hj; [apply sh_take; [exact Hj | constructor] | apply sh_skip; auto | apply sh_take; auto]. Qed.
Lemma shrunk_app b i l1 l2 j : shrunk b i (l1 ++ l2) j -> exists j', shrunk b i l1 j'.
Proof.
  remember (l1 ++ l2) as l eqn:E. intros H. revert l1 E. induction H as [i|i l j Hb H IH|i l j Hb H IH]; intros l1 E.
  - destruct l1; [|discriminate]. exists i. constructor.
  - destruct (IH _ E) as [j' Hj]. exists j'. now apply sh_skip.
  - destruct l1 as [|x l1]; [exists i; constructor|]. injection E as <- E. destruct (IH _ E) as [j' Hj]. exists j'. now apply sh_take.
Qed.
Lemma shrunk_prefix b i l j : shrunk b i l j -> forall l' j', shrunk b i l' j' -> (length l <= length l')%nat -> exists s, l' = l ++ s.
Proof.
  induction 1 as [i|i l j Hb H IH|i l j Hb H IH]; intros l' j' H' Hl.
  - now exists l'.
  - inversion H'; subst; try congruence.
    + destruct l; [now exists []|cbn in Hl; lia].
    + eapply IH; eassumption.
  - inversion H'; subst; try congruence.
    + cbn in Hl; lia.
    + cbn [length] in Hl. destruct (IH _ _ H1 ltac:(lia)) as [s ->]. now exists s.
Qed.
Lemma shrunk_ext b b' i l j : (forall i, b i = b' i) -> shrunk b i l j -> shrunk b' i l j.
Proof. intros E. induction 1; [constructor | apply sh_skip | rewrite E; apply sh_take]; rewrite <- ?E; auto. Qed.

(** ** words *)
Section Words.
Variable b : nat -> bool.
(** w holds b(i), b(i+1), ..., b(i+n-1), least significant bit first *)
Definition holds (w : int) (i n : nat) : Prop := forall j, (j < n)%nat -> Z.testbit (phi w) (T j) = b (i + j).
Lemma tb_lsr w (p : int) j : 0 <= j -> Z.testbit (phi (w >> p)) j = Z.testbit (phi w) (j + phi p).
Proof. intros Hj. rewrite lsr_spec. rewrite Z.div_pow2_bits; [reflexivity | apply phi_nn | exact Hj]. Qed.
Lemma tb_lsl w (p : int) j : 0 <= j < 63 -> Z.testbit (phi (w << p)) j = Z.testbit (phi w) (j - phi p).
Proof. intros Hj. rewrite lsl_spec, wB_eq. rewrite Z.mod_pow2_bits_low by lia. apply Z.mul_pow2_bits. apply phi_nn. Qed.
Lemma tb_high w k j : phi w < 2 ^ k -> 0 <= k <= j -> Z.testbit (phi w) j = false.
Proof.
  intros H Hk. pose proof (phi_nn w) as Hn. destruct (Z.eq_dec (phi w) 0) as [->|N]; [apply Z.bits_0|].
  apply Z.bits_above_log2; [lia|]. apply Z.lt_le_trans with k; [|lia]. apply Z.log2_lt_pow2; lia.
Qed.
Definition M16 : int := 65535%uint63.
Lemma tb_land16 w j : 0 <= j -> Z.testbit (phi (w land M16)) j = if j <? 16 then Z.testbit (phi w) j else false.
Proof.
  intros Hj. rewrite land_spec', Z.land_spec. change (phi M16) with (Z.ones 16).
  destruct (j <? 16) eqn:E.
  - apply Z.ltb_lt in E. rewrite Z.ones_spec_low by lia. apply andb_true_r.
  - apply Z.ltb_ge in E. rewrite Z.ones_spec_high by lia. apply andb_false_r.
Qed.
Lemma land16_lt w : phi (w land M16) < 2 ^ 16.
Proof. rewrite land_spec'. change (phi M16) with (Z.ones 16). rewrite Z.land_ones by lia. apply Z.mod_pos_bound. lia. Qed.

(** the next sixteen bits *)
Definition new16 (x y : int) : int :=
  (((y >> 22) lxor ((y >> 11) lxor (((x >> 38) lor (y << 2)) lxor ((x >> 23) lxor ((x >> 13) lxor x))))) land M16)%uint63.
Definition nextx (x y : int) : int := ((x >> 16) lor ((y land M16) << 24))%uint63.
Definition nexty (x y : int) : int := ((y >> 16) lor (new16 x y << 24))%uint63.
Definition gst_ok (x y : int) (i : nat) : Prop := holds x i 40 /\ holds y (i + 40) 40 /\ phi x < 2 ^ 40 /\ phi y < 2 ^ 40.
Hypothesis rec : forall i, b (i + 80)%nat =
     xorb (b (i + 62)%nat) (xorb (b (i + 51)%nat) (xorb (b (i + 38)%nat)
       (xorb (b (i + 23)%nat) (xorb (b (i + 13)%nat) (b i))))).
Lemma new16_ok x y i : gst_ok x y i -> holds (new16 x y) (i + 80) 16.
Proof.
  intros (Hx & Hy & Bx & By) j Hj. unfold new16. rewrite tb_land16 by lia.
  replace (T j <? 16) with true by (symmetry; apply Z.ltb_lt; lia).
  rewrite !lxor_spec', !Z.lxor_spec, lor_spec', Z.lor_spec, !tb_lsr, tb_lsl by lia.
  change (phi 22) with (T 22). change (phi 11) with (T 11). change (phi 38) with (T 38). change (phi 2) with (T 2). change (phi 23) with (T 23). change (phi 13) with (T 13).
  rewrite <- !Nat2Z.inj_add. rewrite (Hx j), (Hx (j + 13)%nat), (Hx (j + 23)%nat), (Hy (j + 22)%nat), (Hy (j + 11)%nat) by lia.
  replace (i + 80 + j)%nat with (i + j + 80)%nat by lia. rewrite rec.
  replace (i + 40 + (j + 22))%nat with (i + j + 62)%nat by lia. replace (i + 40 + (j + 11))%nat with (i + j + 51)%nat by lia.
  replace (i + (j + 23))%nat with (i + j + 23)%nat by lia. replace (i + (j + 13))%nat with (i + j + 13)%nat by lia. f_equal. f_equal. f_equal.
  destruct (Nat.lt_ge_cases j 2) as [H2|H2].
  - rewrite (Hx (j + 38)%nat) by lia. rewrite (Z.testbit_neg_r _ (T j - T 2)) by lia. rewrite orb_false_r. f_equal. lia.
  - rewrite (tb_high x 40) by lia. replace (T j - T 2) with (T (j - 2)) by lia. rewrite (Hy (j - 2)%nat) by lia. cbn [orb]. f_equal. lia.
Qed.
Lemma bound_lor x (y : int) : phi x < 2 ^ 24 -> phi y < 2 ^ 16 -> phi (x lor (y << 24)) < 2 ^ 40.
Proof.
  intros Hx Hy. pose proof (phi_nn (x lor (y << 24))) as Hn.
  destruct (Z.eq_dec (phi (x lor (y << 24))) 0) as [->|N]; [reflexivity|].
  apply Z.log2_lt_pow2; [lia|]. destruct (Z.lt_ge_cases (Z.log2 (phi (x lor (y << 24)))) 40) as [H|H]; [exact H|].
  exfalso. pose proof (Z.bit_log2 (phi (x lor (y << 24))) ltac:(lia)) as Hb. set (k := Z.log2 _) in *.
  assert (Hk : k < 63) by (apply Z.log2_lt_pow2; [lia | apply phi_ub]).
  rewrite lor_spec', Z.lor_spec, tb_lsl in Hb by lia. rewrite (tb_high x 24) in Hb by lia.
  change (phi 24) with 24 in Hb. rewrite (tb_high y 16) in Hb by lia. discriminate.
Qed.
Lemma gnext_ok x y i : gst_ok x y i -> gst_ok (nextx x y) (nexty x y) (i + 16).
Proof.
  intros G. pose proof (new16_ok x y i G) as Hn. destruct G as (Hx & Hy & Bx & By). split; [|split; [|split]].
  - intros j Hj. unfold nextx. rewrite lor_spec', Z.lor_spec, tb_lsr, tb_lsl by lia. change (phi 16) with (T 16). change (phi 24) with (T 24).
    rewrite <- Nat2Z.inj_add. destruct (Nat.lt_ge_cases j 24) as [H|H].
    + rewrite (Hx (j + 16)%nat) by lia. rewrite (Z.testbit_neg_r _ (T j - T 24)) by lia. rewrite orb_false_r. f_equal. lia.
    + rewrite (tb_high x 40) by lia. rewrite tb_land16 by lia. replace (T j - T 24 <? 16) with true by (symmetry; apply Z.ltb_lt; lia).
      replace (T j - T 24) with (T (j - 24)) by lia. rewrite (Hy (j - 24)%nat) by lia. cbn [orb]. f_equal. lia.
  - intros j Hj. unfold nexty. rewrite lor_spec', Z.lor_spec, tb_lsr, tb_lsl by lia. change (phi 16) with (T 16). change (phi 24) with (T 24).
    rewrite <- Nat2Z.inj_add. destruct (Nat.lt_ge_cases j 24) as [H|H].
    + rewrite (Hy (j + 16)%nat) by lia. rewrite (Z.testbit_neg_r _ (T j - T 24)) by lia. rewrite orb_false_r. f_equal. lia.
    + rewrite (tb_high y 40) by lia. replace (T j - T 24) with (T (j - 24)) by lia. rewrite (Hn (j - 24)%nat) by lia. cbn [orb]. f_equal. lia.
  - apply bound_lor; [|apply land16_lt]. rewrite lsr_spec. apply Z.div_lt_upper_bound; [reflexivity|]. exact Bx.
  - apply bound_lor; [|apply land16_lt]. rewrite lsr_spec. apply Z.div_lt_upper_bound; [reflexivity|]. exact By.
Qed.

(** ** collecting numbers *)
Record GS : Set := mkGS { gx : int; gy : int; gacc : positive; gcnt : nat; gout : list positive }.
Fixpoint gpairs (n : nat) (w : int) (x y : int) (acc : positive) (cnt : nat) (out : list positive) {struct n} : GS :=
  match n with
  | O => mkGS x y acc cnt out
  | S n' =>
    if (w land 1 =? 1)%uint63 then
      if ((w >> 1) land 1 =? 1)%uint63 then
        match cnt with O => gpairs n' (w >> 2)%uint63 x y xH 253 (xI acc :: out) | S c => gpairs n' (w >> 2)%uint63 x y (xI acc) c out end
      else
        match cnt with O => gpairs n' (w >> 2)%uint63 x y xH 253 (xO acc :: out) | S c => gpairs n' (w >> 2)%uint63 x y (xO acc) c out end
    else gpairs n' (w >> 2)%uint63 x y acc cnt out
  end.
Definition gstep (s : GS) : GS :=
  match s with mkGS x y acc cnt out => gpairs 8 x (nextx x y) (nexty x y) acc cnt out end.
Fixpoint grun (p : positive) (s : GS) {struct p} : GS :=
  match s with mkGS _ _ _ _ _ =>
    match p with xH => gstep s | xO q => grun q (grun q s) | xI q => grun q (grun q (gstep s)) end
  end.

Fixpoint pbits (p : positive) : list bool := match p with xH => [] | xO q => pbits q ++ [false] | xI q => pbits q ++ [true] end.
Definition pnum (p : positive) : Z := Zpos p - 2 ^ 254.
Lemma bits_msb_S n z (c : bool) : bits_msb (S n) (2 * z + (if c then 1 else 0)) = bits_msb n z ++ [c].
Proof.
  unfold bits_msb. rewrite (seq_S n 0), map_app. f_equal.
  - apply map_ext_in. intros i Hi. apply in_seq in Hi. replace (S n - 1 - i)%nat with (S (n - 1 - i)) by lia.
    rewrite Nat2Z.inj_succ. destruct c; [apply Z.testbit_odd_succ | rewrite Z.add_0_r; apply Z.testbit_even_succ]; lia.
  - cbn [map Nat.add]. replace (S n - 1 - n)%nat with O by lia. f_equal. destruct c; [apply Z.testbit_odd_0 | rewrite Z.add_0_r; apply Z.testbit_even_0].
Qed.
Lemma pbits_len_pow p : 2 ^ T (length (pbits p)) <= Zpos p < 2 * 2 ^ T (length (pbits p)).
Proof.
  induction p as [p IH|p IH|]; cbn [pbits].
  - rewrite app_length. cbn [length]. rewrite Nat2Z.inj_add, Z.pow_add_r by lia. change (2 ^ T 1) with 2. change (Zpos p~1) with (2 * Zpos p + 1). cbv iota. lia.
  - rewrite app_length. cbn [length]. rewrite Nat2Z.inj_add, Z.pow_add_r by lia. change (2 ^ T 1) with 2. change (Zpos p~0) with (2 * Zpos p). cbv iota. lia.
  - cbn [length]. change (2 ^ T 0) with 1. lia.
Qed.
Lemma pbits_ok p : bits_msb (length (pbits p)) (Zpos p - 2 ^ T (length (pbits p))) = pbits p.
Proof.
  induction p as [p IH|p IH|]; cbn [pbits]; [| |reflexivity].
  - rewrite app_length. cbn [length]. rewrite Nat.add_1_r. rewrite <- IH at 3. rewrite <- bits_msb_S. f_equal.
    rewrite Nat2Z.inj_succ, Z.pow_succ_r by lia. change (Zpos p~1) with (2 * Zpos p + 1). cbv iota. lia.
  - rewrite app_length. cbn [length]. rewrite Nat.add_1_r. rewrite <- IH at 3. rewrite <- bits_msb_S. f_equal.
    rewrite Nat2Z.inj_succ, Z.pow_succ_r by lia. change (Zpos p~0) with (2 * Zpos p). cbv iota. lia.
Qed.
Definition numbits (out : list positive) : list bool := concat (map (fun p => bits_msb 254 (pnum p)) (rev out)).
Definition col_ok (i : nat) (acc : positive) (cnt : nat) (out : list positive) : Prop :=
  shrunk b 240 (numbits out ++ pbits acc) i /\ (length (pbits acc) + cnt = 253)%nat /\ Forall (fun p => length (pbits p) = 254%nat) out.
Lemma push_ok i acc cnt out (c : bool) : col_ok i acc cnt out -> b i = true -> b (i + 1)%nat = c ->
  match cnt with
  | O => col_ok (i + 2) xH 253 ((if c then xI acc else xO acc) :: out)
  | S k => col_ok (i + 2) (if c then xI acc else xO acc) k out
  end.
Proof.
  intros (S0 & L & F) Hb Hc. pose proof (shrunk_take _ _ _ _ S0 Hb) as S1. rewrite Hc, <- app_assoc in S1.
  assert (E : pbits acc ++ [c] = pbits (if c then xI acc else xO acc)) by (destruct c; reflexivity).
  assert (Lq : length (pbits (if c then xI acc else xO acc)) = S (length (pbits acc))) by (rewrite <- E, app_length; cbn [length]; lia).
  rewrite E in S1. set (q := if c then xI acc else xO acc) in *. destruct cnt as [|k].
  - split; [|split; [reflexivity|]].
    + cbn [pbits]. rewrite app_nil_r. unfold numbits in *. cbn [rev]. rewrite map_app, concat_app. cbn [map concat]. rewrite app_nil_r.
      assert (L254 : length (pbits q) = 254%nat) by lia.
      pose proof (pbits_ok q) as Q. rewrite L254 in Q. unfold pnum. change (2 ^ 254) with (2 ^ T 254). rewrite Q. exact S1.
    + constructor; [lia | exact F].
  - split; [exact S1|]. split; [lia | exact F].
Qed.
Lemma gpairs_ok n : forall w x y acc cnt out i, holds w i (2 * n) -> col_ok i acc cnt out ->
  let s := gpairs n w x y acc cnt out in
  gx s = x /\ gy s = y /\ col_ok (i + 2 * n) (gacc s) (gcnt s) (gout s).
Proof.
  assert (B1 : forall w, (w land 1 =? 1)%uint63 = Z.testbit (phi w) 0).
  { intros w. assert (E : phi (w land 1) = Z.b2z (Z.testbit (phi w) 0)).
    { rewrite land_spec'. change (phi 1) with (Z.ones 1). rewrite Z.land_ones by lia. change (2 ^ 1) with 2. rewrite Z.bit0_mod. reflexivity. }
    destruct (w land 1 =? 1)%uint63 eqn:E1.
    - apply eqb_spec in E1. rewrite E1 in E. change (phi 1) with 1 in E. destruct (Z.testbit (phi w) 0); [reflexivity | discriminate E].
    - destruct (Z.testbit (phi w) 0); [|reflexivity]. exfalso. apply eqb_false_spec in E1. apply E1. apply to_Z_inj. rewrite E. reflexivity. }
  induction n as [|n IH]; intros w x y acc cnt out i Hw C.
  - cbn [gpairs]. cbv zeta. rewrite Nat.add_0_r. split; [reflexivity|]. split; [reflexivity | exact C].
  - pose proof (Hw 0%nat ltac:(lia)) as W0. pose proof (Hw 1%nat ltac:(lia)) as W1. rewrite Nat.add_0_r in W0. change (T 0) with 0 in W0.
    assert (W' : holds (w >> 2) (i + 2) (2 * n)).
    { intros j Hj. rewrite tb_lsr by lia. change (phi 2) with (T 2). rewrite <- Nat2Z.inj_add, Hw by lia. f_equal. lia. }
    cbn [gpairs]. cbv zeta. rewrite !B1. rewrite tb_lsr by lia. change (0 + phi 1) with (T 1). rewrite W0, W1.
    replace (i + 2 * S n)%nat with (i + 2 + 2 * n)%nat by lia.
    destruct (b i) eqn:E0.
    + pose proof (push_ok i acc cnt out (b (i + 1)%nat) C E0 eq_refl) as P.
      destruct (b (i + 1)%nat); destruct cnt; apply IH; assumption.
    + apply IH; [exact W'|]. destruct C as (S0 & LF). split; [now apply shrunk_skip | exact LF].
Qed.
Definition GS_ok (i : nat) (s : GS) : Prop := gst_ok (gx s) (gy s) i /\ col_ok i (gacc s) (gcnt s) (gout s).
Lemma gstep_ok i s : GS_ok i s -> GS_ok (i + 16) (gstep s).
Proof.
  intros [G C]. destruct s as [x y acc cnt out]. cbn [gx gy gacc gcnt gout gstep] in *.
  assert (Hw : holds x i (2 * 8)) by (intros j Hj; apply (proj1 G); lia).
  destruct (gpairs_ok 8 x (nextx x y) (nexty x y) acc cnt out i Hw C) as (E1 & E2 & C').
  split; [|exact C']. rewrite E1, E2. now apply gnext_ok.
Qed.
Lemma grun_ok p : forall i s, GS_ok i s -> exists j, GS_ok j (grun p s).
Proof.
  induction p as [q IH|q IH|]; intros i s H.
  - replace (grun q~1 s) with (grun q (grun q (gstep s))) by (destruct s; cbn [grun]; exact eq_refl).
    destruct (IH _ _ (gstep_ok _ _ H)) as [j Hj]. exact (IH _ _ Hj).
  - replace (grun q~0 s) with (grun q (grun q s)) by (destruct s; cbn [grun]; exact eq_refl).
    destruct (IH _ _ H) as [j Hj]. exact (IH _ _ Hj).
  - replace (grun 1 s) with (gstep s) by (destruct s; cbn [grun]; exact eq_refl). exists (i + 16)%nat. now apply gstep_ok.
Qed.
End Words.

(** ** the numbers of a width *)
Fixpoint word (l : list bool) : int := match l with [] => 0%uint63 | c :: l => ((if c then 1 else 0) + (word l << 1))%uint63 end.
Definition holdsb (w : int) (l : list bool) : bool :=
  (phi w <? 2 ^ 40) && forallb (fun j => Bool.eqb (Z.testbit (phi w) (T j)) (nth j l false)) (seq 0 40).
Fixpoint warm (n : nat) (x y : int) : int * int := match n with O => (x, y) | S n => warm n (nextx x y) (nexty x y) end.
Definition gnums (t nP : nat) (N : positive) : list Z :=
  let l := grain_init t nP in
  let x := word (firstn 40 l) in let y := word (skipn 40 l) in
  if holdsb x (firstn 40 l) && holdsb y (skipn 40 l) then
    let '(x, y) := warm 15 x y in
    map pnum (rev (gout (grun N (mkGS x y xH 253 []))))
  else [].
Lemma warm_ok b : (forall i, b (i + 80)%nat =
     xorb (b (i + 62)%nat) (xorb (b (i + 51)%nat) (xorb (b (i + 38)%nat)
       (xorb (b (i + 23)%nat) (xorb (b (i + 13)%nat) (b i)))))) ->
  forall n i x y, gst_ok b x y i -> gst_ok b (fst (warm n x y)) (snd (warm n x y)) (i + 16 * n).
Proof.
  intros R n. induction n as [|n IH]; intros i x y G; [now rewrite Nat.add_0_r|]. cbn [warm].
  replace (i + 16 * S n)%nat with (i + 16 + 16 * n)%nat by lia. apply IH. now apply gnext_ok.
Qed.
Lemma holdsb_ok b w l i : holdsb w l = true -> (forall j, (j < 40)%nat -> b (i + j)%nat = nth j l false) -> holds b w i 40 /\ phi w < 2 ^ 40.
Proof.
  unfold holdsb. rewrite andb_true_iff, forallb_forall, Z.ltb_lt. intros [B F] H. split; [|exact B].
  intros j Hj. rewrite H by exact Hj. apply eqb_prop. apply F. apply in_seq. lia.
Qed.
Theorem gnums_ok t nP N b : grain_seq t nP b ->
  Forall (fun v => 0 <= v < 2 ^ 254) (gnums t nP N) /\ exists j, shrunk b 240 (concat (map (bits_msb 254) (gnums t nP N))) j.
Proof.
  intros [I R]. unfold gnums. cbv zeta. set (l := grain_init t nP) in *. pose proof (grain_init_len t nP) as Ll. fold l in Ll.
  destruct (holdsb _ _ && holdsb _ _) eqn:E; [|split; [constructor | exists 240%nat; constructor]].
  apply andb_true_iff in E. destruct E as [Ex Ey]. set (x := word _) in *. set (y := word (skipn _ _)) in *.
  assert (FS : l = firstn 40 l ++ skipn 40 l) by (symmetry; apply firstn_skipn).
  assert (Lf : length (firstn 40 l) = 40%nat) by (rewrite firstn_length; lia).
  destruct (holdsb_ok b x _ 0 Ex) as [Hx Bx].
  { intros j Hj. cbn [Nat.add]. rewrite I by lia. rewrite FS at 1. rewrite app_nth1 by lia. reflexivity. }
  destruct (holdsb_ok b y _ 40 Ey) as [Hy By].
  { intros j Hj. rewrite I by lia. rewrite FS at 1. rewrite app_nth2 by lia. rewrite Lf. f_equal. lia. }
  pose proof (warm_ok b R 15 0 x y (conj Hx (conj Hy (conj Bx By)))) as G.
  destruct (warm 15 x y) as [x' y']. cbn [fst snd] in G. change (0 + 16 * 15)%nat with 240%nat in G.
  assert (G0 : GS_ok b 240 (mkGS x' y' xH 253 [])).
  { split; [exact G|]. split; [apply sh_nil|]. split; [reflexivity | constructor]. }
  destruct (grun_ok b R N _ _ G0) as (j & _ & S0 & _ & F).
  set (s := grun N _) in *. split.
  - apply Forall_forall. intros v Hv. apply in_map_iff in Hv. destruct Hv as (p & <- & Hp). apply in_rev in Hp.
    pose proof (proj1 (Forall_forall _ _) F p Hp) as Lp. cbv beta in Lp. pose proof (pbits_len_pow p) as B. rewrite Lp in B.
    unfold pnum. change (T 254) with 254 in B. lia.
  - destruct (shrunk_app _ _ _ _ _ S0) as [j' S1]. exists j'. unfold numbits in S1. rewrite map_map. exact S1.
Qed.
