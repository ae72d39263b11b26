(** Residues modulo the BN254 scalar field order as ten explicit 28-bit limbs:
    the Montgomery multiplier of FastMod unrolled, which is cheaper to evaluate
    by lazy reduction.  Used only inside proofs. *)
From Coq Require Import ZArith List Bool Lia Ring Uint63.
From Verif Require Import Params ZMod RingPow Emulated FieldFacts FastMod FastParams.
Import ListNotations.
Open Scope Z_scope.
Local Notation fr0 := (f0 rBN).

Inductive V10 : Set := K10 (x0 x1 x2 x3 x4 x5 x6 x7 x8 x9 : int).
Definition tl10 (a : V10) : list int := match a with K10 x0 x1 x2 x3 x4 x5 x6 x7 x8 x9 => [x0; x1; x2; x3; x4; x5; x6; x7; x8; x9] end.
Definition of10 (l : list int) : V10 :=
  match l with [x0; x1; x2; x3; x4; x5; x6; x7; x8; x9] => K10 x0 x1 x2 x3 x4 x5 x6 x7 x8 x9 | _ => K10 0%uint63 0%uint63 0%uint63 0%uint63 0%uint63 0%uint63 0%uint63 0%uint63 0%uint63 0%uint63 end.
Definition row10 (x : int) (b t : V10) : V10 :=
  match t with K10 t0 t1 t2 t3 t4 t5 t6 t7 t8 t9 => match b with K10 b0 b1 b2 b3 b4 b5 b6 b7 b8 b9 =>
  let m := (((t0 + x * b0) * 268435455) land M28)%uint63 in
  K10 (t1 + (x * b1 + m * 236935487) + ((t0 + (x * b0 + m * 1)) >> 28))%uint63
    (t2 + (x * b2 + m * 158372163))%uint63
    (t3 + (x * b3 + m * 243566491))%uint63
    (t4 + (x * b4 + m * 140322867))%uint63
    (t5 + (x * b5 + m * 191371285))%uint63
    (t6 + (x * b6 + m * 163074117))%uint63
    (t7 + (x * b7 + m * 236132866))%uint63
    (t8 + (x * b8 + m * 6573682))%uint63
    (t9 + (x * b9 + m * 3))%uint63
    0%uint63 end end.
Definition rows10 (a b : V10) : V10 :=
  match a with K10 a0 a1 a2 a3 a4 a5 a6 a7 a8 a9 =>
  row10 a9 b (row10 a8 b (row10 a7 b (row10 a6 b (row10 a5 b (row10 a4 b (row10 a3 b (row10 a2 b (row10 a1 b (row10 a0 b (K10 0%uint63 0%uint63 0%uint63 0%uint63 0%uint63 0%uint63 0%uint63 0%uint63 0%uint63 0%uint63)))))))))) end.
Definition norm10 (t : V10) : V10 :=
  match t with K10 x0 x1 x2 x3 x4 x5 x6 x7 x8 x9 =>
  let y0 := (x0 + 0)%uint63 in
  let y1 := (x1 + (y0 >> 28))%uint63 in
  let y2 := (x2 + (y1 >> 28))%uint63 in
  let y3 := (x3 + (y2 >> 28))%uint63 in
  let y4 := (x4 + (y3 >> 28))%uint63 in
  let y5 := (x5 + (y4 >> 28))%uint63 in
  let y6 := (x6 + (y5 >> 28))%uint63 in
  let y7 := (x7 + (y6 >> 28))%uint63 in
  let y8 := (x8 + (y7 >> 28))%uint63 in
  let y9 := (x9 + (y8 >> 28))%uint63 in
  if ((y9 >> 28) =? 0)%uint63 then
  K10 (y0 land M28)%uint63 (y1 land M28)%uint63 (y2 land M28)%uint63 (y3 land M28)%uint63 (y4 land M28)%uint63 (y5 land M28)%uint63 (y6 land M28)%uint63 (y7 land M28)%uint63 (y8 land M28)%uint63 (y9 land M28)%uint63
  else of10 (norm MPr (tl10 t)) end.
Definition add10 (s t : V10) : V10 :=
  match s with K10 s0 s1 s2 s3 s4 s5 s6 s7 s8 s9 => match t with K10 t0 t1 t2 t3 t4 t5 t6 t7 t8 t9 =>
  K10 (t0 + s0)%uint63 (t1 + s1)%uint63 (t2 + s2)%uint63 (t3 + s3)%uint63 (t4 + s4)%uint63 (t5 + s5)%uint63 (t6 + s6)%uint63 (t7 + s7)%uint63 (t8 + s8)%uint63 (t9 + s9)%uint63 end end.
(** a * b + s *)
Definition mac10 (a b s : V10) : V10 := norm10 (add10 s (rows10 a b)).
Definition addV (a b : V10) : V10 := norm10 (add10 a b).
Definition subV (a b : V10) : V10 := of10 (msub MPr (tl10 a) (tl10 b)).

Lemma of10_tl10 l : length l = 10%nat -> tl10 (of10 l) = l.
Proof. intros H. do 10 (destruct l as [|? l]; [discriminate H|]). destruct l; [reflexivity | discriminate H]. Qed.
Lemma row10_ok x a b t : mm (mpP MPr) (mpI MPr) (x :: a) (tl10 b) (tl10 t) = mm (mpP MPr) (mpI MPr) a (tl10 b) (tl10 (row10 x b t)).
Proof. destruct b, t. reflexivity. Qed.
Lemma rows10_ok a b : tl10 (rows10 a b) = mm (mpP MPr) (mpI MPr) (tl10 a) (tl10 b) (zeros 10).
Proof.
  destruct a. change (zeros 10) with (tl10 (K10 0 0 0 0 0 0 0 0 0 0)). cbn [tl10]. fold (tl10 b). 
  change (tl10 (rows10 _ b)) with (mm (mpP MPr) (mpI MPr) [] (tl10 b) (tl10 (rows10 (K10 x0 x1 x2 x3 x4 x5 x6 x7 x8 x9) b))).
  unfold rows10. rewrite <- !row10_ok. reflexivity.
Qed.
Lemma norm_len M l : length (norm M l) = length l \/ length (norm M l) = mpk M.
Proof.
  assert (C : forall l c, length (fst (carry c l)) = length l).
  { clear. induction l as [|x l IH]; intros c; [reflexivity|]. cbn [carry]. specialize (IH ((x + c) >> 28)%uint63).
    destruct (carry ((x + c) >> 28) l). cbn [fst length] in *. now rewrite IH. }
  assert (S : forall k z, length (toLslow k z) = k) by (clear; induction k; intros z; cbn; auto).
  unfold norm. specialize (C l 0%uint63). destruct (carry 0 l) as [l' c]. cbn [fst] in C. destruct (c =? 0)%uint63; auto.
Qed.
Lemma norm10_ok t : tl10 (norm10 t) = norm MPr (tl10 t).
Proof.
  destruct t. unfold norm10. cbv zeta. destruct (_ =? 0)%uint63 eqn:E.
  - unfold norm. cbn [carry tl10].
    rewrite E. reflexivity.
  - apply of10_tl10. destruct (norm_len MPr (tl10 (K10 x0 x1 x2 x3 x4 x5 x6 x7 x8 x9))) as [H|H]; rewrite H; reflexivity.
Qed.
Lemma add10_ok s t : tl10 (add10 s t) = map2 Uint63.add (tl10 t) (tl10 s).
Proof. destruct s, t. reflexivity. Qed.

Definition stR (v : V10) (x : Fr) : Prop := stands MPr (tl10 v) x.
Lemma Fr_add_0_r (a : Fr) : fadd a fr0 = a.
Proof. ring. Qed.
Lemma stR_fun a x y : stR a x -> stR a y -> x = y.
Proof. intros [_ <-] [_ <-]. reflexivity. Qed.
Lemma of10_st l x : stands MPr l x -> stR (of10 l) x.
Proof. intros S. unfold stR. rewrite of10_tl10; [exact S|]. apply S. Qed.
Lemma stR_sub a b x y : stR a x -> stR b y -> stR (subV a b) (fsub x y).
Proof. intros Ha Hb. apply of10_st. exact (st_sub MPr MPr_ok _ _ _ _ Ha Hb). Qed.
Lemma stR_add a b x y : stR a x -> stR b y -> stR (addV a b) (fadd x y).
Proof.
  intros Ha Hb. unfold stR, addV. rewrite norm10_ok, add10_ok.
  pose proof (st_add MPr MPr_ok _ _ _ _ Hb Ha) as S. unfold madd in S.
  replace (fadd x y) with (fadd y x) by ring. exact S.
Qed.
Lemma map2_len f a b : length a = length b -> length (map2 f a b) = length a.
Proof. revert b; induction a as [|x a IH]; intros [|y b] H; cbn [map2 length] in *; try discriminate; [reflexivity|]. rewrite IH; lia. Qed.
Lemma map2_add_gen T a b : T + B <= 2 ^ 63 -> length a = length b -> bounded T a -> bounded B b ->
  bounded (T + B) (map2 Uint63.add a b) /\ valL (map2 Uint63.add a b) = valL a + valL b.
Proof.
  intros HT. revert b; induction a as [|x a IH]; intros [|y b] L Ba Bb; try discriminate; [split; [constructor | reflexivity]|].
  injection L as L. inversion Ba; subst. inversion Bb; subst. destruct (IH b L) as [H V]; auto.
  assert (E : phi (x + y) = phi x + phi y) by (apply add_small; lia).
  cbn [map2 valL]. rewrite E, V. split; [|lia]. constructor; [rewrite E; lia | exact H].
Qed.
Lemma stR_mac a b s x y z : stR a x -> stR b y -> stR s z -> stR (mac10 a b s) (fadd (fmul x y) z).
Proof.
  intros Ha Hb Hs. unfold stR, mac10. rewrite norm10_ok, add10_ok, rows10_ok.
  destruct Ha as [[La Ba] Va]. destruct Hb as [[Lb Bb] Vb]. destruct Hs as [[Lc Bc] Vc]. change (mpk MPr) with 10%nat in *.
  destruct (mp_facts MPr MPr_ok) as (Hn & _ & [LP BP] & VP & HR & _ & HI & HRi & _). change (mpk MPr) with 10%nat in *.
  assert (Bz : bounded 1 (zeros 10)).
  { apply Forall_forall. intros w Hw. apply repeat_spec in Hw. subst w. reflexivity. }
  destruct (mm_spec (mpn MPr) (mpP MPr) (mpI MPr) 10 ltac:(lia) LP BP VP HI (tl10 a) (tl10 b) (zeros 10) 1 Ba Lb Bb eq_refl Bz) as (L & Bo & q & V).
  { rewrite La. reflexivity || (vm_compute; discriminate). }
  rewrite La in Bo, V. set (w := mm _ _ _ _ _) in *.
  destruct (map2_add_gen (1 + Z.of_nat 10 * 2 ^ 58) w (tl10 s)) as [B2 V2]; [vm_compute; discriminate | congruence | exact Bo | exact Bc |].
  destruct (norm_spec MPr MPr_ok (map2 Uint63.add w (tl10 s)) (1 + Z.of_nat 10 * 2 ^ 58 + B)) as (W & q' & V').
  { rewrite map2_len; [exact L | congruence]. } { exact B2. } { vm_compute; discriminate. }
  split; [exact W|]. rewrite V2 in V'. rewrite valL_zeros in V.
  assert (Sw : stands MPr (norm MPr w) (fmul x y)).
  { pose proof (st_mul MPr MPr_ok (tl10 a) (tl10 b) x y (conj (conj La Ba) Va) (conj (conj Lb Bb) Vb)) as S. exact S. }
  destruct (norm_spec MPr MPr_ok w (1 + Z.of_nat 10 * 2 ^ 58)) as (W1 & q1 & V1); [exact L | exact Bo | vm_compute; discriminate|].
  destruct Sw as [_ Ew]. rewrite <- Vc, <- Ew. unfold val. rewrite <- ofZ_add.
  apply (ofZ_cong MPr _ _ ((q' - q1) * mpRi MPr)). rewrite V', V1. ring.
Qed.
(** conversion of a positive: 28 bits at a time *)
Fixpoint low (n : nat) (p : positive) {struct n} : int * option positive :=
  match n with
  | O => (0%uint63, Some p)
  | S n' =>
    match p with
    | xH => (1%uint63, None)
    | xO q => let '(v, r) := low n' q in ((v + v)%uint63, r)
    | xI q => let '(v, r) := low n' q in ((v + v + 1)%uint63, r)
    end
  end.
Definition orem (r : option positive) : Z := match r with None => 0 | Some p => Zpos p end.
Lemma low_ok n : Z.of_nat n <= 60 -> forall p, let '(v, r) := low n p in Zpos p = phi v + 2 ^ Z.of_nat n * orem r /\ phi v < 2 ^ Z.of_nat n.
Proof.
  induction n as [|n IH]; intros Hn p.
  - cbn [low orem]. change (phi 0) with 0. change (2 ^ Z.of_nat 0) with 1. lia.
  - assert (Pn : 2 ^ Z.of_nat (S n) = 2 * 2 ^ Z.of_nat n) by (rewrite Nat2Z.inj_succ; apply Z.pow_succ_r; lia).
    assert (P60 : 2 ^ Z.of_nat n <= 2 ^ 60) by (apply Z.pow_le_mono_r; lia).
    destruct p as [q|q|]; cbn [low].
    + specialize (IH ltac:(lia) q). destruct (low n q) as [v r]. destruct IH as [E L]. pose proof (phi_nn v).
      assert (E1 : phi (v + v) = phi v + phi v) by (apply add_small; lia).
      assert (E2 : phi (v + v + 1) = phi v + phi v + 1) by (rewrite add_small; rewrite E1; change (phi 1) with 1; lia).
      rewrite E2, Pn. change (Zpos q~1) with (2 * Zpos q + 1). lia.
    + specialize (IH ltac:(lia) q). destruct (low n q) as [v r]. destruct IH as [E L]. pose proof (phi_nn v).
      assert (E1 : phi (v + v) = phi v + phi v) by (apply add_small; lia).
      rewrite E1, Pn. change (Zpos q~0) with (2 * Zpos q). lia.
    + change (phi 1) with 1. cbn [orem]. rewrite Pn. pose proof (Z.pow_pos_nonneg 2 (Z.of_nat n) ltac:(lia) ltac:(lia)). lia.
Qed.
Section Limbs.
Variable lw : positive -> int * option positive.
Hypothesis lw_ok : forall p, let '(v, r) := lw p in Zpos p = phi v + B * orem r /\ phi v < B.
Fixpoint limbsW (k : nat) (p : option positive) : list int :=
  match k with
  | O => []
  | S k' => match p with None => 0%uint63 :: limbsW k' None | Some q => let '(v, r) := lw q in v :: limbsW k' r end
  end.
Fixpoint limbsR (k : nat) (p : option positive) : option positive :=
  match k with O => p | S k' => match p with None => None | Some q => limbsR k' (snd (lw q)) end end.
Lemma limbsR_none k : limbsR k None = None.
Proof. now destruct k. Qed.
Lemma limbsW_ok k : forall p, orem p = valL (limbsW k p) + B ^ Z.of_nat k * orem (limbsR k p) /\ wf k (limbsW k p).
Proof.
  induction k as [|k IH]; intros p.
  - cbn [limbsW limbsR valL]. change (B ^ Z.of_nat 0) with 1. split; [lia | split; [reflexivity | constructor]].
  - rewrite Nat2Z.inj_succ, Z.pow_succ_r by lia. generalize dependent (B ^ Z.of_nat k). intros BB IH. destruct p as [q|]; cbn [limbsW limbsR].
    + pose proof (lw_ok q) as L. destruct (lw q) as [v r]. cbn [snd]. destruct L as [E Lt].
      destruct (IH r) as [V [W1 W2]]. cbn [orem valL]. split; [rewrite E, V; ring|].
      split; [cbn [length]; now rewrite W1 | constructor; assumption].
    + destruct (IH None) as [V [W1 W2]]. rewrite limbsR_none in *. cbn [valL orem] in *. change (phi 0) with 0. split; [lia|].
      split; [cbn [length]; now rewrite W1 | constructor; [reflexivity | exact W2]].
Qed.
End Limbs.
Definition low28 (p : positive) : int * option positive := low 28 p.
Lemma low28_ok p : let '(v, r) := low28 p in Zpos p = phi v + B * orem r /\ phi v < B.
Proof. exact (low_ok 28 ltac:(lia) p). Qed.
Definition limbsP (k : nat) (p : positive) : list int := limbsW low28 k (Some p).
Lemma limbsP_ok k p : Zpos p = valL (limbsP k p) + B ^ Z.of_nat k * orem (limbsR low28 k (Some p)) /\ wf k (limbsP k p).
Proof. exact (limbsW_ok low28 low28_ok k (Some p)). Qed.
Lemma limbsP_small k p : Zpos p < B ^ Z.of_nat k -> valL (limbsP k p) = Zpos p.
Proof.
  intros H. destruct (limbsP_ok k p) as [V _]. pose proof (valL_nn (limbsP k p)) as N. revert H V.
  generalize (B ^ Z.of_nat k). intros BB H V. destruct (limbsR low28 k (Some p)) as [q|]; cbn [orem] in V; nia.
Qed.
Definition zL : V10 := K10 0 0 0 0 0 0 0 0 0 0.
Definition r2V : V10 := of10 (mpR2 MPr).
Definition oneP (p : option positive) : bool := match p with None => true | Some _ => false end.
Definition two254 : positive := 0x4000000000000000000000000000000000000000000000000000000000000000.
Lemma two254_le : Zpos two254 <= 2 ^ 254.
Proof. vm_compute. discriminate. Qed.
Definition inR (z : Z) : bool := match z with Z0 => true | Zpos p => Pos.ltb p two254 | Zneg _ => false end.
Definition inV (z : Z) : V10 := match z with Zpos p => mac10 (of10 (limbsP 10 p)) r2V (zL) | _ => zL end.
Lemma st_zero10 : stR zL fr0.
Proof. split; [apply (wfb_wf 10); reflexivity | reflexivity]. Qed.
Lemma inR_lt z : inR z = true -> 0 <= z < 2 ^ 254.
Proof.
  destruct z as [|p|p]; cbn [inR]; intros H; [split; [lia | reflexivity] | | discriminate].
  split; [apply Pos2Z.is_nonneg|]. apply Z.lt_le_trans with (Zpos two254); [apply Pos2Z.pos_lt_pos, Pos.ltb_lt; exact H | exact two254_le].
Qed.
Lemma stR_in z : inR z = true -> stR (inV z) (ofZ rBN z).
Proof.
  intros H. pose proof (inR_lt z H) as R. destruct z as [|p|p]; [exact st_zero10 | | discriminate]. cbn [inV].
  destruct (limbsP_ok 10 p) as [_ W].
  assert (V : valL (limbsP 10 p) = Zpos p) by (apply limbsP_small; apply Z.lt_trans with (2 ^ 254); [apply R | reflexivity]).
  set (l := limbsP 10 p) in *. clearbody l.
  assert (Rk : 0 <= Zpos p < Rk MPr) by (split; [apply Pos2Z.is_nonneg | apply Z.lt_trans with (2 ^ 254); [apply R | reflexivity]]).
  destruct (inM_spec MPr MPr_ok (Zpos p) Rk) as [_ E]. destruct (limbs_spec MPr (Zpos p) Rk) as [Wl Vl].
  destruct (mp_facts MPr MPr_ok) as (_ & _ & _ & _ & _ & W2 & _).
  destruct (mmul_spec MPr MPr_ok _ _ Wl W2) as [_ E1]. unfold inM in E. rewrite E1 in E.
  assert (S1 : stR (of10 l) (val MPr l)) by (apply of10_st; split; [exact W | reflexivity]).
  assert (S2 : stR r2V (val MPr (mpR2 MPr))) by (apply of10_st; split; [exact W2 | reflexivity]).
  pose proof (stR_mac _ _ _ _ _ _ S1 S2 st_zero10) as S.
  assert (Ev : val MPr l = val MPr (limbs (mpk MPr) (Zpos p))) by (unfold val; now rewrite V, Vl).
  rewrite Ev in S. change (Fm (mpn MPr)) with Fr in *. 
  assert (E' : fadd (fmul (val MPr (limbs (mpk MPr) (Z.pos p))) (val MPr (mpR2 MPr))) fr0 = ofZ rBN (Zpos p)) by (transitivity (fmul (val MPr (limbs (mpk MPr) (Z.pos p))) (val MPr (mpR2 MPr))); [exact (Fr_add_0_r _) | exact E]).
  rewrite <- E'. exact S.
Qed.
Notation stR_0 := st_zero10.
Definition mulV (a b : V10) : V10 := mac10 a b zL.
Lemma stR_mul a b x y : stR a x -> stR b y -> stR (mulV a b) (fmul x y).
Proof. intros Ha Hb. replace (fmul x y) with (fadd (fmul x y) fr0) by ring. exact (stR_mac _ _ _ _ _ _ Ha Hb stR_0). Qed.

(** ** equality *)
Definition eq10 (a b : V10) : bool :=
  match a with K10 x0 x1 x2 x3 x4 x5 x6 x7 x8 x9 => match b with K10 y0 y1 y2 y3 y4 y5 y6 y7 y8 y9 =>
  if (x0 =? y0)%uint63 then if (x1 =? y1)%uint63 then if (x2 =? y2)%uint63 then if (x3 =? y3)%uint63 then if (x4 =? y4)%uint63 then
  if (x5 =? y5)%uint63 then if (x6 =? y6)%uint63 then if (x7 =? y7)%uint63 then if (x8 =? y8)%uint63 then (x9 =? y9)%uint63
  else false else false else false else false else false else false else false else false else false end end.
Lemma eq10_ok a b : eq10 a b = true -> a = b.
Proof.
  destruct a as [x0 x1 x2 x3 x4 x5 x6 x7 x8 x9], b as [y0 y1 y2 y3 y4 y5 y6 y7 y8 y9]. cbn [eq10]. intros H.
  repeat match type of H with (if (?p =? ?q)%uint63 then _ else false) = true => let E := fresh in destruct (p =? q)%uint63 eqn:E; [apply eqb_spec in E; subst p | discriminate H] end.
  apply eqb_spec in H. now subst x9.
Qed.
Definition pV : V10 := of10 (mpP MPr).
Lemma val_P : stR pV fr0.
Proof.
  apply of10_st. destruct (mp_facts MPr MPr_ok) as (H1 & _ & W & V & _). split; [exact W|]. unfold val. rewrite V.
  rewrite (ofZ_cong MPr _ 0 (mpRi MPr)); [reflexivity|]. ring.
Qed.
Definition meq (a b : V10) : bool :=
  if eq10 a b then true else if eq10 a (addV b pV) then true
  else if eq10 (addV a pV) b then true else outM MPr (tl10 a) =? outM MPr (tl10 b).
Lemma meq_ok a b x y : stR a x -> stR b y -> meq a b = true -> x = y.
Proof.
  intros Sa Sb. unfold meq. destruct (eq10 a b) eqn:E1.
  { intros _. apply eq10_ok in E1. subst b. exact (stR_fun _ _ _ Sa Sb). }
  destruct (eq10 a (addV b pV)) eqn:E2.
  { intros _. apply eq10_ok in E2. subst a. pose proof (stR_fun _ _ _ Sa (stR_add _ _ _ _ Sb val_P)) as E. rewrite E. ring. }
  destruct (eq10 (addV a pV) b) eqn:E3.
  { intros _. apply eq10_ok in E3. subst b. pose proof (stR_fun _ _ _ Sb (stR_add _ _ _ _ Sa val_P)) as E. rewrite E. ring. }
  intros H. apply Z.eqb_eq in H. apply fval_inj.
  exact (eq_trans (st_out MPr MPr_ok _ _ Sa) (eq_trans H (eq_sym (st_out MPr MPr_ok _ _ Sb)))).
Qed.
