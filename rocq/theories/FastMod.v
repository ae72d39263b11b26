(** A verified Montgomery multiplier on the primitive 63-bit integers of the
    standard library.  It is used only inside proofs, to check closed facts
    about large residues (primality certificates, field constants, tables);
    no model definition depends on it. *)
From Coq Require Import ZArith List Bool Lia Uint63.
From Verif Require Import ZMod RingPow.
Import ListNotations.
Open Scope Z_scope.

Notation B := 268435456 (only parsing).  (* 2^28 *)
Notation phi := Uint63.to_Z.

Definition M28 : int := 268435455%uint63.

Fixpoint valL (l : list int) : Z := match l with nil => 0 | x :: t => phi x + B * valL t end.

Record MP : Set := mkMP {
  mpn : Z;            (* the modulus *)
  mpk : nat;          (* number of limbs *)
  mpP : list int;     (* limbs of the modulus *)
  mpI : int;          (* - n^-1 mod 2^28 *)
  mpR2 : list int;    (* 2^(56k) mod n *)
  mpRi : Z;           (* 2^(-28k) mod n *)
  mpK : list int }.   (* a multiple of n with large limbs, for subtraction *)

(** ** algorithms *)
Fixpoint row (x m : int) (b p t : list int) : list int :=
  match b, p, t with
  | bj :: b', pj :: p', tj :: t' => (tj + (x * bj + m * pj))%uint63 :: row x m b' p' t'
  | _, _, _ => nil
  end.
Fixpoint mm (P : list int) (I : int) (a b t : list int) : list int :=
  match a with
  | nil => t
  | x :: a' =>
    match t, b with
    | t0 :: _, b0 :: _ =>
      let m := (((t0 + x * b0) * I) land M28)%uint63 in
      match row x m b P t with
      | r0 :: r1 :: r' => mm P I a' b ((r1 + (r0 >> 28))%uint63 :: r' ++ [0%uint63])
      | _ => nil
      end
    | _, _ => nil
    end
  end.
Fixpoint carry (c : int) (l : list int) : list int * int :=
  match l with
  | nil => (nil, c)
  | x :: t => let y := (x + c)%uint63 in
              let '(t', c') := carry (y >> 28)%uint63 t in ((y land M28)%uint63 :: t', c')
  end.
Fixpoint toLslow (k : nat) (z : Z) : list int :=
  match k with O => nil | S k => of_Z (z mod B) :: toLslow k (z / B) end.
Definition norm (M : MP) (l : list int) : list int :=
  let '(l', c) := carry 0%uint63 l in
  if (c =? 0)%uint63 then l' else toLslow (mpk M) (valL l mod mpn M).
Fixpoint map2 (f : int -> int -> int) (a b : list int) : list int :=
  match a, b with x :: a', y :: b' => f x y :: map2 f a' b' | _, _ => nil end.
Fixpoint subK (K a b : list int) : option (list int) :=
  match K, a, b with
  | k :: K', x :: a', y :: b' =>
      if (y <=? k)%uint63 then
        match subK K' a' b' with
        | Some r => Some ((x + (k - y))%uint63 :: r) | None => None end
      else None
  | nil, nil, nil => Some nil
  | _, _, _ => None
  end.
Definition zeros (k : nat) : list int := repeat 0%uint63 k.
Definition mmul (M : MP) (a b : list int) : list int := norm M (mm (mpP M) (mpI M) a b (zeros (mpk M))).
Definition madd (M : MP) (a b : list int) : list int := norm M (map2 Uint63.add a b).
Definition msub (M : MP) (a b : list int) : list int :=
  match subK (mpK M) a b with
  | Some l => norm M l
  | None => toLslow (mpk M) ((valL a - valL b) mod mpn M)
  end.

(** limbs of a positive, bit by bit *)
Fixpoint posL (p : positive) (w acc : int) (n : nat) : list int :=
  match n with
  | O => (* next limb *)
    acc :: match p with
           | xH => [1%uint63]
           | xO q => posL q 2%uint63 0%uint63 27
           | xI q => posL q 2%uint63 1%uint63 27
           end
  | S n' => match p with
            | xH => [(acc + w)%uint63]
            | xO q => posL q (w + w)%uint63 acc n'
            | xI q => posL q (w + w)%uint63 (acc + w)%uint63 n'
            end
  end.
Definition rawL (z : Z) : list int :=
  match z with Zpos p => posL p 1%uint63 0%uint63 28 | _ => nil end.
Fixpoint pad (k : nat) (l : list int) : list int :=
  match k with O => nil | S k' => match l with nil => 0%uint63 :: pad k' nil | x :: t => x :: pad k' t end end.
Definition wfb (k : nat) (l : list int) : bool :=
  Nat.eqb (length l) k && forallb (fun x => (x <? 268435456)%uint63) l.
(** conversion of 0 <= z < 2^(28k); checks itself *)
Definition limbs (k : nat) (z : Z) : list int :=
  let l := pad k (rawL z) in
  if wfb k l && (valL l =? z) then l else toLslow k z.

Definition Rk (M : MP) : Z := B ^ Z.of_nat (mpk M).
Definition oneL (k : nat) : list int := match k with O => nil | S k => 1%uint63 :: zeros k end.
(** residue -> Montgomery form and back *)
Definition inM (M : MP) (z : Z) : list int := mmul M (limbs (mpk M) z) (mpR2 M).
Definition outM (M : MP) (l : list int) : Z := zmod (mpn M) (valL (mmul M l (oneL (mpk M)))).

Definition mp_ok (M : MP) : bool :=
  (1 <? mpn M) && Nat.leb 2 (mpk M) && Nat.leb (mpk M) 20 &&
  wfb (mpk M) (mpP M) && (valL (mpP M) =? mpn M) &&
  (mpn M <? Rk M) &&
  wfb (mpk M) (mpR2 M) &&
  ((phi (hd 0%uint63 (mpP M)) * phi (mpI M) + 1) mod B =? 0) &&
  (Rk M * mpRi M mod mpn M =? 1) &&
  (valL (mpR2 M) * mpRi M mod mpn M =? Rk M mod mpn M) &&
  Nat.eqb (length (mpK M)) (mpk M) &&
  forallb (fun x => (x <? 4294967296)%uint63) (mpK M) &&
  (valL (mpK M) mod mpn M =? 0).

(** ** proofs *)
Definition bounded (T : Z) (l : list int) : Prop := Forall (fun x => phi x < T) l.
Definition wf (k : nat) (l : list int) : Prop := length l = k /\ bounded B l.

Lemma wB_eq : wB = 2 ^ 63. Proof. reflexivity. Qed.
Lemma phi_nn x : 0 <= phi x. Proof. apply to_Z_bounded. Qed.
Lemma phi_ub x : phi x < 2 ^ 63. Proof. rewrite <- wB_eq. apply to_Z_bounded. Qed.
Lemma add_small x y : phi x + phi y < 2 ^ 63 -> phi (x + y) = phi x + phi y.
Proof.
  intros H. rewrite add_spec, wB_eq. apply Z.mod_small. pose proof (phi_nn x). pose proof (phi_nn y). lia.
Qed.
Lemma mul_small x y : phi x * phi y < 2 ^ 63 -> phi (x * y) = phi x * phi y.
Proof.
  intros H. rewrite mul_spec, wB_eq. apply Z.mod_small. pose proof (phi_nn x). pose proof (phi_nn y). nia.
Qed.
Lemma land28 x : phi (x land M28) = phi x mod B.
Proof.
  rewrite land_spec'. change (phi M28) with (Z.ones 28). rewrite Z.land_ones by lia. reflexivity.
Qed.
Lemma shr28 x : phi (x >> 28) = phi x / B.
Proof. rewrite lsr_spec. reflexivity. Qed.

Lemma wfb_wf k l : wfb k l = true -> wf k l.
Proof.
  unfold wfb. rewrite andb_true_iff, Nat.eqb_eq. intros [H1 H2]. split; [exact H1|].
  rewrite forallb_forall in H2. apply Forall_forall. intros x Hx. specialize (H2 x Hx).
  apply ltb_spec in H2. exact H2.
Qed.
Lemma valL_nn l : 0 <= valL l.
Proof. induction l as [|x l IH]; cbn [valL]; [lia|]. pose proof (phi_nn x). lia. Qed.
Lemma valL_app l m : valL (l ++ m) = valL l + B ^ Z.of_nat (length l) * valL m.
Proof.
  induction l as [|x l IH].
  - cbn [valL app length]. change (B ^ Z.of_nat 0) with 1. lia.
  - cbn [valL app length]. rewrite IH.
    rewrite Nat2Z.inj_succ, Z.pow_succ_r by lia. lia.
Qed.
Lemma valL_zeros k : valL (zeros k) = 0.
Proof. induction k; [reflexivity|]. cbn [zeros repeat valL]. fold (zeros k). rewrite IHk. reflexivity. Qed.
Lemma valL_ub k l : wf k l -> valL l < B ^ Z.of_nat k.
Proof.
  intros [H1 H2]. subst k. induction H2 as [|x l H H2 IH]; [reflexivity|].
  cbn [valL length]. rewrite Nat2Z.inj_succ, Z.pow_succ_r by lia. lia.
Qed.

Lemma row_spec x m T : phi x < B -> phi m < B -> T + 2 ^ 57 <= 2 ^ 63 -> forall b p t,
  length b = length t -> length p = length t -> bounded B b -> bounded B p -> bounded T t ->
  valL (row x m b p t) = valL t + phi x * valL b + phi m * valL p /\
  bounded (T + 2 ^ 57) (row x m b p t) /\ length (row x m b p t) = length t.
Proof.
  intros Hx Hm HT. induction b as [|bj b IH]; intros p t L1 L2 Bb Bp Bt; destruct t as [|tj t]; try discriminate.
  - destruct p; [|discriminate]. cbn. split; [lia|]. split; [constructor | reflexivity].
  - destruct p as [|pj p]; [discriminate|]. injection L1 as L1. injection L2 as L2.
    inversion Bb; subst. inversion Bp; subst. inversion Bt; subst.
    destruct (IH p t L1 L2) as (V & Bo & L); auto.
    pose proof (phi_nn x). pose proof (phi_nn m). pose proof (phi_nn bj). pose proof (phi_nn pj). pose proof (phi_nn tj).
    assert (E1 : phi (x * bj) = phi x * phi bj) by (apply mul_small; nia).
    assert (E2 : phi (m * pj) = phi m * phi pj) by (apply mul_small; nia).
    assert (phi x * phi bj <= 2 ^ 56 - 1) by nia. assert (phi m * phi pj <= 2 ^ 56 - 1) by nia.
    assert (E3 : phi (x * bj + m * pj) = phi x * phi bj + phi m * phi pj) by (rewrite add_small; lia).
    assert (E4 : phi (tj + (x * bj + m * pj)) = phi tj + (phi x * phi bj + phi m * phi pj)) by (rewrite add_small; lia).
    cbn [row valL length]. rewrite E4, V. split; [lia|]. split.
    + constructor; [rewrite E4; lia | exact Bo].
    + now rewrite L.
Qed.

(** the smallest limb after a row is divisible by 2^28 *)
Lemma row_head x I t0 b0 p0 T : phi x < B -> phi b0 < B -> phi p0 < B -> phi t0 < T -> T + 2 ^ 57 <= 2 ^ 63 ->
  (phi p0 * phi I + 1) mod B = 0 ->
  let m := (((t0 + x * b0) * I) land M28)%uint63 in
  phi m < B /\ (phi t0 + phi x * phi b0 + phi m * phi p0) mod B = 0.
Proof.
  intros Hx Hb Hp Ht HT HI m.
  assert (Em : phi m = ((phi t0 + phi x * phi b0) * phi I) mod B).
  { unfold m. rewrite land28, mul_spec, add_spec, mul_spec, wB_eq.
    set (a := phi t0). set (c := phi x * phi b0). set (i := phi I).
    rewrite Z.add_mod_idemp_r by discriminate. rewrite Z.mul_mod_idemp_l by discriminate.
    change (2 ^ 63) with (B * 2 ^ 35).
    rewrite Z.rem_mul_r by lia. rewrite (Z.mul_comm B), Z_mod_plus_full, Zmod_mod. reflexivity. }
  split; [rewrite Em; apply Z.mod_pos_bound; lia|].
  rewrite Em. set (s := phi t0 + phi x * phi b0). set (i := phi I) in *. set (p := phi p0) in *.
  rewrite <- Z.add_mod_idemp_r by discriminate. rewrite Z.mul_mod_idemp_l by discriminate.
  rewrite Z.add_mod_idemp_r by discriminate.
  replace (s + s * i * p) with (s * (p * i + 1)) by ring.
  rewrite <- Z.mul_mod_idemp_r by discriminate. rewrite HI, Z.mul_0_r. reflexivity.
Qed.

Lemma mm_spec n P I k : (2 <= k)%nat -> length P = k -> bounded B P -> valL P = n ->
  (phi (hd 0%uint63 P) * phi I + 1) mod B = 0 ->
  forall a b t T, bounded B a -> length b = k -> bounded B b -> length t = k -> bounded T t ->
  T + Z.of_nat (length a) * 2 ^ 58 <= 2 ^ 63 ->
  length (mm P I a b t) = k /\
  bounded (T + Z.of_nat (length a) * 2 ^ 58) (mm P I a b t) /\
  exists q, valL (mm P I a b t) * B ^ Z.of_nat (length a) = valL t + valL a * valL b + q * n.
Proof.
  intros Hk LP BP VP HI. induction a as [|x a IH]; intros b t T Ba Lb Bb Lt Bt HT.
  - cbn [mm length valL] in *. split; [exact Lt|]. split.
    + rewrite Z.mul_0_l, Z.add_0_r. exact Bt.
    + exists 0. change (B ^ Z.of_nat 0) with 1. lia.
  - inversion Ba as [|? ? Hx Ba']; subst x0 l.
    destruct t as [|t0 t]; [cbn in Lt; lia|]. destruct b as [|b0 b]; [cbn in Lb; lia|].
    destruct P as [|p0 P]; [cbn in LP; lia|]. cbn [hd] in HI.
    cbn [mm]. cbv zeta.
    cbn [length] in HT. rewrite Nat2Z.inj_succ in HT.
    assert (Hb0 : phi b0 < B) by now inversion Bb.
    assert (Hp0 : phi p0 < B) by now inversion BP.
    assert (Ht0 : phi t0 < T) by now inversion Bt.
    destruct (row_head x I t0 b0 p0 T Hx Hb0 Hp0 Ht0 ltac:(lia) HI) as [Hm Hd].
    set (m := (((t0 + x * b0) * I) land M28)%uint63) in *.
    destruct (row_spec x m T Hx Hm ltac:(lia) (b0 :: b) (p0 :: P) (t0 :: t)) as (V & Bo & L); try congruence.
    assert (E0 : exists r0 r, row x m (b0 :: b) (p0 :: P) (t0 :: t) = r0 :: r /\
        phi r0 = phi t0 + phi x * phi b0 + phi m * phi p0).
    { cbn [row]. do 2 eexists. split; [reflexivity|].
      pose proof (phi_nn x). pose proof (phi_nn m). pose proof (phi_nn b0). pose proof (phi_nn p0). pose proof (phi_nn t0).
      assert (phi x * phi b0 <= 2 ^ 56 - 1) by nia. assert (phi m * phi p0 <= 2 ^ 56 - 1) by nia.
      rewrite add_small; rewrite add_small; rewrite ?mul_small; lia. }
    destruct E0 as (r0 & r & Er & Er0). rewrite Er in *.
    destruct r as [|r1 r]; [cbn in L, Lt; lia|].
    inversion Bo as [|? ? Hr0 Bo']; subst x0 l. inversion Bo' as [|? ? Hr1 Bo'']; subst x0 l.
    assert (Hq : phi r0 = B * (phi r0 / B)).
    { rewrite Er0. rewrite (Z.div_mod (phi t0 + phi x * phi b0 + phi m * phi p0) B) at 1 by discriminate. lia. }
    assert (Hq35 : phi r0 / B < 2 ^ 35).
    { apply Z.div_lt_upper_bound; [lia|]. pose proof (phi_ub r0). lia. }
    assert (E1 : phi (r1 + (r0 >> 28)) = phi r1 + phi r0 / B).
    { rewrite add_small; rewrite shr28; lia. }
    destruct (IH (b0 :: b) ((r1 + (r0 >> 28))%uint63 :: r ++ [0%uint63]) (T + 2 ^ 58)) as (IL & IB & q & IV); auto.
    + cbn [length] in *. rewrite app_length. cbn [length]. lia.
    + constructor; [rewrite E1; lia|]. apply Forall_app. split.
      * eapply Forall_impl; [|exact Bo'']. cbn. intros; lia.
      * constructor; [|constructor]. change (phi 0) with 0. pose proof (phi_nn t0). lia.
    + lia.
    + split; [exact IL|]. split.
      * cbn [length]. rewrite Nat2Z.inj_succ. replace (T + Z.succ (Z.of_nat (length a)) * 2 ^ 58)
          with (T + 2 ^ 58 + Z.of_nat (length a) * 2 ^ 58) by ring. exact IB.
      * cbn [length]. rewrite Nat2Z.inj_succ, Z.pow_succ_r by lia.
        exists (phi m + B * q).
        cbn [valL] in IV. rewrite E1, valL_app in IV. cbn [valL] in IV. change (phi 0) with 0 in IV.
        cbn [valL] in V, VP |- *. rewrite <- VP.
        assert (F : B * (phi r1 + phi r0 / B + B * valL r) =
                    phi t0 + B * valL t + phi x * (phi b0 + B * valL b) + phi m * n).
        { rewrite <- VP. lia. }
        rewrite <- VP in IV, F.
        match type of IV with ?l * ?e = _ => transitivity (B * (l * e)); [ring|] end.
        rewrite IV. rewrite Z.mul_0_r, !Z.add_0_r. nia.
Qed.

Lemma carry_spec : forall l c T, bounded T l -> T + 2 ^ 35 <= 2 ^ 63 -> phi c < 2 ^ 35 ->
  let '(l', c') := carry c l in
  wf (length l) l' /\ valL l' + B ^ Z.of_nat (length l) * phi c' = phi c + valL l.
Proof.
  induction l as [|x l IH]; intros c T Hb HT Hc.
  - cbn [carry length valL]. split; [split; [reflexivity | constructor]|].
    change (B ^ Z.of_nat 0) with 1. lia.
  - cbn [carry]. inversion Hb as [|? ? Hx Hb']; subst.
    assert (E : phi (x + c) = phi x + phi c) by (apply add_small; lia).
    assert (H35 : phi ((x + c) >> 28) < 2 ^ 35).
    { rewrite shr28. apply Z.div_lt_upper_bound; [lia|]. pose proof (phi_ub (x + c)). lia. }
    specialize (IH _ T Hb' HT H35). destruct (carry ((x + c) >> 28) l) as [l' c'].
    destruct IH as [[L Bo] V]. split.
    + split; [cbn; now rewrite L|]. constructor; [|exact Bo]. rewrite land28. apply Z.mod_pos_bound; lia.
    + cbn [valL length]. rewrite Nat2Z.inj_succ, Z.pow_succ_r by lia.
      rewrite land28, E. rewrite shr28, E in V.
      pose proof (Z.div_mod (phi x + phi c) B ltac:(discriminate)). lia.
Qed.

Lemma toLslow_spec : forall k z, 0 <= z < B ^ Z.of_nat k -> wf k (toLslow k z) /\ valL (toLslow k z) = z.
Proof.
  induction k as [|k IH]; intros z Hz.
  - cbn [toLslow valL]. change (B ^ Z.of_nat 0) with 1 in Hz. split; [split; [reflexivity|constructor]|lia].
  - rewrite Nat2Z.inj_succ, Z.pow_succ_r in Hz by lia.
    destruct (IH (z / B)) as [[L Bo] V].
    { split; [apply Z.div_pos; lia | apply Z.div_lt_upper_bound; lia]. }
    assert (E : phi (of_Z (z mod B)) = z mod B).
    { rewrite of_Z_spec, wB_eq. apply Z.mod_small. pose proof (Z.mod_pos_bound z B ltac:(lia)). lia. }
    cbn [toLslow]. split.
    + split; [cbn; now rewrite L|]. constructor; [rewrite E; apply Z.mod_pos_bound; lia | exact Bo].
    + cbn [valL]. rewrite E, V. pose proof (Z.div_mod z B ltac:(discriminate)). lia.
Qed.

Section Correct.
Context (M : MP) (OK : mp_ok M = true).
Notation n := (mpn M). Notation k := (mpk M).

Lemma mp_facts :
  1 < n /\ (2 <= k <= 20)%nat /\ wf k (mpP M) /\ valL (mpP M) = n /\ n < Rk M /\ wf k (mpR2 M) /\
  (phi (hd 0%uint63 (mpP M)) * phi (mpI M) + 1) mod B = 0 /\
  Rk M * mpRi M mod n = 1 /\ valL (mpR2 M) * mpRi M mod n = Rk M mod n /\
  length (mpK M) = k /\ bounded (2 ^ 32) (mpK M) /\ valL (mpK M) mod n = 0.
Proof.
  pose proof OK as H. unfold mp_ok in H.
  repeat (let X := fresh "X" in apply andb_true_iff in H; destruct H as [H X]).
  apply Z.ltb_lt in H, X6. apply Nat.leb_le in X9, X10. apply wfb_wf in X5, X8.
  apply Z.eqb_eq in X, X2, X3, X4, X7. apply Nat.eqb_eq in X1.
  rewrite forallb_forall in X0.
  repeat split; auto; try apply X8; try apply X5.
  apply Forall_forall. intros x Hx. apply X0 in Hx. apply ltb_spec in Hx. exact Hx.
Qed.

Definition val (l : list int) : Fm n := ofZ n (valL l * mpRi M).

Lemma ofZ_cong a b q : a = b + q * n -> ofZ n a = ofZ n b.
Proof. intros ->. apply ofZ_eq. apply Z_mod_plus_full. Qed.

Lemma norm_spec l T : length l = k -> bounded T l -> T + 2 ^ 35 <= 2 ^ 63 ->
  wf k (norm M l) /\ exists q, valL (norm M l) = valL l + q * n.
Proof.
  intros L Bo HT. unfold norm.
  pose proof (carry_spec l 0%uint63 T Bo HT ltac:(reflexivity)) as H.
  destruct (carry 0 l) as [l' c]. destruct H as [W V]. rewrite L in W, V.
  change (phi 0) with 0 in V.
  destruct (c =? 0)%uint63 eqn:E.
  - apply eqb_spec in E. subst c. split; [exact W|]. exists 0.
    change (phi 0) with 0 in V. lia.
  - destruct mp_facts as (Hn & _ & _ & _ & HR & _).
    pose proof (Z.mod_pos_bound (valL l) n ltac:(lia)).
    destruct (toLslow_spec k (valL l mod n)) as [W' V'].
    { unfold Rk in HR. lia. }
    split; [exact W'|]. rewrite V'. exists (- (valL l / n)).
    pose proof (Z.div_mod (valL l) n ltac:(lia)). lia.
Qed.

Lemma bounded_le T T' l : T <= T' -> bounded T l -> bounded T' l.
Proof. intros H. apply Forall_impl. intros; lia. Qed.

Lemma mmul_spec a b : wf k a -> wf k b -> wf k (mmul M a b) /\ val (mmul M a b) = fmul (val a) (val b).
Proof.
  intros [La Ba] [Lb Bb]. unfold mmul.
  destruct mp_facts as (Hn & Hk & [LP BP] & VP & HR & _ & HI & HRi & _).
  assert (Lz : length (zeros k) = k) by apply repeat_length.
  assert (Bz : bounded 1 (zeros k)).
  { apply Forall_forall. intros x Hx. apply repeat_spec in Hx. subst x. reflexivity. }
  destruct (mm_spec n (mpP M) (mpI M) k ltac:(lia) LP BP VP HI a b (zeros k) 1 Ba Lb Bb Lz Bz) as (L & Bo & q & V).
  { rewrite La. assert (Z.of_nat k <= 20) by lia. nia. }
  assert (HT : 1 + Z.of_nat (length a) * 2 ^ 58 <= 2 ^ 63 - 2 ^ 35).
  { rewrite La. assert (Z.of_nat k <= 20) by lia. nia. }
  destruct (norm_spec _ _ L Bo ltac:(lia)) as (W & q' & V'). split; [exact W|].
  rewrite La, valL_zeros in V. fold (Rk M) in V.
  unfold val. rewrite <- ofZ_mul.
  set (v := valL (norm M _)) in *. set (w := valL (mm _ _ _ _ _)) in *.
  set (A := valL a) in *. set (Bv := valL b) in *. set (R := Rk M) in *. set (i := mpRi M) in *.
  assert (ER : exists c, R * i = 1 + c * n).
  { exists (R * i / n). pose proof (Z.div_mod (R * i) n ltac:(lia)). lia. }
  destruct ER as [c Hc].
  (* v i = (w + q' n) i ; w R = A B + q n *)
  apply (ofZ_cong _ _ (q' * i - w * i * c + q * i * i)).
  transitivity (w * i * (R * i) - w * i * c * n + q' * n * i); [rewrite Hc, V'; ring|].
  replace (w * i * (R * i)) with ((w * R) * i * i) by ring. rewrite V. ring.
Qed.

Lemma map2_add_spec : forall a b, length a = length b -> bounded B a -> bounded B b ->
  length (map2 Uint63.add a b) = length a /\ bounded (2 ^ 30) (map2 Uint63.add a b) /\
  valL (map2 Uint63.add a b) = valL a + valL b.
Proof.
  induction a as [|x a IH]; intros [|y b] L Ba Bb; try discriminate.
  - repeat split; constructor.
  - injection L as L. inversion Ba; subst. inversion Bb; subst.
    destruct (IH b L) as (L' & Bo & V); auto.
    assert (E : phi (x + y) = phi x + phi y) by (apply add_small; lia).
    cbn [map2 length valL]. rewrite L', V, E. repeat split; [|lia].
    constructor; [rewrite E; lia | exact Bo].
Qed.
Lemma madd_spec a b : wf k a -> wf k b -> wf k (madd M a b) /\ val (madd M a b) = fadd (val a) (val b).
Proof.
  intros [La Ba] [Lb Bb]. unfold madd.
  destruct (map2_add_spec a b ltac:(congruence) Ba Bb) as (L & Bo & V).
  destruct (norm_spec (map2 Uint63.add a b) (2 ^ 30)) as (W & q & V'); [congruence|exact Bo|lia|].
  split; [exact W|]. unfold val. rewrite <- ofZ_add. apply (ofZ_cong _ _ (q * mpRi M)).
  rewrite V', V. ring.
Qed.
Lemma subK_spec : forall K a b r, bounded (2 ^ 32) K -> bounded B a -> subK K a b = Some r ->
  length r = length a /\ bounded (2 ^ 33) r /\ valL r = valL K + valL a - valL b.
Proof.
  induction K as [|c K IH]; intros [|x a] [|y b] r BK Ba H; try discriminate H.
  - injection H as <-. repeat split. constructor.
  - cbn [subK] in H. destruct (y <=? c)%uint63 eqn:E; [|discriminate].
    destruct (subK K a b) as [r'|] eqn:E'; [|discriminate]. injection H as <-.
    inversion BK; subst. inversion Ba; subst. destruct (IH _ _ _ ltac:(eassumption) ltac:(eassumption) E') as (L & Bo & V).
    apply leb_spec in E. pose proof (phi_nn y). pose proof (phi_nn c). pose proof (phi_nn x).
    assert (E1 : phi (c - y) = phi c - phi y).
    { rewrite sub_spec, wB_eq. apply Z.mod_small. lia. }
    assert (E2 : phi (x + (c - y)) = phi x + (phi c - phi y)) by (rewrite add_small; lia).
    cbn [length valL]. rewrite L, E2, V. repeat split; [|lia].
    constructor; [rewrite E2; lia | exact Bo].
Qed.
Lemma msub_spec a b : wf k a -> wf k b -> wf k (msub M a b) /\ val (msub M a b) = fsub (val a) (val b).
Proof.
  intros [La Ba] [Lb Bb]. unfold msub.
  destruct mp_facts as (Hn & Hk & _ & _ & HR & _ & _ & _ & _ & LK & BK & VK).
  destruct (subK (mpK M) a b) as [r|] eqn:E.
  - destruct (subK_spec _ _ _ _ BK Ba E) as (L & Bo & V).
    destruct (norm_spec r (2 ^ 33)) as (W & q & V'); [congruence|exact Bo|lia|].
    split; [exact W|]. unfold val. rewrite <- ofZ_sub.
    apply (ofZ_cong _ _ ((q + valL (mpK M) / n) * mpRi M)).
    rewrite V', V. pose proof (Z.div_mod (valL (mpK M)) n ltac:(lia)) as D. rewrite VK in D. nia.
  - pose proof (Z.mod_pos_bound (valL a - valL b) n ltac:(lia)).
    destruct (toLslow_spec k ((valL a - valL b) mod n)) as [W V].
    { unfold Rk in HR. lia. }
    split; [exact W|]. unfold val. rewrite V, <- ofZ_sub.
    apply (ofZ_cong _ _ (- ((valL a - valL b) / n) * mpRi M)).
    pose proof (Z.div_mod (valL a - valL b) n ltac:(lia)) as D. nia.
Qed.

Lemma limbs_spec z : 0 <= z < Rk M -> wf k (limbs k z) /\ valL (limbs k z) = z.
Proof.
  intros Hz. unfold limbs. cbv zeta.
  destruct (wfb k (pad k (rawL z)) && (valL (pad k (rawL z)) =? z)) eqn:E.
  - apply andb_true_iff in E. destruct E as [E1 E2]. split; [now apply wfb_wf | now apply Z.eqb_eq].
  - apply toLslow_spec. exact Hz.
Qed.
Lemma inM_spec z : 0 <= z < Rk M -> wf k (inM M z) /\ val (inM M z) = ofZ n z.
Proof.
  intros Hz. destruct (limbs_spec z Hz) as [W V].
  destruct mp_facts as (Hn & _ & _ & _ & _ & W2 & _ & HRi & HR2 & _).
  unfold inM. destruct (mmul_spec _ _ W W2) as [W' E]. split; [exact W'|].
  rewrite E. unfold val. rewrite V, <- ofZ_mul.
  pose proof (Z.div_mod (Rk M * mpRi M) n ltac:(lia)) as D1. rewrite HRi in D1.
  pose proof (Z.div_mod (valL (mpR2 M) * mpRi M) n ltac:(lia)) as D2. rewrite HR2 in D2.
  pose proof (Z.div_mod (Rk M) n ltac:(lia)) as D3.
  set (c1 := Rk M * mpRi M / n) in *. set (c2 := valL (mpR2 M) * mpRi M / n) in *. set (c3 := Rk M / n) in *.
  apply (ofZ_cong _ _ (z * (c1 + mpRi M * (c2 - c3)))).
  replace (z * mpRi M * (valL (mpR2 M) * mpRi M)) with (z * (mpRi M * (valL (mpR2 M) * mpRi M))) by ring.
  rewrite D2. replace (Rk M mod n) with (Rk M - n * c3) by lia.
  replace (z * (mpRi M * (n * c2 + (Rk M - n * c3)))) with (z * (Rk M * mpRi M) + z * mpRi M * (c2 - c3) * n) by ring.
  rewrite D1. ring.
Qed.
Lemma oneL_spec : wf k (oneL k) /\ valL (oneL k) = 1.
Proof.
  destruct mp_facts as (_ & Hk & _). destruct k as [|j]; [lia|]. cbn [oneL valL]. split.
  - split; [cbn; unfold zeros; now rewrite repeat_length|]. constructor; [reflexivity|].
    apply Forall_forall. intros x Hx. apply repeat_spec in Hx. subst x. reflexivity.
  - rewrite valL_zeros. reflexivity.
Qed.
Lemma outM_spec l : wf k l -> outM M l = fval (val l).
Proof.
  intros W. destruct oneL_spec as [W1 V1]. unfold outM. destruct (mmul_spec l (oneL k) W W1) as [W' E].
  destruct mp_facts as (Hn & _ & _ & _ & _ & _ & _ & HRi & _).
  (* val m = val l * Ri, so valL m = valL l * Ri *)
  unfold val in E at 1. apply (f_equal (fun x => fmul x (ofZ n (Rk M)))) in E.
  rewrite <- ofZ_mul in E. unfold val in E at 2. rewrite V1 in E.
  pose proof (Z.div_mod (Rk M * mpRi M) n ltac:(lia)) as D1. rewrite HRi in D1.
  set (c1 := Rk M * mpRi M / n) in *.
  rewrite (ofZ_cong (valL (mmul M l (oneL k)) * mpRi M * Rk M) (valL (mmul M l (oneL k))) (valL (mmul M l (oneL k)) * c1)) in E.
  - transitivity (fval (ofZ n (valL (mmul M l (oneL k))))); [reflexivity|]. rewrite E.
    unfold val. rewrite <- !ofZ_mul. f_equal.
    apply (ofZ_cong _ _ (valL l * mpRi M * c1)).
    replace (valL l * mpRi M * (1 * mpRi M) * Rk M) with (valL l * mpRi M * (Rk M * mpRi M)) by ring.
    rewrite D1. ring.
  - replace (valL (mmul M l (oneL k)) * mpRi M * Rk M) with (valL (mmul M l (oneL k)) * (Rk M * mpRi M)) by ring.
    rewrite D1. ring.
Qed.

(** a limb vector together with what it stands for *)
Definition stands (l : list int) (x : Fm n) : Prop := wf k l /\ val l = x.
Lemma st_mul a b x y : stands a x -> stands b y -> stands (mmul M a b) (fmul x y).
Proof. intros [W1 <-] [W2 <-]. now apply mmul_spec. Qed.
Lemma st_add a b x y : stands a x -> stands b y -> stands (madd M a b) (fadd x y).
Proof. intros [W1 <-] [W2 <-]. now apply madd_spec. Qed.
Lemma st_sub a b x y : stands a x -> stands b y -> stands (msub M a b) (fsub x y).
Proof. intros [W1 <-] [W2 <-]. now apply msub_spec. Qed.
Lemma st_in z : 0 <= z < n -> stands (inM M z) (ofZ n z).
Proof. intros H. apply inM_spec. destruct mp_facts as (_ & _ & _ & _ & HR & _). lia. Qed.
Lemma st_out l x : stands l x -> fval x = outM M l.
Proof. intros [W <-]. symmetry. now apply outM_spec. Qed.
Lemma st_out_eq l x y : stands l x -> outM M l = fval y -> x = y.
Proof. intros S H. apply fval_inj. rewrite <- H. now apply st_out. Qed.
Lemma st_pow a x e o : stands a x -> stands o (f1 n) -> stands (npow o (mmul M) a e) (fpow x e).
Proof.
  intros Ha Ho. destruct e as [|e]; [exact Ho|]. cbn [npow].
  induction e as [e IH|e IH|]; cbn [ppow]; [| |exact Ha]; repeat apply st_mul; assumption.
Qed.
End Correct.

(** ** fast checking of Pocklington certificates and trial division *)
From Coq Require Import Znumtheory.

Definition pock_fast (M : MP) (q a k u : Z) : bool :=
  let n := mpn M in
  (n - 1 =? k * q) && (0 <? k) && (0 <? q) && ((0 <=? a) && (a <? n)) && ((0 <=? u) && (u <? n)) &&
  let o := inM M 1 in
  let b := npow o (mmul M) (inM M a) (Z.to_N k) in
  (outM M (npow o (mmul M) b (Z.to_N q)) =? 1) && (outM M (mmul M (msub M b o) (inM M u)) =? 1).

Lemma pock_inv n (x : Fm n) u : 1 < n -> fval (fmul (fsub x (f1 n)) (ofZ n u)) = 1 -> Bezout n (fval x - 1) 1.
Proof.
  intros Hn H. rewrite fval_mul, fval_sub in H. unfold f1 in H. rewrite !fval_ofZ in H.
  rewrite <- Zmult_mod in H. rewrite <- Zmult_mod_idemp_l in H.
  rewrite Zminus_mod_idemp_r, Zmult_mod_idemp_l in H.
  pose proof (Z.div_mod ((fval x - 1) * u) n ltac:(lia)) as D. rewrite H in D.
  apply (Bezout_intro _ _ _ (- ((fval x - 1) * u / n)) u). lia.
Qed.
Lemma pock_fast_ok M q a k u : mp_ok M = true -> pock_fast M q a k u = true -> pock_check (mpn M) q a = true.
Proof.
  intros OK H. destruct (mp_facts M OK) as (Hn & _).
  set (n := mpn M) in *. unfold pock_fast in H. fold n in H. cbv zeta in H.
  rewrite !andb_true_iff in H.
  destruct H as (((((H1 & H2) & H3) & H4) & H5) & H6 & H7).
  apply Z.eqb_eq in H1, H6, H7. apply Z.ltb_lt in H2, H3.
  rewrite Z.leb_le, Z.ltb_lt in H4, H5.
  assert (So : stands M (inM M 1) (f1 n)) by (apply (st_in M OK); fold n; lia).
  assert (Sa : stands M (inM M a) (ofZ n a)) by (apply (st_in M OK); fold n; lia).
  assert (Su : stands M (inM M u) (ofZ n u)) by (apply (st_in M OK); fold n; lia).
  pose proof (st_pow M OK _ _ (Z.to_N k) _ Sa So) as Sb.
  set (lb := npow (inM M 1) (mmul M) (inM M a) (Z.to_N k)) in *.
  pose proof (st_pow M OK _ _ (Z.to_N q) _ Sb So) as Sq.
  pose proof (st_mul M OK _ _ _ _ (st_sub M OK _ _ _ _ Sb So) Su) as Sg.
  apply (st_out M OK) in Sq, Sg. rewrite H6 in Sq. rewrite H7 in Sg. fold n in Sq, Sg.
  unfold pock_check.
  assert (Ek : (n - 1) / q = k) by (rewrite H1; apply Z.div_mul; lia).
  rewrite Ek. rewrite !andb_true_iff. repeat split.
  - now apply Z.eqb_eq.
  - now apply Z.ltb_lt.
  - apply feqb_eq. rewrite H1, Z2N.inj_mul by lia. rewrite (npow_mul _ _ _ _ _ _ Fm_rt).
    apply fval_inj. unfold n in *. rewrite Sq. unfold f1. rewrite fval_ofZ. symmetry. apply Z.mod_small. lia.
  - apply Z.eqb_eq, Zgcd_1_rel_prime. apply rel_prime_sym, bezout_rel_prime.
    apply (pock_inv n _ u); [lia | exact Sg].
Qed.

Fixpoint no_divI (n d : int) (k : nat) : bool :=
  match k with O => true | S k' => negb (n mod d =? 0)%uint63 && no_divI n (d + 1)%uint63 k' end.
Definition trialI (n s : Z) : bool :=
  (1 <? n) && (n <? 2 ^ 62) && (n <? (s + 1) * (s + 1)) && (0 <? s) && (s <? 2 ^ 40) &&
  no_divI (of_Z n) 2%uint63 (Z.to_nat (s - 1)).
Lemma no_divI_spec n k : 0 <= n < 2 ^ 63 -> forall d, 0 < phi d -> phi d + Z.of_nat k < 2 ^ 63 ->
  no_divI (of_Z n) d k = true -> no_div n (phi d) k = true.
Proof.
  intros Hn. induction k as [|k IH]; intros d Hd Hk H; [reflexivity|].
  cbn [no_divI] in H. apply andb_true_iff in H. destruct H as [H1 H2].
  cbn [no_div]. apply andb_true_iff. split.
  - apply negb_true_iff in H1. apply negb_true_iff. apply Z.eqb_neq. intros E.
    apply not_true_iff_false in H1. apply H1. apply eqb_spec. apply to_Z_inj.
    rewrite mod_spec, of_Z_spec, wB_eq, (Z.mod_small n) by lia. exact E.
  - assert (E : phi (d + 1) = phi d + 1).
    { rewrite add_small; change (phi 1) with 1; lia. }
    rewrite <- E. apply IH; rewrite ?E; auto; lia.
Qed.
Lemma trialI_prime n s : trialI n s = true -> prime n.
Proof.
  unfold trialI. rewrite !andb_true_iff, !Z.ltb_lt. intros (((((H1 & H2) & H3) & H4) & H5) & H6).
  apply (trial_prime n s). unfold trial. rewrite !andb_true_iff, !Z.ltb_lt. repeat split; auto.
  change 2 with (phi 2%uint63). apply no_divI_spec; auto; change (phi 2) with 2; lia.
Qed.
