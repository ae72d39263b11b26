(** Proofs for C35: the table of precomputed lines is the one produced by the
    generic step functions from the G2 generator, hence the fixed-argument
    loops agree with the generic one. *)
From Coq Require Import ZArith List Bool Lia Ring Field Uint63.
From Verif Require Import Params ZMod RingPow FastMod FastParams Circuit Api Emulated Tower TowerSpec FieldFacts FastTower TowerFacts ApiFacts TowerProofs CurveSpec PrecompTable Pairing MillerProofs.
Import ListNotations.
Open Scope Z_scope.

(** The standard generator of G2 (IETF draft-irtf-cfrg-pairing-friendly-curves,
    section 4.2.1; bls12381.Generators() in gnark-crypto). *)
Definition G2gen : G2Affine := mkG2
  (mkE2 (fpZ 0x024aa2b2f08f0a91260805272dc51051c6e47ad4fa403b02b4510b647ae3d1770bac0326a805bbefd48056c8c121bdb8)
        (fpZ 0x13e02b6052719f607dacd3a088274f65596bd0d09920b61ab5da61bbdc7f5049334cf11213945d57e5ac7d055d042b7e))
  (mkE2 (fpZ 0x0ce5d527727d6e118cc9cdc6da2e351aadfd9baa8cbdd3a76d429a695160d12c923ac9cc3baca289e193548608b82801)
        (fpZ 0x0606c4a02ea734cc32acd2b02bc28b99cb3e287e85a763af267492ab572e99ab3f370d275cec1da1aaa9075ff05f79be)).

Definition toL2 (e : E2) : L2 := (inM MPp (fval (A0 e)), inM MPp (fval (A1 e))).
Lemma toL2_ok e : stands2 (toL2 e) e.
Proof.
  assert (H : forall x : Fp, standsP (inM MPp (fval x)) x).
  { intros x. assert (R : 0 <= fval x < pBLS) by (rewrite <- (fval_mod x); apply Z.mod_pos_bound; reflexivity).
    replace x with (ofZ pBLS (fval x)) at 2 by (apply ofZ_fval).
    apply (st_in MPp MPp_ok). exact R. }
  destruct e as [a b]. split; apply H.
Qed.

Lemma div_det x y z : y <> E2_Zero -> E2_Mul z y = x -> determ (E2_DivUnchecked x y) z.
Proof.
  intros N E. replace z with (E2_div x y); [now apply determ_E2_Div|].
  apply (E2_cancel y); [exact N|]. subst x. unfold E2_div.
  transitivity (E2_Mul (E2_Mul z y) (E2_Mul (E2_inv y) y)); [ring|]. rewrite E2_inv_l by exact N. ring.
Qed.

(** ** expected lines, as determinism statements on the model *)
Definition tline (a b i : nat) (l : lineEvaluation) : Prop :=
  PrecomputedLines a i = Some (R0 l) /\ PrecomputedLines b i = Some (R1 l).

Definition goodD (i : nat) (t t' : G2Affine) : Prop :=
  exists l, tline 0 1 i l /\ determ (doubleStep t) (t', l) /\ determ (tangentCompute t) l.
Definition goodA (i : nat) (t t' : G2Affine) : Prop :=
  exists l1 l2, tline 0 1 i l1 /\ tline 2 3 i l2 /\ determ (doubleAndAddStep t G2gen) (t', l1, l2).
Definition goodT (i : nat) (t t' : G2Affine) : Prop :=
  exists l1 l2, tline 0 1 i l1 /\ tline 2 3 i l2 /\ determ (tripleStep t) (t', l1, l2).
Definition goodI (i : nat) (t t' : G2Affine) : Prop :=
  if Z.eqb (nth i loopCounter 0) 0 then goodD i t t' else goodA i t t'.
Fixpoint goods (L : list nat) (t : G2Affine) : Prop :=
  match L with
  | [] => True
  | i :: L => exists t', goodI i t t' /\ goods L t'
  end.

(** ** limb-level checker *)
Definition LP : Set := (L2 * L2)%type.
Definition standsG (T : LP) (t : G2Affine) : Prop := stands2 (fst T) (g2X t) /\ stands2 (snd T) (g2Y t).
Definition tabL (a i : nat) : option L2 := option_map toL2 (PrecomputedLines a i).

Definition chkD (i : nat) (T : LP) : option LP :=
  match tabL 0 i, tabL 1 i with
  | Some r0, Some r1 =>
    let x := fst T in let y := snd T in
    let l := l2sub l2zero r0 in
    let y2 := l2add y y in
    let xx := l2mul x x in
    let X := l2sub (l2sub (l2mul l l) x) x in
    let Y := l2sub (l2mul l (l2sub x X)) y in
    if l2eq (l2mul l y2) (l2add (l2add xx xx) xx) && negb (l2eq y2 l2zero)
       && l2eq r1 (l2sub (l2mul l x) y)
    then Some (X, Y) else None
  | _, _ => None
  end.
Definition chkA (G : LP) (i : nat) (T : LP) : option LP :=
  match tabL 0 i, tabL 1 i, tabL 2 i, tabL 3 i with
  | Some r0, Some r1, Some r2, Some r3 =>
    let x := fst T in let y := snd T in
    let l := l2sub l2zero r0 in
    let l' := l2sub l2zero r2 in
    let d := l2sub x (fst G) in
    let x3 := l2sub (l2sub (l2mul l l) x) (fst G) in
    let d' := l2sub x3 x in
    let m := l2sub l2zero (l2add l' l) in
    let X := l2sub (l2sub (l2mul l' l') x) x3 in
    let Y := l2sub (l2mul l' (l2sub x X)) y in
    if l2eq (l2mul l d) (l2sub y (snd G)) && negb (l2eq d l2zero)
       && l2eq (l2mul m d') (l2add y y) && negb (l2eq d' l2zero)
       && l2eq r1 (l2sub (l2mul l x) y) && l2eq r3 (l2sub (l2mul l' x) y)
    then Some (X, Y) else None
  | _, _, _, _ => None
  end.
Definition chkT (i : nat) (T : LP) : option LP :=
  match tabL 0 i, tabL 1 i, tabL 2 i, tabL 3 i with
  | Some r0, Some r1, Some r2, Some r3 =>
    let x := fst T in let y := snd T in
    let l := l2sub l2zero r0 in
    let l' := l2sub l2zero r2 in
    let y2 := l2add y y in
    let xx := l2mul x x in
    let x2 := l2sub (l2sub (l2mul l l) x) x in
    let d' := l2sub x x2 in
    let m := l2add l' l in
    let X := l2sub (l2sub (l2mul l' l') x) x2 in
    let Y := l2sub (l2mul l' (l2sub x X)) y in
    if l2eq (l2mul l y2) (l2add (l2add xx xx) xx) && negb (l2eq y2 l2zero)
       && l2eq (l2mul m d') y2 && negb (l2eq d' l2zero)
       && l2eq r1 (l2sub (l2mul l x) y) && l2eq r3 (l2sub (l2mul l' x) y)
    then Some (X, Y) else None
  | _, _, _, _ => None
  end.
Fixpoint chkL (G : LP) (L : list nat) (T : LP) : bool :=
  match L with
  | [] => true
  | i :: L =>
    match (if Z.eqb (nth i loopCounter 0) 0 then chkD i T else chkA G i T) with
    | Some T' => chkL G L T'
    | None => false
    end
  end.
Definition chkAll (G : LP) : bool :=
  match chkT 62 G with Some T => chkL G fixedRange T | None => false end.

Lemma tabL_inv a i r : tabL a i = Some r -> exists e, PrecomputedLines a i = Some e /\ stands2 r e.
Proof.
  unfold tabL. destruct (PrecomputedLines a i) as [e|]; [|discriminate].
  cbn [option_map]. intros [= <-]. exists e. split; [reflexivity | apply toL2_ok].
Qed.
Lemma neg0 x : E2_Sub E2_Zero (E2_Sub E2_Zero x) = x. Proof. ring. Qed.
Lemma neg0' x : E2_Neg (E2_Sub E2_Zero x) = x. Proof. ring. Qed.

Lemma three_x x : E2_Mul (E2_Mul x x) (E2_Add (E2_Add E2_One E2_One) E2_One)
  = E2_Add (E2_Add (E2_Mul x x) (E2_Mul x x)) (E2_Mul x x).
Proof. ring. Qed.

Lemma chkD_ok i T T' t : chkD i T = Some T' -> standsG T t ->
  exists t', standsG T' t' /\ goodD i t t'.
Proof.
  unfold chkD. intros H [Sx Sy].
  destruct (tabL 0 i) as [r0|] eqn:E0; [|discriminate].
  destruct (tabL 1 i) as [r1|] eqn:E1; [|discriminate].
  apply tabL_inv in E0, E1. destruct E0 as (e0 & P0 & S0), E1 as (e1 & P1 & S1).
  cbv zeta in H.
  match type of H with (if ?c && ?d && ?e then _ else _) = _ =>
    destruct c eqn:B1; [|discriminate]; destruct d eqn:B2; [|discriminate]; destruct e eqn:B3; [|discriminate] end.
  cbn [andb] in H. injection H as <-.
  pose proof (st2_sub _ _ _ _ st2_zero S0) as Sl.
  pose proof (neg0' e0) as NL. set (l := E2_Sub E2_Zero e0) in *.
  pose proof (l2eq_ok _ _ _ _ (st2_mul _ _ _ _ Sl (st2_add _ _ _ _ Sy Sy))
     (st2_add _ _ _ _ (st2_add _ _ _ _ (st2_mul _ _ _ _ Sx Sx) (st2_mul _ _ _ _ Sx Sx)) (st2_mul _ _ _ _ Sx Sx)) B1) as K1.
  apply negb_true_iff in B2.
  pose proof (l2neq_ok _ _ _ _ (st2_add _ _ _ _ Sy Sy) st2_zero B2) as K2.
  pose proof (l2eq_ok _ _ _ _ S1 (st2_sub _ _ _ _ (st2_mul _ _ _ _ Sl Sx) Sy) B3) as K3.
  pose proof (st2_sub _ _ _ _ (st2_sub _ _ _ _ (st2_mul _ _ _ _ Sl Sl) Sx) Sx) as SX.
  pose proof (st2_sub _ _ _ _ (st2_mul _ _ _ _ Sl (st2_sub _ _ _ _ Sx SX)) Sy) as SY.
  eexists (mkG2 _ _). split; [split; [exact SX | exact SY]|].
  exists (mkLine e0 e1). split; [split; assumption|].
  split.
  - unfold doubleStep. eapply determ_bind.
    + apply (div_det _ _ l); rewrite E2_Double_eq; [exact K2|].
      rewrite E2_MulByConstElement_eq, three_e2, E2_Square_eq, three_x. exact K1.
    + rewrite !E2_Square_eq, <- K3, NL. apply determ_ret.
  - unfold tangentCompute. eapply determ_bind.
    + apply (div_det _ _ l); rewrite E2_Double_eq; [exact K2|].
      rewrite E2_MulByConstElement_eq, three_e2, E2_Square_eq, three_x. exact K1.
    + rewrite <- K3, NL. apply determ_ret.
Qed.

Lemma chkA_ok G i T T' t : chkA G i T = Some T' -> standsG G G2gen -> standsG T t ->
  exists t', standsG T' t' /\ goodA i t t'.
Proof.
  unfold chkA. intros H [Gx Gy] [Sx Sy].
  destruct (tabL 0 i) as [r0|] eqn:E0; [|discriminate].
  destruct (tabL 1 i) as [r1|] eqn:E1; [|discriminate].
  destruct (tabL 2 i) as [r2|] eqn:E2; [|discriminate].
  destruct (tabL 3 i) as [r3|] eqn:E3; [|discriminate].
  apply tabL_inv in E0, E1, E2, E3. destruct E0 as (e0 & P0 & S0), E1 as (e1 & P1 & S1), E2 as (e2 & P2 & S2), E3 as (e3 & P3 & S3).
  cbv zeta in H.
  match type of H with (if ?c && ?d && ?e && ?f && ?g && ?h then _ else _) = _ =>
    destruct c eqn:B1; [|discriminate]; destruct d eqn:B2; [|discriminate]; destruct e eqn:B3; [|discriminate];
    destruct f eqn:B4; [|discriminate]; destruct g eqn:B5; [|discriminate]; destruct h eqn:B6; [|discriminate] end.
  cbn [andb] in H. injection H as <-.
  pose proof (st2_sub _ _ _ _ st2_zero S0) as Sl.
  pose proof (st2_sub _ _ _ _ st2_zero S2) as Sl'.
  pose proof (neg0' e0) as NL. pose proof (neg0' e2) as NL'.
  set (l := E2_Sub E2_Zero e0) in *. set (l' := E2_Sub E2_Zero e2) in *.
  pose proof (st2_sub _ _ _ _ Sx Gx) as Sd.
  pose proof (st2_sub _ _ _ _ (st2_sub _ _ _ _ (st2_mul _ _ _ _ Sl Sl) Sx) Gx) as S3x.
  pose proof (st2_sub _ _ _ _ S3x Sx) as Sd'.
  pose proof (st2_sub _ _ _ _ st2_zero (st2_add _ _ _ _ Sl' Sl)) as Sm.
  pose proof (st2_sub _ _ _ _ (st2_sub _ _ _ _ (st2_mul _ _ _ _ Sl' Sl') Sx) S3x) as SX.
  pose proof (st2_sub _ _ _ _ (st2_mul _ _ _ _ Sl' (st2_sub _ _ _ _ Sx SX)) Sy) as SY.
  pose proof (l2eq_ok _ _ _ _ (st2_mul _ _ _ _ Sl Sd) (st2_sub _ _ _ _ Sy Gy) B1) as K1.
  apply negb_true_iff in B2, B4.
  pose proof (l2neq_ok _ _ _ _ Sd st2_zero B2) as K2.
  pose proof (l2eq_ok _ _ _ _ (st2_mul _ _ _ _ Sm Sd') (st2_add _ _ _ _ Sy Sy) B3) as K3.
  pose proof (l2neq_ok _ _ _ _ Sd' st2_zero B4) as K4.
  pose proof (l2eq_ok _ _ _ _ S1 (st2_sub _ _ _ _ (st2_mul _ _ _ _ Sl Sx) Sy) B5) as K5.
  pose proof (l2eq_ok _ _ _ _ S3 (st2_sub _ _ _ _ (st2_mul _ _ _ _ Sl' Sx) Sy) B6) as K6.
  clear B1 B2 B3 B4 B5 B6.
  eexists (mkG2 _ _). split; [split; [exact SX | exact SY]|].
  exists (mkLine e0 e1), (mkLine e2 e3). split; [split; assumption|]. split; [split; assumption|].
  clearbody l l'.
  unfold doubleAndAddStep. cbv zeta.
  eapply determ_bind; [apply (div_det _ _ l); [exact K2 | exact K1]|]. rewrite ?E2_Square_eq, ?E2_Double_eq.
  eapply determ_bind.
  { apply (div_det _ _ (E2_Sub E2_Zero (E2_Add l' l))); [exact K4 | exact K3]. }
  replace (E2_Neg (E2_Add (E2_Sub E2_Zero (E2_Add l' l)) l)) with l' by ring.
  rewrite ?E2_Square_eq, <- K5, <- K6, NL, NL'. apply determ_ret.
Qed.

Lemma chkT_ok i T T' t : chkT i T = Some T' -> standsG T t ->
  exists t', standsG T' t' /\ goodT i t t'.
Proof.
  unfold chkT. intros H [Sx Sy].
  destruct (tabL 0 i) as [r0|] eqn:E0; [|discriminate].
  destruct (tabL 1 i) as [r1|] eqn:E1; [|discriminate].
  destruct (tabL 2 i) as [r2|] eqn:E2; [|discriminate].
  destruct (tabL 3 i) as [r3|] eqn:E3; [|discriminate].
  apply tabL_inv in E0, E1, E2, E3. destruct E0 as (e0 & P0 & S0), E1 as (e1 & P1 & S1), E2 as (e2 & P2 & S2), E3 as (e3 & P3 & S3).
  cbv zeta in H.
  match type of H with (if ?c && ?d && ?e && ?f && ?g && ?h then _ else _) = _ =>
    destruct c eqn:B1; [|discriminate]; destruct d eqn:B2; [|discriminate]; destruct e eqn:B3; [|discriminate];
    destruct f eqn:B4; [|discriminate]; destruct g eqn:B5; [|discriminate]; destruct h eqn:B6; [|discriminate] end.
  cbn [andb] in H. injection H as <-.
  pose proof (st2_sub _ _ _ _ st2_zero S0) as Sl.
  pose proof (st2_sub _ _ _ _ st2_zero S2) as Sl'.
  pose proof (neg0' e0) as NL. pose proof (neg0' e2) as NL'.
  set (l := E2_Sub E2_Zero e0) in *. set (l' := E2_Sub E2_Zero e2) in *.
  pose proof (st2_sub _ _ _ _ (st2_sub _ _ _ _ (st2_mul _ _ _ _ Sl Sl) Sx) Sx) as S2x.
  pose proof (st2_sub _ _ _ _ Sx S2x) as Sd'.
  pose proof (st2_add _ _ _ _ Sl' Sl) as Sm.
  pose proof (st2_sub _ _ _ _ (st2_sub _ _ _ _ (st2_mul _ _ _ _ Sl' Sl') Sx) S2x) as SX.
  pose proof (st2_sub _ _ _ _ (st2_mul _ _ _ _ Sl' (st2_sub _ _ _ _ Sx SX)) Sy) as SY.
  pose proof (l2eq_ok _ _ _ _ (st2_mul _ _ _ _ Sl (st2_add _ _ _ _ Sy Sy))
     (st2_add _ _ _ _ (st2_add _ _ _ _ (st2_mul _ _ _ _ Sx Sx) (st2_mul _ _ _ _ Sx Sx)) (st2_mul _ _ _ _ Sx Sx)) B1) as K1.
  apply negb_true_iff in B2, B4.
  pose proof (l2neq_ok _ _ _ _ (st2_add _ _ _ _ Sy Sy) st2_zero B2) as K2.
  pose proof (l2eq_ok _ _ _ _ (st2_mul _ _ _ _ Sm Sd') (st2_add _ _ _ _ Sy Sy) B3) as K3.
  pose proof (l2neq_ok _ _ _ _ Sd' st2_zero B4) as K4.
  pose proof (l2eq_ok _ _ _ _ S1 (st2_sub _ _ _ _ (st2_mul _ _ _ _ Sl Sx) Sy) B5) as K5.
  pose proof (l2eq_ok _ _ _ _ S3 (st2_sub _ _ _ _ (st2_mul _ _ _ _ Sl' Sx) Sy) B6) as K6.
  clear B1 B2 B3 B4 B5 B6.
  eexists (mkG2 _ _). split; [split; [exact SX | exact SY]|].
  exists (mkLine e0 e1), (mkLine e2 e3). split; [split; assumption|]. split; [split; assumption|].
  clearbody l l'.
  unfold tripleStep. cbv zeta. rewrite ?E2_Square_eq, ?E2_Double_eq, E2_MulByConstElement_eq, three_e2, three_x.
  eapply determ_bind; [apply (div_det _ _ l); [exact K2 | exact K1]|]. rewrite ?E2_Square_eq, ?E2_Double_eq.
  eapply determ_bind.
  { apply (div_det _ _ (E2_Add l' l)); [exact K4 | exact K3]. }
  replace (E2_Sub (E2_Add l' l) l) with l' by ring.
  rewrite <- K5, <- K6, NL, NL'.
  match goal with |- context [E2_Sub (E2_Mul l' l') (E2_Add ?a ?b)] =>
    replace (E2_Sub (E2_Mul l' l') (E2_Add a b)) with (E2_Sub (E2_Sub (E2_Mul l' l') b) a) by ring end.
  apply determ_ret.
Qed.

Lemma chkL_ok G L : forall T t, chkL G L T = true -> standsG G G2gen -> standsG T t -> goods L t.
Proof.
  induction L as [|i L IH]; intros T t H HG HT; [exact I|].
  cbn [chkL] in H. cbn [goods].
  unfold goodI. destruct (nth i loopCounter 0 =? 0) eqn:B.
  - destruct (chkD i T) as [T'|] eqn:E; [|discriminate].
    destruct (chkD_ok _ _ _ _ E HT) as (t' & S' & D). exists t'. split; [exact D|]. now apply (IH T').
  - destruct (chkA G i T) as [T'|] eqn:E; [|discriminate].
    destruct (chkA_ok _ _ _ _ _ E HG HT) as (t' & S' & D). exists t'. split; [exact D|]. now apply (IH T').
Qed.

Definition GL : LP := (toL2 (g2X G2gen), toL2 (g2Y G2gen)).
Lemma GL_ok : standsG GL G2gen.
Proof. split; apply toL2_ok. Qed.
Lemma chkAll_true : chkAll GL = true.
Proof. vm_cast_no_check (eq_refl true). Qed.

Lemma table_gen G : chkAll G = true -> standsG G G2gen -> exists t, goodT 62 G2gen t /\ goods fixedRange t.
Proof.
  unfold chkAll. intros H HG.
  destruct (chkT 62 G) as [T|] eqn:E; [|discriminate].
  destruct (chkT_ok _ _ _ _ E HG) as (t & S & D).
  exists t. split; [exact D | exact (chkL_ok _ _ _ _ H HG S)].
Qed.
Lemma table_ok : exists t, goodT 62 G2gen t /\ goods fixedRange t.
Proof. exact (table_gen GL chkAll_true GL_ok). Qed.
