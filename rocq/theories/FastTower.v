(** Fast checking of closed equations in Fp and Fp2 (proof infrastructure;
    no model definition depends on it). *)
From Coq Require Import ZArith List Bool Lia Uint63 Ring.
From Verif Require Import Params ZMod RingPow FastMod FastParams Emulated Tower FieldFacts.
Import ListNotations.
Open Scope Z_scope.

(** ** limb lists standing for elements of Fp *)
Definition standsP (l : list int) (x : Fp) : Prop := stands MPp l x.
Lemma stP_out l (x : Fp) : standsP l x -> fval x = outM MPp l.
Proof. exact (st_out MPp MPp_ok l x). Qed.
Lemma st_lit z : standsP (inM MPp (zmod pBLS z)) (fpZ z).
Proof.
  unfold fpZ. replace (ofZ pBLS z) with (ofZ pBLS (zmod pBLS z)).
  - apply (st_in MPp MPp_ok). rewrite zmod_eq. apply Z.mod_pos_bound. reflexivity.
  - apply ofZ_eq. rewrite zmod_eq. apply Zmod_mod.
Qed.
Lemma st_one : standsP (inM MPp 1) (f1 pBLS).
Proof. apply (st_in MPp MPp_ok). split; [discriminate | reflexivity]. Qed.
Lemma st_zero : standsP (inM MPp 0) (f0 pBLS).
Proof. apply (st_in MPp MPp_ok). split; [discriminate | reflexivity]. Qed.
Lemma stP_add a b x y : standsP a x -> standsP b y -> standsP (madd MPp a b) (fadd x y).
Proof. apply (st_add MPp MPp_ok). Qed.
Lemma stP_sub a b x y : standsP a x -> standsP b y -> standsP (msub MPp a b) (fsub x y).
Proof. apply (st_sub MPp MPp_ok). Qed.
Lemma stP_mul a b x y : standsP a x -> standsP b y -> standsP (mmul MPp a b) (fmul x y).
Proof. apply (st_mul MPp MPp_ok). Qed.
Lemma stP_opp a x : standsP a x -> standsP (msub MPp (inM MPp 0) a) (fopp x).
Proof.
  intros H. replace (fopp x) with (fsub (f0 pBLS) x) by ring.
  apply stP_sub; [apply st_zero | exact H].
Qed.
Lemma stP_pow a x e : standsP a x -> standsP (npow (inM MPp 1) (mmul MPp) a e) (fpow x e).
Proof. intros H. apply (st_pow MPp MPp_ok); [exact H | apply st_one]. Qed.
(** multiplication by the Montgomery one brings a redundant limb list back into
    the small range in which the fast paths of [msub] and [norm] apply *)
Definition oneMP : list int := Eval vm_compute in inM MPp 1.
Lemma st_oneMP : standsP oneMP (f1 pBLS).
Proof. replace oneMP with (inM MPp 1) by (vm_compute; reflexivity). exact st_one. Qed.
Definition subP (a b : list int) : list int := mmul MPp (msub MPp a b) oneMP.
Lemma stP_subP a b x y : standsP a x -> standsP b y -> standsP (subP a b) (fsub x y).
Proof.
  intros Ha Hb. replace (fsub x y) with (fmul (fsub x y) (f1 pBLS)) by ring.
  apply stP_mul; [now apply stP_sub | exact st_oneMP].
Qed.
Definition l1eq (a b : list int) : bool := outM MPp a =? outM MPp b.
Lemma l1eq_ok a b x y : standsP a x -> standsP b y -> l1eq a b = true -> x = y.
Proof.
  intros Ha Hb H. apply Z.eqb_eq in H. apply fval_inj. apply stP_out in Ha, Hb. congruence.
Qed.
Lemma l1neq_ok a b x y : standsP a x -> standsP b y -> l1eq a b = false -> x <> y.
Proof.
  intros Ha Hb H ->. apply Z.eqb_neq in H. apply H. apply stP_out in Ha, Hb. congruence.
Qed.

(** ** limb-level Fp2 *)
Definition L2 : Set := list int * list int.
Definition stands2 (l : L2) (x : E2) : Prop := standsP (fst l) (A0 x) /\ standsP (snd l) (A1 x).
Definition l2add (a b : L2) : L2 := (madd MPp (fst a) (fst b), madd MPp (snd a) (snd b)).
Definition l2sub (a b : L2) : L2 := (subP (fst a) (fst b), subP (snd a) (snd b)).
Definition l2mul (a b : L2) : L2 :=
  (subP (mmul MPp (fst a) (fst b)) (mmul MPp (snd a) (snd b)),
   madd MPp (mmul MPp (fst a) (snd b)) (mmul MPp (snd a) (fst b))).
Definition l2one : L2 := (inM MPp 1, inM MPp 0).
Definition l2zero : L2 := (inM MPp 0, inM MPp 0).
Lemma st2_one : stands2 l2one E2_One. Proof. split; [apply st_one | apply st_zero]. Qed.
Lemma st2_zero : stands2 l2zero E2_Zero. Proof. split; apply st_zero. Qed.
Lemma st2_add a b x y : stands2 a x -> stands2 b y -> stands2 (l2add a b) (E2_Add x y).
Proof. intros [? ?] [? ?]. split; now apply (st_add MPp MPp_ok). Qed.
Lemma st2_sub a b x y : stands2 a x -> stands2 b y -> stands2 (l2sub a b) (E2_Sub x y).
Proof. intros [? ?] [? ?]. split; now apply stP_subP. Qed.
Lemma st2_mul a b x y : stands2 a x -> stands2 b y -> stands2 (l2mul a b) (E2_Mul x y).
Proof.
  intros [Ha Hb] [Hc Hd].
  assert (E : E2_Mul x y = mkE2 (fsub (fmul (A0 x) (A0 y)) (fmul (A1 x) (A1 y)))
                                (fadd (fmul (A0 x) (A1 y)) (fmul (A1 x) (A0 y)))).
  { apply E2_ext; cbn [A0 A1 E2_Mul]; ring. }
  rewrite E. split; cbn [A0 A1 l2mul fst snd].
  - apply stP_subP; now apply (st_mul MPp MPp_ok).
  - apply (st_add MPp MPp_ok); now apply (st_mul MPp MPp_ok).
Qed.
Lemma st2_pow a x e : stands2 a x -> stands2 (npow l2one l2mul a e) (e2pow x e).
Proof.
  intros Ha. destruct e as [|e]; [exact st2_one|]. cbn [npow].
  induction e as [e IH|e IH|]; cbn [ppow]; [| |exact Ha]; repeat apply st2_mul; assumption.
Qed.

Lemma st2_mk a b x y : standsP a x -> standsP b y -> stands2 (a, b) (mkE2 x y).
Proof. intros; split; assumption. Qed.
Lemma st2_conj a x : stands2 a x -> stands2 (fst a, msub MPp (inM MPp 0) (snd a)) (E2_Conjugate x).
Proof. intros [H1 H2]. split; [exact H1 | exact (stP_opp _ _ H2)]. Qed.
Lemma st2_nr : stands2 (inM MPp 1, inM MPp 1) E2_NonResidue.
Proof. split; apply st_one. Qed.

Definition l2eq (a b : L2) : bool :=
  (outM MPp (fst a) =? outM MPp (fst b)) && (outM MPp (snd a) =? outM MPp (snd b)).
Lemma l2eq_ok a b x y : stands2 a x -> stands2 b y -> l2eq a b = true -> x = y.
Proof.
  intros [Ha1 Ha2] [Hb1 Hb2] H. unfold l2eq in H. apply andb_true_iff in H.
  rewrite !Z.eqb_eq in H. destruct H as [H1 H2].
  apply stP_out in Ha1, Ha2, Hb1, Hb2.
  apply E2_ext; apply fval_inj; congruence.
Qed.
Lemma l2neq_ok a b x y : stands2 a x -> stands2 b y -> l2eq a b = false -> x <> y.
Proof.
  intros [Ha1 Ha2] [Hb1 Hb2] H ->. apply not_true_iff_false in H. apply H.
  unfold l2eq. apply andb_true_iff. rewrite !Z.eqb_eq.
  apply stP_out in Ha1, Ha2, Hb1, Hb2. split; congruence.
Qed.

(** Build the limb representation of a closed term, one node at a time. *)
Ltac st1 :=
  lazymatch goal with
  | |- standsP _ (fpZ _) => exact (st_lit _)
  | |- standsP _ (ofZ pBLS _) => exact (st_lit _)
  | |- standsP _ (f1 _) => exact st_one
  | |- standsP _ (f0 _) => exact st_zero
  | |- standsP _ (fadd _ _) => eapply stP_add; [st1 | st1]
  | |- standsP _ (fsub _ _) => eapply stP_sub; [st1 | st1]
  | |- standsP _ (fmul _ _) => eapply stP_mul; [st1 | st1]
  | |- standsP _ (fopp _) => eapply stP_opp; st1
  | |- standsP _ (npow _ _ _ _) => eapply stP_pow; st1
  end.
Ltac st2 :=
  lazymatch goal with
  | |- stands2 _ (mkE2 _ _) => eapply st2_mk; [st1 | st1]
  | |- stands2 _ E2_One => exact st2_one
  | |- stands2 _ E2_Zero => exact st2_zero
  | |- stands2 _ E2_NonResidue => exact st2_nr
  | |- stands2 _ (E2_Add _ _) => eapply st2_add; [st2 | st2]
  | |- stands2 _ (E2_Sub _ _) => eapply st2_sub; [st2 | st2]
  | |- stands2 _ (E2_Mul _ _) => eapply st2_mul; [st2 | st2]
  | |- stands2 _ (E2_Conjugate _) => eapply st2_conj; st2
  | |- stands2 _ (npow _ _ _ _) => eapply st2_pow; st2
  end.
Ltac fast_fp :=
  lazymatch goal with
  | |- @eq _ _ _ => eapply l1eq_ok; [st1 | st1 | vm_cast_no_check (eq_refl true)]
  | |- _ <> _ => eapply l1neq_ok; [st1 | st1 | vm_cast_no_check (eq_refl false)]
  end.
Ltac fast_e2 :=
  lazymatch goal with
  | |- @eq _ _ _ => eapply l2eq_ok; [st2 | st2 | vm_cast_no_check (eq_refl true)]
  | |- _ <> _ => eapply l2neq_ok; [st2 | st2 | vm_cast_no_check (eq_refl false)]
  end.
