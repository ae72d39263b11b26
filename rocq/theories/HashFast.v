(** A checked evaluator for the affine cofactor clearing on arbitrary inputs,
    on the curve or not (proof infrastructure; no model definition depends on
    it).  Inverses and slopes are supplied and checked. *)
From Coq Require Import ZArith NArith List Bool Lia Uint63.
From Verif Require Import Params ZMod RingPow Circuit Api Emulated ApiFacts FieldFacts Tower TowerFacts TowerProofs FastMod FastParams FastTower Pairing CurveSpec G2 G2Spec G2Pred EcGroup G2Jac G2Mul G2Cof G2Psi G2Clear G2Chain.
Import ListNotations.
Open Scope Z_scope.
Add Field E2FX : E2_ft.

Definition J3 : Set := L2 * L2 * L2.
Definition stJ (j : J3) (J : G2Jacobian) : Prop := stands2 (fst (fst j)) (jX J) /\ stands2 (snd (fst j)) (jY J) /\ stands2 (snd j) (jZ J).
Definition A2 : Set := L2 * L2.
Definition stA (a : A2) (A : G2Affine) : Prop := stands2 (fst a) (g2X A) /\ stands2 (snd a) (g2Y A).
Definition l2neg (a : L2) : L2 := l2sub l2zero a.
Definition l2conj (a : L2) : L2 := (fst a, msub MPp (inM MPp 0) (snd a)).
Lemma neg_sub0 x : E2_Neg x = E2_Sub E2_Zero x. Proof. ring. Qed.
Lemma st2_neg a x : stands2 a x -> stands2 (l2neg a) (E2_Neg x).
Proof. intros H. rewrite neg_sub0. unfold l2neg. apply st2_sub; [exact st2_zero | exact H]. Qed.
Definition psi_uL : L2 := (inM MPp (zmod pBLS 0), inM MPp (zmod pBLS 4002409555221667392624310435006688643935503118305586438271171395842971157480381377015405980053539358417135540939437)).
Definition psi_vL : L2 := (inM MPp (zmod pBLS 2973677408986561043442465346520108879172042883009249989176415018091420807192182638567116318576472649347015917690530), inM MPp (zmod pBLS 1028732146235106349975324479215795277384839936929757896155643118032610843298655225875571310552543014690878354869257)).
Lemma st_psi_u : stands2 psi_uL psi_u. Proof. unfold psi_u. apply st2_mk; apply st_lit. Qed.
Lemma st_psi_v : stands2 psi_vL psi_v. Proof. unfold psi_v. apply st2_mk; apply st_lit. Qed.
Definition w3L : L2 := (inM MPp (zmod pBLS 4002409555221667392624310435006688643935503118305586438271171395842971157480381377015405980053539358417135540939436), inM MPp 0).
Lemma byel_real x c : E2_MulByElement x c = E2_Mul x (mkE2 c fp0).
Proof. apply E2_ext; unfold E2_MulByElement, E2_Mul; cbn [A0 A1]; unfold fp0; ring. Qed.
Lemma st_w3 : stands2 w3L (mkE2 thirdRootOneG1 fp0). Proof. apply st2_mk; [apply st_lit | apply st_zero]. Qed.
Local Opaque E2_Mul E2_Add E2_Sub E2_Neg E2_Conjugate E2_One E2_Zero psi_u psi_v l2mul l2add l2sub l2eq l2Z psi_uL psi_vL w3L l2neg l2conj l2one l2zero.

(** ** Jacobian steps *)
Definition fdbl (j : J3) : J3 :=
  let '((X, Y), Z) := j in
  let two := l2add l2one l2one in
  let S := l2mul two (l2mul (l2mul X (l2mul Y Y)) two) in
  let M := l2mul (l2add two l2one) (l2mul X X) in
  let X3 := l2sub (l2mul M M) (l2add S S) in
  let Y4 := l2mul (l2mul Y Y) (l2mul Y Y) in
  let Y8 := l2add (l2add (l2add Y4 Y4) (l2add Y4 Y4)) (l2add (l2add Y4 Y4) (l2add Y4 Y4)) in
  (X3, l2sub (l2mul (l2sub S X3) M) Y8, l2mul (l2add Y Y) Z).
Local Ltac sts := lazymatch goal with
  | |- stands2 (l2mul _ _) _ => eapply st2_mul; [sts | sts]
  | |- stands2 (l2add _ _) _ => eapply st2_add; [sts | sts]
  | |- stands2 (l2sub _ _) _ => eapply st2_sub; [sts | sts]
  | |- stands2 l2one _ => exact st2_one
  | |- stands2 l2zero _ => exact st2_zero
  | |- _ => assumption
  end.
Lemma fdbl_ok j J : stJ j J -> stJ (fdbl j) (G2JacobianDouble J).
Proof.
  destruct j as [[X Y] Z], J as [JX JY JZ]. unfold stJ. cbn [fst snd jX jY jZ]. intros (HX & HY & HZ). rewrite double_expand. unfold fdbl. cbv zeta. cbn [fst snd jX jY jZ].
  split; [sts|]. split; sts.
Qed.
Definition fU1 (p a : J3) : L2 := l2mul (fst (fst a)) (l2mul (snd p) (snd p)).
Definition fU2 (p a : J3) : L2 := l2mul (fst (fst p)) (l2mul (snd a) (snd a)).
Definition fadd3 (p a : J3) : bool * J3 :=
  let U1 := fU1 p a in let U2 := fU2 p a in
  let S1 := l2mul (snd (fst a)) (l2mul (snd p) (l2mul (snd p) (snd p))) in
  let S2 := l2mul (snd (fst p)) (l2mul (snd a) (l2mul (snd a) (snd a))) in
  let H := l2sub U2 U1 in
  let r := l2mul (l2add l2one l2one) (l2sub S2 S1) in
  let I := l2mul (l2add H H) (l2add H H) in
  let V := l2mul U1 I in
  let X3 := l2sub (l2sub (l2mul r r) (l2mul H I)) (l2add V V) in
  let T := l2mul S1 (l2mul H I) in
  (negb (l2eq U1 U2) && negb (l2eq (snd p) l2zero) && negb (l2eq (snd a) l2zero),
   (X3, l2sub (l2mul (l2sub V X3) r) (l2add T T), l2mul (l2mul (l2add (snd p) (snd p)) (snd a)) H)).
Lemma add_determ p a : addU1 p a <> addU2 p a -> jZ p <> E2_Zero -> jZ a <> E2_Zero -> determ (G2JacobianAddAssign p a) (addRaw p a).
Proof.
  intros NU NP NA. apply determ_intro with (r := addRaw p a).
  - rewrite run_add. apply f_equal. assert (F : forall x y : E2, x <> y -> E2_eqb x y = false). { intros x y N. destruct (E2_eqb x y) eqn:E; [|reflexivity]. apply E2_eqb_eq in E. exact (False_ind _ (N E)). }
    rewrite (F _ _ NU), (F _ _ NP), (F _ _ NA). reflexivity.
  - intros b H. apply sat_add_inv in H. destruct H as (nzp & nza & ne & -> & E1 & E2 & E3).
    destruct nzp; [|exact (False_ind _ (NP (E1 eq_refl)))]. destruct nza; [|exact (False_ind _ (NA (E2 eq_refl)))]. destruct ne; [reflexivity | exact (False_ind _ (NU (proj1 (E3 eq_refl))))].
Qed.
Lemma fadd3_ok p a P A : stJ p P -> stJ a A -> fst (fadd3 p a) = true -> exists R, determ (G2JacobianAddAssign P A) R /\ stJ (snd (fadd3 p a)) R.
Proof.
  intros (PX & PY & PZ) (AX & AY & AZ) C. cbn [fadd3 fst] in C. rewrite !andb_true_iff, !negb_true_iff in C. destruct C as ((C1 & C2) & C3).
  assert (SU1 : stands2 (fU1 p a) (addU1 P A)) by (unfold fU1, addU1; sts). assert (SU2 : stands2 (fU2 p a) (addU2 P A)) by (unfold fU2, addU2; sts).
  exists (addRaw P A). split.
  - apply add_determ; [exact (l2neq_ok _ _ _ _ SU1 SU2 C1) | exact (l2neq_ok _ _ _ _ PZ st2_zero C2) | exact (l2neq_ok _ _ _ _ AZ st2_zero C3)].
  - unfold stJ, fadd3, addRaw. cbv zeta. cbn [fst snd jX jY jZ]. unfold addS1, addS2. split; [sts|]. split; sts.
Qed.
Definition fstep (t0 t1 : J3) (r : bool * J3) (j : nat) : bool * J3 :=
  let d := fdbl (fdbl (snd r)) in
  if Nat.eqb j 1 then let s := fadd3 d t0 in (fst r && fst s, snd s)
  else if Nat.eqb j 3 then let s := fadd3 d t1 in (fst r && fst s, snd s)
  else if Nat.eqb j 7 then let s := fadd3 d t0 in (fst r && fst s, snd s)
  else if Nat.eqb j 23 then let s := fadd3 d t0 in (fst r && fst s, snd s)
  else (fst r, d).
Definition fconst (a : J3) : bool * J3 :=
  let t1 := fdbl a in fold_left (fstep a t1) (seq 1 31) (fadd3 t1 a).
Lemma fstep_mono t0 t1 r j : fst (fstep t0 t1 r j) = true -> fst r = true.
Proof. unfold fstep. cbv zeta. destruct (Nat.eqb j 1), (Nat.eqb j 3), (Nat.eqb j 7), (Nat.eqb j 23); cbn [fst]; intros H; try (apply andb_true_iff in H; exact (proj1 H)); exact H. Qed.
Lemma fold_mono t0 t1 l : forall r, fst (fold_left (fstep t0 t1) l r) = true -> fst r = true.
Proof. induction l as [|j l IH]; intros r H; [exact H|]. exact (fstep_mono _ _ _ _ (IH _ H)). Qed.
Lemma fstep_ok t0 t1 T0 T1 r R j : stJ t0 T0 -> stJ t1 T1 -> stJ (snd r) R -> fst (fstep t0 t1 r j) = true ->
  exists R', determ (constMulStep T0 T1 R j) R' /\ stJ (snd (fstep t0 t1 r j)) R'.
Proof.
  intros H0 H1 HR C. pose proof (fdbl_ok _ _ (fdbl_ok _ _ HR)) as HD. unfold fstep in *. unfold constMulStep. cbv zeta in *.
  destruct (Nat.eqb j 1); [|destruct (Nat.eqb j 3); [|destruct (Nat.eqb j 7); [|destruct (Nat.eqb j 23)]]]; cbn [fst snd] in *;
    try (apply andb_true_iff in C; destruct C as [_ C]; apply fadd3_ok; assumption).
  eexists. split; [apply determ_ret | exact HD].
Qed.
Lemma fold_ok t0 t1 T0 T1 l : stJ t0 T0 -> stJ t1 T1 -> forall r R, stJ (snd r) R -> fst (fold_left (fstep t0 t1) l r) = true ->
  exists R', determ (mfold (constMulStep T0 T1) l R) R' /\ stJ (snd (fold_left (fstep t0 t1) l r)) R'.
Proof.
  intros H0 H1. induction l as [|j l IH]; intros r R HR C; [exists R; split; [apply determ_ret | exact HR]|].
  cbn [fold_left mfold] in *. destruct (fstep_ok t0 t1 T0 T1 r R j H0 H1 HR (fold_mono _ _ _ _ C)) as (R1 & D1 & S1).
  destruct (IH _ _ S1 C) as (R2 & D2 & S2). exists R2. split; [|exact S2]. eapply determ_bind; [exact D1 | exact D2].
Qed.
Lemma fconst_list l a A : stJ a A -> fst (fold_left (fstep a (fdbl a)) l (fadd3 (fdbl a) a)) = true ->
  exists R, determ (res <- G2JacobianAddAssign (G2JacobianDouble A) A ;; mfold (constMulStep A (G2JacobianDouble A)) l res) R /\ stJ (snd (fold_left (fstep a (fdbl a)) l (fadd3 (fdbl a) a))) R.
Proof.
  intros H C. pose proof (fdbl_ok _ _ H) as H1. destruct (fadd3_ok _ _ _ _ H1 H (fold_mono _ _ _ _ C)) as (R0 & D0 & S0).
  destruct (fold_ok _ _ _ _ _ H H1 _ _ S0 C) as (R & D & S). exists R. split; [|exact S]. eapply determ_bind; [exact D0 | exact D].
Qed.
Local Opaque fold_left mfold fadd3 fdbl fstep constMulStep G2JacobianDouble G2JacobianAddAssign.
Lemma fconst_ok a A : stJ a A -> fst (fconst a) = true -> exists R, determ (G2JacobianConstScalarMul A) R /\ stJ (snd (fconst a)) R.
Proof. exact (fconst_list (seq 1 31) a A). Qed.
Definition fjneg (j : J3) : J3 := (fst (fst j), l2neg (snd (fst j)), snd j).
Lemma fjneg_ok j J : stJ j J -> stJ (fjneg j) (G2JacobianNeg J).
Proof. intros (HX & HY & HZ). split; [exact HX|]. split; [now apply st2_neg | exact HZ]. Qed.

(** ** conversions and affine steps *)
Definition fofaff (a : A2) : bool * J3 := (negb (l2eq (fst a) l2zero), (fst a, snd a, l2one)).
Lemma fofaff_ok a A : stA a A -> fst (fofaff a) = true -> exists J, determ (GetG2JacFromG2Affine A) J /\ stJ (snd (fofaff a)) J.
Proof.
  destruct A as [x y]. intros (HX & HY) C. cbn [g2X g2Y] in *. cbn [fofaff fst] in C. apply negb_true_iff in C. pose proof (l2neq_ok _ _ _ _ HX st2_zero C) as N. exists (mkJ x y E2_One). split.
  - eapply determ_intro; [apply jac_of_aff_honest|]. intros b H. apply jac_of_aff_sat in H. destruct H as [->|(E & _)]; [reflexivity | exact (False_ind _ (N E))].
  - split; [exact HX|]. split; [exact HY | exact st2_one].
Qed.
Definition ftoaff (i : L2) (j : J3) : bool * A2 :=
  (l2eq (l2mul i (snd j)) l2one, (l2mul (fst (fst j)) (l2mul i i), l2mul (l2mul (snd (fst j)) (l2mul i i)) i)).
Lemma ftoaff_ok z j J : stJ j J -> fst (ftoaff (l2Z z) j) = true -> exists A, determ (GetG2AffineFromG2Jac J) A /\ stA (snd (ftoaff (l2Z z) j)) A.
Proof.
  destruct J as [X Y Z]. intros (HX & HY & HZ) C. cbn [jX jY jZ] in *. cbn [ftoaff fst] in C. pose proof (st2_Z z) as Hi. apply (l2eq_ok _ _ _ _ (st2_mul _ _ _ _ Hi HZ) st2_one) in C.
  set (i := e2Z z) in *. exists (mkG2 (E2_Mul X (E2_Mul i i)) (E2_Mul (E2_Mul Y (E2_Mul i i)) i)). split.
  - apply aff_of_jac_determ. unfold jrep, jacobian. cbn [jX jY jZ]. split; [|split].
    + intros E. rewrite E in C. apply E2_1_neq_0. rewrite <- C. ring.
    + transitivity (E2_Mul X (E2_Mul (E2_Mul i Z) (E2_Mul i Z))); [rewrite C; ring | ring].
    + transitivity (E2_Mul Y (E2_Mul (E2_Mul i Z) (E2_Mul (E2_Mul i Z) (E2_Mul i Z)))); [rewrite C; ring | ring].
  - split; cbn [ftoaff fst snd g2X g2Y]; sts.
Qed.
Definition fchord (l x1 y1 x2 : L2) : A2 := let x3 := l2sub (l2sub (l2mul l l) x1) x2 in (x3, l2sub (l2mul l (l2sub x1 x3)) y1).
Definition faadd (l : L2) (p q : A2) : bool * A2 :=
  (negb (l2eq (fst q) (fst p)) && l2eq (l2mul l (l2sub (fst q) (fst p))) (l2sub (snd q) (snd p)), fchord l (fst p) (snd p) (fst q)).
Lemma sub_nz x y : x <> y -> E2_Sub x y <> E2_Zero. Proof. intros N E. exact (N (sub_zero _ _ E)). Qed.
Lemma faadd_ok z p q P Q : stA p P -> stA q Q -> fst (faadd (l2Z z) p q) = true -> exists R, determ (G2AddAssign P Q) R /\ stA (snd (faadd (l2Z z) p q)) R.
Proof.
  intros (PX & PY) (QX & QY) C. cbn [faadd fst] in C. apply andb_true_iff in C. destruct C as [C1 C2]. apply negb_true_iff in C1. pose proof (st2_Z z) as Hl.
  pose proof (l2neq_ok _ _ _ _ QX PX C1) as N. apply (l2eq_ok _ _ _ _ (st2_mul _ _ _ _ Hl (st2_sub _ _ _ _ QX PX)) (st2_sub _ _ _ _ QY PY)) in C2.
  destruct (aff_add P Q (not_eq_sym N)) as (R & D & _). exists R. split; [exact D|].
  assert (E : chord2 (e2Z z) (g2X P) (g2Y P) (g2X Q) = R). { apply (proj2 D). apply g2add_sat. exists (e2Z z). split; [exact C2 | reflexivity]. }
  rewrite <- E. unfold chord2. cbn [faadd snd]. unfold fchord. cbv zeta. split; cbn [fst snd g2X g2Y]; sts.
Qed.
Definition faneg (p : A2) : A2 := (fst p, l2neg (snd p)).
Lemma faneg_ok p P : stA p P -> stA (faneg p) (affneg P). Proof. intros (HX & HY). split; [exact HX | now apply st2_neg]. Qed.
Definition fasub (l : L2) (p q : A2) : bool * A2 := faadd l p (faneg q).
Lemma fasub_ok z p q P Q : stA p P -> stA q Q -> fst (fasub (l2Z z) p q) = true -> exists R, determ (G2SubAssign P Q) R /\ stA (snd (fasub (l2Z z) p q)) R.
Proof. intros HP HQ C. rewrite aff_sub_eq. exact (faadd_ok z _ _ _ _ HP (faneg_ok _ _ HQ) C). Qed.
Definition fadbl (l : L2) (p : A2) : bool * A2 :=
  (negb (l2eq (snd p) l2zero) && l2eq (l2mul l (l2add (snd p) (snd p))) (l2mul (l2add (l2add l2one l2one) l2one) (l2mul (fst p) (fst p))), fchord l (fst p) (snd p) (fst p)).
Lemma fadbl_ok z p P : stA p P -> fst (fadbl (l2Z z) p) = true -> exists R, determ (G2Double P) R /\ stA (snd (fadbl (l2Z z) p)) R.
Proof.
  intros (PX & PY) C. cbn [fadbl fst] in C. apply andb_true_iff in C. destruct C as [C1 C2]. apply negb_true_iff in C1. pose proof (st2_Z z) as Hl.
  pose proof (l2neq_ok _ _ _ _ PY st2_zero C1) as N.
  assert (S1 : stands2 (l2mul (l2Z z) (l2add (snd p) (snd p))) (E2_Mul (e2Z z) (E2_Add (g2Y P) (g2Y P)))) by sts.
  assert (S2 : stands2 (l2mul (l2add (l2add l2one l2one) l2one) (l2mul (fst p) (fst p))) (E2_Mul (E2_Add (E2_Add E2_One E2_One) E2_One) (E2_Mul (g2X P) (g2X P)))) by sts.
  apply (l2eq_ok _ _ _ _ S1 S2) in C2.
  destruct (aff_double P N) as (R & D & _). exists R. split; [exact D|].
  assert (E : chord2 (e2Z z) (g2X P) (g2Y P) (g2X P) = R). { apply (proj2 D). apply g2dbl_sat. exists (e2Z z). split; [rewrite C2; unfold g2a; ring | reflexivity]. }
  rewrite <- E. unfold chord2. cbn [fadbl snd]. unfold fchord. cbv zeta. split; cbn [fst snd g2X g2Y]; sts.
Qed.
Definition fapsi (p : A2) : A2 := (l2mul (l2conj (fst p)) psi_uL, l2mul (l2conj (snd p)) psi_vL).
Lemma fapsi_ok p P : stA p P -> stA (fapsi p) (G2Psi P).
Proof. intros (HX & HY). split; (apply st2_mul; [now apply st2_conj|]); [exact st_psi_u | exact st_psi_v]. Qed.
Definition faw3 (p : A2) : A2 := (l2mul (fst p) w3L, snd p).
Lemma faw3_ok p P : stA p P -> stA (faw3 p) (mkG2 (E2_MulByElement (g2X P) thirdRootOneG1) (g2Y P)).
Proof. intros (HX & HY). split; cbn [g2X g2Y faw3 fst snd]; [|exact HY]. rewrite byel_real. apply st2_mul; [exact HX | exact st_w3]. Qed.

(** ** cofactor clearing: two inverses and six slopes *)
Local Opaque fofaff fconst fjneg ftoaff fasub faadd fapsi fadbl faw3 GetG2JacFromG2Affine G2JacobianConstScalarMul GetG2AffineFromG2Jac G2SubAssign G2AddAssign G2Double G2Psi G2JacobianNeg E2_MulByElement.
Lemma fclear_steps i1 i2 l1 l2 l3 l4 l5 l6 a A a0 c1 c2 g1 g2 s1 s2 s3 s4 s5 s6 : stA a A ->
  fofaff a = (true, a0) -> fconst a0 = (true, c1) -> fconst (fjneg c1) = (true, c2) -> ftoaff (l2Z i1) (fjneg c1) = (true, g1) -> ftoaff (l2Z i2) (fjneg c2) = (true, g2) ->
  fasub (l2Z l1) g2 g1 = (true, s1) -> fasub (l2Z l2) s1 a = (true, s2) -> fasub (l2Z l3) g1 a = (true, s3) -> faadd (l2Z l4) s2 (fapsi s3) = (true, s4) ->
  fadbl (l2Z l5) a = (true, s5) -> fasub (l2Z l6) s4 (faw3 s5) = (true, s6) ->
  exists R, determ (G2ClearCofactor A) R /\ stA s6 R.
Proof.
  assert (F : forall (X Y : Set) (x : bool * X) (y : X) (P : X -> Prop), x = (true, y) -> (fst x = true -> P (snd x)) -> P y) by (intros X Y x y P -> H; exact (H eq_refl)).
  intros HA K0 K1 K2 K3 K4 K5 K6 K7 K8 K9 K10.
  destruct (F _ bool _ _ (fun r => exists J, determ (GetG2JacFromG2Affine A) J /\ stJ r J) K0 (fofaff_ok _ _ HA)) as (J0 & D0 & S0).
  destruct (F _ bool _ _ (fun r => exists J, determ (G2JacobianConstScalarMul J0) J /\ stJ r J) K1 (fconst_ok _ _ S0)) as (J1 & D1 & S1). apply fjneg_ok in S1.
  destruct (F _ bool _ _ (fun r => exists J, determ (G2JacobianConstScalarMul (G2JacobianNeg J1)) J /\ stJ r J) K2 (fconst_ok _ _ S1)) as (J2 & D2 & S2). apply fjneg_ok in S2.
  destruct (F _ bool _ _ (fun r => exists J, determ (GetG2AffineFromG2Jac (G2JacobianNeg J1)) J /\ stA r J) K3 (ftoaff_ok _ _ _ S1)) as (h1 & D3 & S3).
  destruct (F _ bool _ _ (fun r => exists J, determ (GetG2AffineFromG2Jac (G2JacobianNeg J2)) J /\ stA r J) K4 (ftoaff_ok _ _ _ S2)) as (h2 & D4 & S4).
  destruct (F _ bool _ _ (fun r => exists J, determ (G2SubAssign h2 h1) J /\ stA r J) K5 (fasub_ok _ _ _ _ _ S4 S3)) as (r1 & D5 & S5).
  destruct (F _ bool _ _ (fun r => exists J, determ (G2SubAssign r1 A) J /\ stA r J) K6 (fasub_ok _ _ _ _ _ S5 HA)) as (r2 & D6 & S6).
  destruct (F _ bool _ _ (fun r => exists J, determ (G2SubAssign h1 A) J /\ stA r J) K7 (fasub_ok _ _ _ _ _ S3 HA)) as (r3 & D7 & S7). apply fapsi_ok in S7.
  destruct (F _ bool _ _ (fun r => exists J, determ (G2AddAssign r2 (G2Psi r3)) J /\ stA r J) K8 (faadd_ok _ _ _ _ _ S6 S7)) as (r4 & D8 & S8).
  destruct (F _ bool _ _ (fun r => exists J, determ (G2Double A) J /\ stA r J) K9 (fadbl_ok _ _ _ HA)) as (r5 & D9 & S9). apply faw3_ok in S9.
  destruct (F _ bool _ _ (fun r => exists J, determ (G2SubAssign r4 (mkG2 (E2_MulByElement (g2X r5) thirdRootOneG1) (g2Y r5))) J /\ stA r J) K10 (fasub_ok _ _ _ _ _ S8 S9)) as (r6 & D10 & S10).
  exists r6. split; [|exact S10]. clear K0 K1 K2 K3 K4 K5 K6 K7 K8 K9 K10. unfold G2ClearCofactor.
  eapply determ_bind; [exact D0|]. eapply determ_bind; [exact D1|]. cbv zeta. eapply determ_bind; [exact D2|]. cbv zeta. eapply determ_bind; [exact D3|]. eapply determ_bind; [exact D4|].
  eapply determ_bind; [exact D5|]. eapply determ_bind; [exact D6|]. eapply determ_bind; [exact D7|]. cbv zeta. eapply determ_bind; [exact D8|]. eapply determ_bind; [exact D9|]. cbv zeta. exact D10.
Qed.

(** one boolean check for all the steps *)
Definition ask {X : Set} (x : bool * X) (k : X -> bool) : bool := if fst x then k (snd x) else false.
Lemma ask_ok {X : Set} (x : bool * X) k : ask x k = true -> exists y, x = (true, y) /\ k y = true.
Proof. unfold ask. destruct x as [[|] y]; cbn [fst snd]; [|discriminate]. intros H. exists y. split; [reflexivity | exact H]. Qed.
Definition fclearOk (i1 i2 l1 l2 l3 l4 l5 l6 : Z2) (a : A2) (k : A2 -> bool) : bool :=
  ask (fofaff a) (fun a0 => ask (fconst a0) (fun c1 => ask (fconst (fjneg c1)) (fun c2 =>
  ask (ftoaff (l2Z i1) (fjneg c1)) (fun g1 => ask (ftoaff (l2Z i2) (fjneg c2)) (fun g2 =>
  ask (fasub (l2Z l1) g2 g1) (fun s1 => ask (fasub (l2Z l2) s1 a) (fun s2 => ask (fasub (l2Z l3) g1 a) (fun s3 =>
  ask (faadd (l2Z l4) s2 (fapsi s3)) (fun s4 => ask (fadbl (l2Z l5) a) (fun s5 => ask (fasub (l2Z l6) s4 (faw3 s5)) k)))))))))).
Theorem fclear_ok i1 i2 l1 l2 l3 l4 l5 l6 a A k : stA a A -> fclearOk i1 i2 l1 l2 l3 l4 l5 l6 a k = true ->
  exists R s, determ (G2ClearCofactor A) R /\ stA s R /\ k s = true.
Proof.
  intros HA C. unfold fclearOk in C.
  apply ask_ok in C. destruct C as (a0 & K0 & C). apply ask_ok in C. destruct C as (c1 & K1 & C). apply ask_ok in C. destruct C as (c2 & K2 & C). apply ask_ok in C. destruct C as (g1 & K3 & C).
  apply ask_ok in C. destruct C as (g2 & K4 & C). apply ask_ok in C. destruct C as (s1 & K5 & C). apply ask_ok in C. destruct C as (s2 & K6 & C). apply ask_ok in C. destruct C as (s3 & K7 & C).
  apply ask_ok in C. destruct C as (s4 & K8 & C). apply ask_ok in C. destruct C as (s5 & K9 & C). apply ask_ok in C. destruct C as (s6 & K10 & C).
  destruct (fclear_steps _ _ _ _ _ _ _ _ _ _ _ _ _ _ _ _ _ _ _ _ _ HA K0 K1 K2 K3 K4 K5 K6 K7 K8 K9 K10) as (R & D & S). exists R, s6. split; [exact D|]. split; [exact S | exact C].
Qed.
