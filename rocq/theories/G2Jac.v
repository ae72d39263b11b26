(** Jacobian and affine arithmetic on the twist, against the group law. *)
From Coq Require Import ZArith List Bool Lia Ring Field.
From Verif Require Import Params ZMod RingPow Circuit Api Emulated ApiFacts FieldFacts Tower TowerFacts TowerProofs Pairing CurveSpec G2 HashG2 G2Spec G2Pred EcGroup.
Import ListNotations.
Open Scope Z_scope.
Add Field E2FJ : E2_ft.
Local Opaque E2_Mul E2_Add E2_Sub E2_Neg.

Definition jrep (J : G2Jacobian) (P : point E2) : Prop := jacobian (jX J) (jY J) (jZ J) P.
Definition aff2 (p : G2Affine) : point E2 := Aff (g2X p) (g2Y p).

Lemma mul_neq0 x y : x <> E2_Zero -> y <> E2_Zero -> E2_Mul x y <> E2_Zero.
Proof. intros Hx Hy H. apply E2_integral in H. tauto. Qed.
Lemma mul_cancel c x y : c <> E2_Zero -> E2_Mul c x = E2_Mul c y -> x = y.
Proof.
  intros N H. assert (Z : E2_Mul c (E2_Sub x y) = E2_Zero) by (transitivity (E2_Sub (E2_Mul c x) (E2_Mul c y)); [ring | rewrite H; ring]).
  apply E2_integral in Z. destruct Z as [Z|Z]; [contradiction|]. transitivity (E2_Add (E2_Sub x y) y); [ring | rewrite Z; ring].
Qed.
Lemma sub_zero x y : E2_Sub x y = E2_Zero -> x = y.
Proof. intros H. transitivity (E2_Add (E2_Sub x y) y); [ring | rewrite H; ring]. Qed.
Lemma slope n d : d <> E2_Zero -> exists l, E2_Mul l d = n.
Proof. intros H. exists (E2_Mul n (E2_inv d)). transitivity (E2_Mul n (E2_Mul (E2_inv d) d)); [ring|]. rewrite E2_inv_l by exact H. ring. Qed.

Lemma mkJ_ext X Y Z X' Y' Z' : X = X' -> Y = Y' -> Z = Z' -> mkJ X Y Z = mkJ X' Y' Z'.
Proof. now intros -> -> ->. Qed.
Lemma raw_ext (a b c d a' b' c' d' : E2) (J J' : G2Jacobian) : a = a' -> b = b' -> c = c' -> d = d' -> J = J' -> ((a, b, c, d), J) = ((a', b', c', d'), J').
Proof. now intros -> -> -> -> ->. Qed.
(** ** Doubling *)
Lemma double_expand X Y Z : G2JacobianDouble (mkJ X Y Z) =
  let S := E2_Mul (E2_Add E2_One E2_One) (E2_Mul (E2_Mul X (E2_Mul Y Y)) (E2_Add E2_One E2_One)) in
  let M := E2_Mul (E2_Add (E2_Add E2_One E2_One) E2_One) (E2_Mul X X) in
  let X3 := E2_Sub (E2_Mul M M) (E2_Add S S) in
  let Y4 := E2_Mul (E2_Mul Y Y) (E2_Mul Y Y) in
  let Y8 := E2_Add (E2_Add (E2_Add Y4 Y4) (E2_Add Y4 Y4)) (E2_Add (E2_Add Y4 Y4) (E2_Add Y4 Y4)) in
  mkJ X3 (E2_Sub (E2_Mul (E2_Sub S X3) M) Y8) (E2_Mul (E2_Add Y Y) Z).
Proof.
  unfold G2JacobianDouble. cbn [jX jY jZ]. cbv zeta. rewrite !E2_Square_eq, !E2_Double_eq. apply mkJ_ext; ring.
Qed.
Lemma double_Z J : jZ (G2JacobianDouble J) = E2_Mul (E2_Add (jY J) (jY J)) (jZ J).
Proof. destruct J as [X Y Z]. now rewrite double_expand. Qed.
Theorem jac_double J P : jrep J P -> exists R, g2add P P R /\ jrep (G2JacobianDouble J) R.
Proof.
  destruct J as [X Y Z]. unfold jrep, jacobian. cbn [jX jY jZ]. destruct P as [|x y].
  - intros ->. exists Inf. split; [constructor|]. rewrite double_Z. cbn [jZ]. ring.
  - intros (NZ & -> & ->). destruct (E2_dec y E2_Zero) as [->|Ny].
    + exists Inf. split; [apply add_opp; ring|]. rewrite double_Z. cbn [jZ jY]. ring.
    + assert (N2 : E2_Add y y <> E2_Zero) by (intros H; exact (Ny (double_zero _ H))).
      destruct (slope (E2_Add (E2_Mul (E2_Add (E2_Add E2_One E2_One) E2_One) (E2_Mul x x)) g2a) _ N2) as [l Hl].
      exists (third E2 E2_Mul E2_Sub l x y x). split; [apply add_tangent; assumption|].
      rewrite double_expand. unfold third. cbv zeta. cbn [jX jY jZ].
      set (Z2 := E2_Mul Z Z).
      assert (H3 : E2_Mul l (E2_Add y y) = E2_Mul (E2_Add (E2_Add E2_One E2_One) E2_One) (E2_Mul x x)) by (rewrite Hl; unfold g2a; ring).
      clear Hl. split; [|split].
      * apply mul_neq0; [|exact NZ]. intros H. apply N2.
        assert (E : E2_Mul (E2_Add y y) (E2_Mul Z Z2) = E2_Zero) by (rewrite <- H; ring).
        apply E2_integral in E. destruct E as [E|E]; [exact E|]. exfalso. revert E. apply mul_neq0; [exact NZ|]. now apply mul_neq0.
      * transitivity (E2_Mul (E2_Sub (E2_Mul (E2_Mul l (E2_Add y y)) (E2_Mul l (E2_Add y y))) (E2_Mul (E2_Add x x) (E2_Mul (E2_Add y y) (E2_Add y y)))) (E2_Mul (E2_Mul Z2 Z2) (E2_Mul Z2 Z2))); [rewrite H3; unfold Z2; ring | unfold Z2; ring].
      * transitivity (E2_Mul (E2_Sub (E2_Mul (E2_Mul l (E2_Add y y)) (E2_Sub (E2_Mul (E2_Mul (E2_Add (E2_Add E2_One E2_One) E2_One) x) (E2_Mul (E2_Add y y) (E2_Add y y))) (E2_Mul (E2_Mul l (E2_Add y y)) (E2_Mul l (E2_Add y y)))))
          (E2_Mul y (E2_Mul (E2_Add y y) (E2_Mul (E2_Add y y) (E2_Add y y))))) (E2_Mul (E2_Mul Z2 Z2) (E2_Mul (E2_Mul Z2 Z2) (E2_Mul Z2 Z2)))); [rewrite H3; unfold Z2; ring | unfold Z2; ring].
Qed.

(** ** Addition *)
Lemma determ_J_Select b p q : determ (J_Select (bF b) p q) (if b then p else q).
Proof.
  unfold J_Select. eapply determ_bind; [apply determ_E2_Select|]. eapply determ_bind; [apply determ_E2_Select|].
  eapply determ_bind; [apply determ_E2_Select|]. destruct b; [destruct p | destruct q]; apply determ_ret.
Qed.
Definition addU1 (p a : G2Jacobian) := E2_Mul (jX a) (E2_Mul (jZ p) (jZ p)).
Definition addU2 (p a : G2Jacobian) := E2_Mul (jX p) (E2_Mul (jZ a) (jZ a)).
Definition addS1 (p a : G2Jacobian) := E2_Mul (jY a) (E2_Mul (jZ p) (E2_Mul (jZ p) (jZ p))).
Definition addS2 (p a : G2Jacobian) := E2_Mul (jY p) (E2_Mul (jZ a) (E2_Mul (jZ a) (jZ a))).
Definition addRaw (p a : G2Jacobian) : G2Jacobian :=
  let H := E2_Sub (addU2 p a) (addU1 p a) in
  let r := E2_Mul (E2_Add E2_One E2_One) (E2_Sub (addS2 p a) (addS1 p a)) in
  let I := E2_Mul (E2_Add H H) (E2_Add H H) in
  let V := E2_Mul (addU1 p a) I in
  let X3 := E2_Sub (E2_Sub (E2_Mul r r) (E2_Mul H I)) (E2_Add V V) in
  let T := E2_Mul (addS1 p a) (E2_Mul H I) in
  mkJ X3 (E2_Sub (E2_Mul (E2_Sub V X3) r) (E2_Add T T)) (E2_Mul (E2_Mul (E2_Add (jZ p) (jZ p)) (jZ a)) H).
Lemma jacAddRaw_eq p a : jacAddRaw p a = ((addU1 p a, addU2 p a, addS1 p a, addS2 p a), addRaw p a).
Proof.
  unfold jacAddRaw, addRaw, addU1, addU2, addS1, addS2. cbv zeta. rewrite !E2_Square_eq, !E2_Double_eq. apply raw_ext; [ring | ring | ring | ring | apply mkJ_ext; ring].
Qed.
(** what a prover can choose in an addition *)
Definition addChoice (p a : G2Jacobian) (nzp nza ne : bool) : G2Jacobian :=
  if nzp then if nza then if ne then addRaw p a else G2JacobianDouble p else p else a.
Lemma sat_add_inv p a r : sat (G2JacobianAddAssign p a) r -> exists nzp nza ne, r = addChoice p a nzp nza ne /\
  (nzp = false -> jZ p = E2_Zero) /\ (nza = false -> jZ a = E2_Zero) /\ (ne = false -> addU1 p a = addU2 p a /\ addS1 p a = addS2 p a).
Proof.
  unfold G2JacobianAddAssign. intros H. apply sat_bind in H. destruct H as (u & Hu & H). apply sat_bind in H. destruct H as (v & Hv & H).
  rewrite jacAddRaw_eq in H. apply sat_bind in H. destruct H as (w & Hw & H). apply sat_bind in H. destruct H as (z & Hz & H).
  apply sat_bind in H. destruct H as (o & Ho & H).
  apply sat_E2NotZero in Hu, Hv. apply sat_E2NotEqual in Hw, Hz.
  assert (Cu : exists b, u = bF b /\ (b = false -> jZ p = E2_Zero)) by (destruct Hu as [->|[E ->]]; [exists true | exists false]; split; auto; discriminate).
  assert (Cv : exists b, v = bF b /\ (b = false -> jZ a = E2_Zero)) by (destruct Hv as [->|[E ->]]; [exists true | exists false]; split; auto; discriminate).
  assert (Cw : exists b, w = bF b /\ (b = false -> addU1 p a = addU2 p a)) by (destruct Hw as [[-> _]|[-> E]]; [exists true | exists false]; split; auto; discriminate).
  assert (Cz : exists b, z = bF b /\ (b = false -> addS1 p a = addS2 p a)) by (destruct Hz as [[-> _]|[-> E]]; [exists true | exists false]; split; auto; discriminate).
  destruct Cu as (b1 & -> & E1), Cv as (b2 & -> & E2), Cw as (b3 & -> & E3), Cz as (b4 & -> & E4).
  apply sat_Or in Ho. subst o. apply sat_bind in H. destruct H as (r1 & H1 & H). apply (proj2 (determ_J_Select _ _ _)) in H1.
  apply sat_bind in H. destruct H as (r2 & H2 & H). apply (proj2 (determ_J_Select _ _ _)) in H2. apply (proj2 (determ_J_Select _ _ _)) in H.
  exists b1, b2, (b3 || b4). split; [subst; unfold addChoice; destruct b1, b2; reflexivity|]. split; [exact E1|]. split; [exact E2|].
  intros O. apply orb_false_iff in O. destruct O as [O1 O2]. exact (conj (E3 O1) (E4 O2)).
Qed.
Lemma run_add p a : run (G2JacobianAddAssign p a) =
  Some (addChoice p a (negb (E2_eqb (jZ p) E2_Zero)) (negb (E2_eqb (jZ a) E2_Zero)) (negb (E2_eqb (addU1 p a) (addU2 p a)) || negb (E2_eqb (addS1 p a) (addS2 p a)))).
Proof.
  unfold G2JacobianAddAssign. rewrite run_bind, run_E2NotZero, run_bind, run_E2NotZero, jacAddRaw_eq, run_bind, run_E2NotEqual, run_bind, run_E2NotEqual.
  rewrite run_bind, (proj1 (determ_Or _ _)). rewrite run_bind, (proj1 (determ_J_Select _ _ _)), run_bind, (proj1 (determ_J_Select _ _ _)), (proj1 (determ_J_Select _ _ _)).
  unfold addChoice. destruct (E2_eqb (jZ p) E2_Zero), (E2_eqb (jZ a) E2_Zero); reflexivity.
Qed.
Lemma sat_add p a nzp nza ne : (nzp = false -> jZ p = E2_Zero) -> (nza = false -> jZ a = E2_Zero) ->
  (ne = false -> addU1 p a = addU2 p a /\ addS1 p a = addS2 p a) ->
  (ne = true -> addU1 p a <> addU2 p a \/ fval (A0 (addU1 p a)) < gap \/ fval (A1 (addU1 p a)) < gap \/ addS1 p a <> addS2 p a \/ fval (A0 (addS1 p a)) < gap \/ fval (A1 (addS1 p a)) < gap) ->
  sat (G2JacobianAddAssign p a) (addChoice p a nzp nza ne).
Proof.
  intros E1 E2 E3 E4. unfold G2JacobianAddAssign. apply sat_bind. exists (bF nzp). split; [apply sat_E2NotZero; destruct nzp; auto|].
  apply sat_bind. exists (bF nza). split; [apply sat_E2NotZero; destruct nza; auto|]. rewrite jacAddRaw_eq.
  assert (C : exists b3 b4, ne = b3 || b4 /\ sat (E2NotEqual (addU1 p a) (addU2 p a)) (bF b3) /\ sat (E2NotEqual (addS1 p a) (addS2 p a)) (bF b4)).
  { assert (R1 := run_sat _ _ (run_E2NotEqual (addU1 p a) (addU2 p a))). assert (R2 := run_sat _ _ (run_E2NotEqual (addS1 p a) (addS2 p a))).
    destruct ne.
    - assert (G : (addU1 p a <> addU2 p a \/ fval (A0 (addU1 p a)) < gap \/ fval (A1 (addU1 p a)) < gap) \/ (addS1 p a <> addS2 p a \/ fval (A0 (addS1 p a)) < gap \/ fval (A1 (addS1 p a)) < gap)).
      { destruct (E4 eq_refl) as [G|[G|[G|G]]]; [left; left; exact G | left; right; left; exact G | left; right; right; exact G | right; exact G]. }
      destruct G as [G|G].
      + exists true. eexists. split; [|split; [exact (proj2 (sat_E2NotEqual _ _ _) (or_introl (conj eq_refl G))) | exact R2]]. reflexivity.
      + eexists. exists true. split; [|split; [exact R1 | exact (proj2 (sat_E2NotEqual _ _ _) (or_introl (conj eq_refl G)))]]. now rewrite orb_true_r.
    - destruct (E3 eq_refl) as [G1 G2]. exists false, false. split; [reflexivity|]. split; apply sat_E2NotEqual; right; split; [reflexivity | exact G1 | reflexivity | exact G2]. }
  destruct C as (b3 & b4 & -> & H3 & H4). apply sat_bind. exists (bF b3). split; [exact H3|]. apply sat_bind. exists (bF b4). split; [exact H4|].
  apply sat_bind. exists (bF (b3 || b4)). split; [now apply sat_Or|].
  apply sat_bind. eexists. split; [apply run_sat, (determ_J_Select _ _ _)|]. apply sat_bind. eexists. split; [apply run_sat, (determ_J_Select _ _ _)|].
  unfold addChoice. pose proof (run_sat _ _ (proj1 (determ_J_Select nzp (if nza then if b3 || b4 then addRaw p a else G2JacobianDouble p else p) a))) as R. destruct nzp, nza; exact R.
Qed.

(** the generic formulas *)
Lemma rawZ p a : jZ (addRaw p a) = E2_Mul (E2_Mul (E2_Add (jZ p) (jZ p)) (jZ a)) (E2_Sub (addU2 p a) (addU1 p a)). Proof. reflexivity. Qed.
Lemma raw_chord p a x1 y1 x2 y2 : jrep p (Aff x1 y1) -> jrep a (Aff x2 y2) -> x1 <> x2 ->
  exists R, g2add (Aff x1 y1) (Aff x2 y2) R /\ jrep (addRaw p a) R.
Proof.
  destruct p as [X1 Y1 Z1], a as [X2 Y2 Z2]. unfold jrep, jacobian. cbn [jX jY jZ]. intros (N1 & -> & ->) (N2 & -> & ->) N.
  assert (D : E2_Sub x2 x1 <> E2_Zero) by (intros H; apply sub_zero in H; congruence).
  destruct (slope (E2_Sub y2 y1) _ D) as [l Hl]. exists (third E2 E2_Mul E2_Sub l x1 y1 x2). split; [now apply add_chord|].
  unfold third. cbv zeta. unfold addRaw, addU1, addU2, addS1, addS2. cbn [jX jY jZ]. cbv zeta.
  assert (Hy : y2 = E2_Add y1 (E2_Mul l (E2_Sub x2 x1))) by (rewrite Hl; ring). clear Hl. subst y2. split; [|split].
  - apply mul_neq0; [apply mul_neq0; [intros H; exact (N1 (double_zero Z1 H)) | exact N2]|].
    intros H. apply D. assert (E : E2_Mul (E2_Mul (E2_Mul Z1 Z2) (E2_Mul Z1 Z2)) (E2_Sub x2 x1) = E2_Zero).
    { transitivity (E2_Neg E2_Zero); [rewrite <- H|]; ring. }
    apply E2_integral in E. destruct E as [E|E]; [|exact E]. exfalso. exact (mul_neq0 _ _ (mul_neq0 _ _ N1 N2) (mul_neq0 _ _ N1 N2) E).
  - ring.
  - ring.
Qed.
Lemma U_eq p a x1 y1 x2 y2 : jrep p (Aff x1 y1) -> jrep a (Aff x2 y2) -> (addU1 p a = addU2 p a <-> x1 = x2) /\ (addS1 p a = addS2 p a <-> y1 = y2).
Proof.
  destruct p as [X1 Y1 Z1], a as [X2 Y2 Z2]. unfold jrep, jacobian, addU1, addU2, addS1, addS2. cbn [jX jY jZ]. intros (N1 & -> & ->) (N2 & -> & ->).
  set (k := E2_Mul Z1 Z2). assert (K : k <> E2_Zero) by now apply mul_neq0.
  assert (K2 : E2_Mul k k <> E2_Zero) by now apply mul_neq0. assert (K3 : E2_Mul k (E2_Mul k k) <> E2_Zero) by now apply mul_neq0.
  split; split; intros H.
  - apply (mul_cancel _ _ _ K2). transitivity (E2_Mul (E2_Mul x1 (E2_Mul Z1 Z1)) (E2_Mul Z2 Z2)); [unfold k; ring|]. rewrite <- H. unfold k. ring.
  - subst. ring.
  - apply (mul_cancel _ _ _ K3). transitivity (E2_Mul (E2_Mul y1 (E2_Mul Z1 (E2_Mul Z1 Z1))) (E2_Mul Z2 (E2_Mul Z2 Z2))); [unfold k; ring|]. rewrite <- H. unfold k. ring.
  - subst. ring.
Qed.
Lemma raw_same_x p a : addU1 p a = addU2 p a -> jZ (addRaw p a) = E2_Zero.
Proof. intros H. rewrite rawZ, H. ring. Qed.
Lemma raw_Z0 p a : jZ p = E2_Zero \/ jZ a = E2_Zero -> jZ (addRaw p a) = E2_Zero.
Proof. intros H. rewrite rawZ. destruct H as [->| ->]; ring. Qed.
Lemma double_Z0 p : jZ p = E2_Zero -> jZ (G2JacobianDouble p) = E2_Zero.
Proof. intros H. rewrite double_Z, H. ring. Qed.
Lemma jrep_inf J : jrep J Inf <-> jZ J = E2_Zero. Proof. reflexivity. Qed.
Lemma jrep_aff_nz J x y : jrep J (Aff x y) -> jZ J <> E2_Zero. Proof. intros H. exact (proj1 H). Qed.
Lemma same_x x y1 y2 : g2on (Aff x y1) -> g2on (Aff x y2) -> y1 = y2 \/ y2 = E2_Neg y1.
Proof.
  unfold g2on. cbn [on_curve]. intros H1 H2. assert (E : E2_Mul (E2_Sub y2 y1) (E2_Add y2 y1) = E2_Zero).
  { transitivity (E2_Sub (E2_Mul y2 y2) (E2_Mul y1 y1)); [ring | rewrite H1, H2; ring]. }
  apply E2_integral in E. destruct E as [E|E]; [left; symmetry; now apply sub_zero | right].
  transitivity (E2_Sub (E2_Add y2 y1) y1); [ring | rewrite E; ring].
Qed.

(** every accepted value, for non-exceptional operands, and the honest value for all operands *)
Lemma choice_ok p a P Q nzp nza ne : jrep p P -> jrep a Q -> g2on P -> g2on Q ->
  (nzp = false -> jZ p = E2_Zero) -> (nza = false -> jZ a = E2_Zero) -> (ne = false -> addU1 p a = addU2 p a /\ addS1 p a = addS2 p a) ->
  (P = Inf -> nzp = false) -> (Q = Inf -> nza = false) -> (P = Q -> P <> Inf -> ne = false) ->
  exists R, g2add P Q R /\ jrep (addChoice p a nzp nza ne) R.
Proof.
  intros HP HQ CP CQ E1 E2 E3 F1 F2 F3. unfold addChoice. destruct P as [|x1 y1].
  - rewrite (F1 eq_refl). exists Q. split; [constructor | exact HQ].
  - destruct nzp; [|exfalso; exact (jrep_aff_nz _ _ _ HP (E1 eq_refl))]. destruct Q as [|x2 y2].
    + rewrite (F2 eq_refl). exists (Aff x1 y1). split; [constructor | exact HP].
    + destruct nza; [|exfalso; exact (jrep_aff_nz _ _ _ HQ (E2 eq_refl))]. destruct (U_eq _ _ _ _ _ _ HP HQ) as [UX UY].
      destruct ne.
      * destruct (E2_dec x1 x2) as [->|N]; [|exact (raw_chord _ _ _ _ _ _ HP HQ N)].
        exists Inf. split; [|apply jrep_inf, raw_same_x, UX; reflexivity]. apply add_opp.
        destruct (same_x _ _ _ CP CQ) as [->|E]; [|exact E]. exfalso. specialize (F3 eq_refl ltac:(discriminate)). discriminate.
      * destruct (E3 eq_refl) as [U S]. apply UX in U. apply UY in S. subst x2 y2. exact (jac_double _ _ HP).
Qed.
Theorem jac_add_honest p a P Q : jrep p P -> jrep a Q -> g2on P -> g2on Q ->
  exists r R, run (G2JacobianAddAssign p a) = Some r /\ g2add P Q R /\ jrep r R.
Proof.
  intros HP HQ CP CQ. rewrite run_add.
  destruct (choice_ok p a P Q (negb (E2_eqb (jZ p) E2_Zero)) (negb (E2_eqb (jZ a) E2_Zero)) (negb (E2_eqb (addU1 p a) (addU2 p a)) || negb (E2_eqb (addS1 p a) (addS2 p a)))
    HP HQ CP CQ) as (R & HR & HJ).
  - rewrite negb_false_iff. apply E2_eqb_eq.
  - rewrite negb_false_iff. apply E2_eqb_eq.
  - rewrite orb_false_iff, !negb_false_iff, !E2_eqb_eq. exact (fun h => h).
  - intros ->. apply negb_false_iff, E2_eqb_eq. exact HP.
  - intros ->. apply negb_false_iff, E2_eqb_eq. exact HQ.
  - intros <- N. destruct P as [|x y]; [congruence|]. destruct (U_eq _ _ _ _ _ _ HP HQ) as [UX UY].
    rewrite orb_false_iff, !negb_false_iff, !E2_eqb_eq. split; [now apply UX | now apply UY].
  - eexists. exists R. split; [reflexivity|]. split; assumption.
Qed.
Theorem jac_add_sound p a P Q r : jrep p P -> jrep a Q -> g2on P -> g2on Q -> P <> Inf -> Q <> Inf -> P <> Q ->
  sat (G2JacobianAddAssign p a) r -> exists R, g2add P Q R /\ jrep r R.
Proof.
  intros HP HQ CP CQ N1 N2 N3 H. apply sat_add_inv in H. destruct H as (nzp & nza & ne & -> & E1 & E2 & E3).
  apply (choice_ok p a P Q nzp nza ne HP HQ CP CQ E1 E2 E3); intros E; contradiction.
Qed.
Lemma jac_add_inf p a r : jZ p = E2_Zero -> jZ a = E2_Zero -> sat (G2JacobianAddAssign p a) r -> jZ r = E2_Zero.
Proof.
  intros Hp Ha H. apply sat_add_inv in H. destruct H as (nzp & nza & ne & -> & _). unfold addChoice.
  destruct nzp, nza, ne; try assumption; [apply raw_Z0; now left | now apply double_Z0].
Qed.
