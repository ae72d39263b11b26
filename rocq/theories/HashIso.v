(** G2Isogeny (C31): the code's rational map is the one of RFC 9380, it is
    determined outside the kernel, and it sends E' to the G2 curve. *)
From Coq Require Import ZArith NArith List Bool Lia Field.
From Verif Require Import Params ZMod RingPow Circuit Api Emulated ApiFacts FieldFacts Tower TowerFacts TowerProofs FastTower Pairing CurveSpec G2 HashG2 G2Spec HashSpec G2Mul.
Import ListNotations.
Open Scope Z_scope.
Add Field E2FI : E2_ft.

(** the generic computation: Horner's rule from the top *)
Local Ltac coeffs := unfold xNumCoeffs, xDenCoeffs, yNumCoeffs, yDenCoeffs, iso_x_num, iso_x_den, iso_y_num, iso_y_den, fpMont, E2_Zero; cbn [nth].
Definition cf (l : list E2) (i : nat) : E2 := nth i l E2_Zero.
Lemma xNum_eq : forall i, (i < 4)%nat -> nth i xNumCoeffs E2_Zero = cf iso_x_num i.
Proof. intros i H. do 4 (destruct i as [|i]; [unfold cf; coeffs; fast_e2|]). exfalso. lia. Qed.
Lemma yNum_eq : forall i, (i < 4)%nat -> nth i yNumCoeffs E2_Zero = cf iso_y_num i.
Proof. intros i H. do 4 (destruct i as [|i]; [unfold cf; coeffs; fast_e2|]). exfalso. lia. Qed.
Lemma xDen_eq : forall i, (i < 2)%nat -> nth i xDenCoeffs E2_Zero = cf iso_x_den i.
Proof. intros i H. do 2 (destruct i as [|i]; [unfold cf; coeffs; fast_e2|]). exfalso. lia. Qed.
Lemma yDen_eq : forall i, (i < 3)%nat -> nth i yDenCoeffs E2_Zero = cf iso_y_den i.
Proof. intros i H. do 3 (destruct i as [|i]; [unfold cf; coeffs; fast_e2|]). exfalso. lia. Qed.
Lemma xDen_top : cf iso_x_den 2 = E2_One. Proof. reflexivity. Qed.
Lemma yDen_top : cf iso_y_den 3 = E2_One. Proof. reflexivity. Qed.

(** the kernel is x = -(6 - 6u): the denominators are a square and a cube *)
Definition kerc : E2 := mkE2 (fpZ 6) (fpZ (-6)).
Definition two2 : E2 := mkE2 (fpZ 2) (fpZ 0).
Definition three2 : E2 := mkE2 (fpZ 3) (fpZ 0).
Lemma two2_eq : two2 = E2_Add E2_One E2_One. Proof. unfold two2, E2_One. fast_e2. Qed.
Lemma three2_eq : three2 = E2_Add (E2_Add E2_One E2_One) E2_One. Proof. unfold three2, E2_One. fast_e2. Qed.
Lemma kx1 : cf iso_x_den 1 = E2_Mul two2 kerc. Proof. unfold cf, two2, kerc. coeffs. fast_e2. Qed.
Lemma kx0 : cf iso_x_den 0 = E2_Mul kerc kerc. Proof. unfold cf, kerc. coeffs. fast_e2. Qed.
Lemma ky2 : cf iso_y_den 2 = E2_Mul three2 kerc. Proof. unfold cf, three2, kerc. coeffs. fast_e2. Qed.
Lemma ky1 : cf iso_y_den 1 = E2_Mul three2 (E2_Mul kerc kerc). Proof. unfold cf, three2, kerc. coeffs. fast_e2. Qed.
Lemma ky0 : cf iso_y_den 0 = E2_Mul kerc (E2_Mul kerc kerc). Proof. unfold cf, kerc. coeffs. fast_e2. Qed.

Lemma ker_not_root : iso_g (E2_Neg kerc) <> E2_Zero.
Proof. unfold iso_g, kerc, isoA, isoB, E2_Neg. cbn [A0 A1]. fast_e2. Qed.

(** the ten coefficients of y_num^2 (x^3 + A x + B) - x_num^3 - b (x + c)^6 *)
Section Ident.
  Variables n0 n1 n2 n3 m0 m1 m2 m3 c A B b : E2.
  Local Infix "+" := E2_Add. Local Infix "*" := E2_Mul. Local Infix "-" := E2_Sub.
  Local Notation "2" := (E2_Add E2_One E2_One).
  Local Notation "3" := (E2_Add (E2_Add E2_One E2_One) E2_One).
  Local Notation "6" := ((E2_Add (E2_Add E2_One E2_One) E2_One) * (E2_Add E2_One E2_One)).
  Definition q0 := m0*m0. Definition q1 := 2*(m0*m1). Definition q2 := 2*(m0*m2) + m1*m1. Definition q3 := 2*(m0*m3) + 2*(m1*m2).
  Definition q4 := 2*(m1*m3) + m2*m2. Definition q5 := 2*(m2*m3). Definition q6 := m3*m3.
  Definition s0 := n0*n0. Definition s1 := 2*(n0*n1). Definition s2 := 2*(n0*n2) + n1*n1. Definition s3 := 2*(n0*n3) + 2*(n1*n2).
  Definition s4 := 2*(n1*n3) + n2*n2. Definition s5 := 2*(n2*n3). Definition s6 := n3*n3.
  Definition e0 := q0*B - s0*n0 - b*(c*c*c*c*c*c).
  Definition e1 := q1*B + q0*A - (s1*n0 + s0*n1) - b*(6*(c*c*c*c*c)).
  Definition e2 := q2*B + q1*A - (s2*n0 + s1*n1 + s0*n2) - b*((6*2+3)*(c*c*c*c)).
  Definition e3 := q3*B + q2*A + q0 - (s3*n0 + s2*n1 + s1*n2 + s0*n3) - b*((6*3+2)*(c*c*c)).
  Definition e4 := q4*B + q3*A + q1 - (s4*n0 + s3*n1 + s2*n2 + s1*n3) - b*((6*2+3)*(c*c)).
  Definition e5 := q5*B + q4*A + q2 - (s5*n0 + s4*n1 + s3*n2 + s2*n3) - b*(6*c).
  Definition e6 := q6*B + q5*A + q3 - (s6*n0 + s5*n1 + s4*n2 + s3*n3) - b.
  Definition e7 := q6*A + q4 - (s6*n1 + s5*n2 + s4*n3).
  Definition e8 := q5 - (s6*n2 + s5*n3).
  Definition e9 := q6 - s6*n3.
  Lemma ident x :
    (m0 + x*(m1 + x*(m2 + x*m3))) * (m0 + x*(m1 + x*(m2 + x*m3))) * (x*x*x + A*x + B)
    - (n0 + x*(n1 + x*(n2 + x*n3))) * (n0 + x*(n1 + x*(n2 + x*n3))) * (n0 + x*(n1 + x*(n2 + x*n3)))
    - b * ((x+c)*(x+c)*((x+c)*(x+c))*((x+c)*(x+c)))
    = e0 + x*(e1 + x*(e2 + x*(e3 + x*(e4 + x*(e5 + x*(e6 + x*(e7 + x*(e8 + x*e9)))))))).
  Proof. unfold e0,e1,e2,e3,e4,e5,e6,e7,e8,e9,q0,q1,q2,q3,q4,q5,q6,s0,s1,s2,s3,s4,s5,s6. ring. Qed.
  Lemma ident0 x : e0 = E2_Zero -> e1 = E2_Zero -> e2 = E2_Zero -> e3 = E2_Zero -> e4 = E2_Zero -> e5 = E2_Zero -> e6 = E2_Zero -> e7 = E2_Zero -> e8 = E2_Zero -> e9 = E2_Zero ->
    (m0 + x*(m1 + x*(m2 + x*m3))) * (m0 + x*(m1 + x*(m2 + x*m3))) * (x*x*x + A*x + B)
    = (n0 + x*(n1 + x*(n2 + x*n3))) * (n0 + x*(n1 + x*(n2 + x*n3))) * (n0 + x*(n1 + x*(n2 + x*n3)))
    + b * ((x+c)*(x+c)*((x+c)*(x+c))*((x+c)*(x+c))).
  Proof.
    intros H0 H1 H2 H3 H4 H5 H6 H7 H8 H9. pose proof (ident x) as I. rewrite H0, H1, H2, H3, H4, H5, H6, H7, H8, H9 in I.
    set (L := (m0 + x*(m1 + x*(m2 + x*m3))) * (m0 + x*(m1 + x*(m2 + x*m3))) * (x*x*x + A*x + B)) in *.
    set (R := (n0 + x*(n1 + x*(n2 + x*n3))) * (n0 + x*(n1 + x*(n2 + x*n3))) * (n0 + x*(n1 + x*(n2 + x*n3)))) in *.
    set (D := b * ((x+c)*(x+c)*((x+c)*(x+c))*((x+c)*(x+c)))) in *. clearbody L R D. transitivity (R + D + (L - R - D)); [ring|]. rewrite I. ring.
  Qed.
End Ident.
Local Ltac spec_coeff := unfold e0,e1,e2,e3,e4,e5,e6,e7,e8,e9,q0,q1,q2,q3,q4,q5,q6,s0,s1,s2,s3,s4,s5,s6, cf, kerc, isoA, isoB, g2b; coeffs; unfold E2_One; fast_e2.
Local Opaque E2_Mul E2_Add E2_Sub E2_Neg.
Definition xn x := poly iso_x_num x.
Definition xd x := poly iso_x_den x.
Definition yn x := poly iso_y_num x.
Definition yd x := poly iso_y_den x.
Definition horner4 (l : list E2) x := E2_Add (cf l 0) (E2_Mul x (E2_Add (cf l 1) (E2_Mul x (E2_Add (cf l 2) (E2_Mul x (cf l 3)))))).
Lemma horner_poly a b c d x : poly [a; b; c; d] x = horner4 [a; b; c; d] x.
Proof. unfold horner4, cf. cbn [poly nth]. ring. Qed.
Lemma xn_eq x : xn x = horner4 iso_x_num x. Proof. exact (horner_poly _ _ _ _ x). Qed.
Lemma yn_eq x : yn x = horner4 iso_y_num x. Proof. exact (horner_poly _ _ _ _ x). Qed.
Lemma poly2 a b c x : poly [a; b; c] x = E2_Add a (E2_Mul x (E2_Add b (E2_Mul x c))). Proof. cbn [poly]. ring. Qed.
Lemma xd_gen a b c x : a = E2_Mul kerc kerc -> b = E2_Mul two2 kerc -> c = E2_One -> poly [a; b; c] x = E2_Mul (E2_Add x kerc) (E2_Add x kerc).
Proof. intros -> -> ->. rewrite poly2, two2_eq. ring. Qed.
Lemma yd_gen a b c d x : a = E2_Mul kerc (E2_Mul kerc kerc) -> b = E2_Mul three2 (E2_Mul kerc kerc) -> c = E2_Mul three2 kerc -> d = E2_One ->
  poly [a; b; c; d] x = E2_Mul (E2_Add x kerc) (E2_Mul (E2_Add x kerc) (E2_Add x kerc)).
Proof. intros -> -> -> ->. rewrite horner_poly. unfold horner4, cf. cbn [nth]. rewrite three2_eq. ring. Qed.
Lemma xd_eq x : xd x = E2_Mul (E2_Add x kerc) (E2_Add x kerc).
Proof. exact (xd_gen _ _ _ x kx0 kx1 xDen_top). Qed.
Lemma yd_eq x : yd x = E2_Mul (E2_Add x kerc) (E2_Mul (E2_Add x kerc) (E2_Add x kerc)).
Proof. exact (yd_gen _ _ _ _ x ky0 ky1 ky2 yDen_top). Qed.

Lemma iso_ident x : E2_Mul (E2_Mul (yn x) (yn x)) (iso_g x) = E2_Add (E2_Mul (E2_Mul (xn x) (xn x)) (xn x)) (E2_Mul g2b (E2_Mul (E2_Mul (xd x) (xd x)) (xd x))).
Proof.
  rewrite (xn_eq x), (yn_eq x), (xd_eq x). unfold horner4, iso_g.
  pose proof (ident0 (cf iso_x_num 0) (cf iso_x_num 1) (cf iso_x_num 2) (cf iso_x_num 3) (cf iso_y_num 0) (cf iso_y_num 1) (cf iso_y_num 2) (cf iso_y_num 3) kerc isoA isoB g2b x) as H.
  match type of H with ?P -> _ => assert (X : P) by spec_coeff; specialize (H X); clear X end.
  do 9 (match type of H with ?P -> _ => assert (X : P) by spec_coeff; specialize (H X); clear X end).
  exact H.
Qed.

(** ** the circuit *)
Lemma m_xnum x : g2IsogenyXNumerator x = xn x.
Proof.
  rewrite (xn_eq x). unfold g2IsogenyXNumerator, horner4. cbv zeta. rewrite !xNum_eq by lia. ring.
Qed.
Lemma m_ynum x y : g2IsogenyYNumerator x y = E2_Mul y (yn x).
Proof.
  rewrite (yn_eq x). unfold g2IsogenyYNumerator, horner4. cbv zeta. rewrite !yNum_eq by lia. ring.
Qed.
Lemma m_xden x : g2IsogenyXDenominator x = xd x.
Proof.
  rewrite (xd_eq x). unfold g2IsogenyXDenominator. cbv zeta. rewrite !xDen_eq by lia. rewrite kx0, kx1, two2_eq. ring.
Qed.
Lemma m_yden x : g2IsogenyYDenominator x = yd x.
Proof.
  rewrite (yd_eq x). unfold g2IsogenyYDenominator. cbv zeta. rewrite !yDen_eq by lia. rewrite ky0, ky1, ky2, three2_eq. ring.
Qed.
Lemma iso_map_aff x y X Y : iso_map x y (Aff X Y) = (xd x <> E2_Zero /\ yd x <> E2_Zero /\ E2_Mul X (xd x) = xn x /\ E2_Mul Y (yd x) = E2_Mul y (yn x)).
Proof. reflexivity. Qed.
Lemma iso_map_inf x y : iso_map x y Inf = (xd x = E2_Zero \/ yd x = E2_Zero).
Proof. reflexivity. Qed.
Local Opaque iso_map g2IsogenyXNumerator g2IsogenyYNumerator g2IsogenyXDenominator g2IsogenyYDenominator xn yn xd yd kerc.
Lemma ker_xd x : xd x = E2_Zero <-> E2_Add x kerc = E2_Zero.
Proof.
  rewrite xd_eq. split; [intros H; apply E2_integral in H; destruct H; assumption | intros ->; ring].
Qed.
Lemma ker_yd x : yd x = E2_Zero <-> E2_Add x kerc = E2_Zero.
Proof.
  rewrite yd_eq. split; [|intros ->; ring]. intros H. apply E2_integral in H. destruct H as [H|H]; [exact H|]. apply E2_integral in H. destruct H; assumption.
Qed.
Definition iso_pt x y : G2Affine := mkG2 (E2_div (xn x) (xd x)) (E2_div (E2_Mul y (yn x)) (yd x)).
Lemma iso_determ x y : E2_Add x kerc <> E2_Zero -> determ (G2Isogeny (mkG2 x y)) (iso_pt x y).
Proof.
  intros N. unfold G2Isogeny. cbv zeta. cbn [g2X g2Y]. rewrite (m_xnum x), (m_ynum x y), (m_xden x), (m_yden x).
  eapply determ_bind; [apply determ_E2_Inverse; rewrite ker_yd; exact N|]. eapply determ_bind; [apply determ_E2_Inverse; rewrite ker_xd; exact N|].
  unfold iso_pt, E2_div. apply determ_ret.
Qed.
Lemma iso_kernel x y : E2_Add x kerc = E2_Zero -> unsat (G2Isogeny (mkG2 x y)).
Proof.
  intros N r S. unfold G2Isogeny in S. cbv zeta in S. cbn [g2X g2Y] in S. rewrite (m_yden x) in S. rewrite (proj2 (ker_yd x) N) in S.
  apply sat_bind in S. destruct S as (i & Hi & _). exact (unsat_E2_Inverse0 _ Hi).
Qed.
Lemma iso_map_ok x y : E2_Add x kerc <> E2_Zero -> iso_map x y (Aff (g2X (iso_pt x y)) (g2Y (iso_pt x y))).
Proof.
  intros N. assert (Nx : xd x <> E2_Zero) by (rewrite ker_xd; exact N). assert (Ny : yd x <> E2_Zero) by (rewrite ker_yd; exact N).
  rewrite iso_map_aff. unfold iso_pt. cbn [g2X g2Y]. split; [exact Nx|]. split; [exact Ny|]. split; field; assumption.
Qed.
Lemma iso_map_fun x y P Q : iso_map x y P -> iso_map x y Q -> P = Q.
Proof.
  assert (I : forall x, E2_Add x kerc = E2_Zero -> xd x = E2_Zero /\ yd x = E2_Zero) by (intros; split; [now apply ker_xd | now apply ker_yd]).
  assert (C : forall a b d, d <> E2_Zero -> E2_Mul a d = E2_Mul b d -> a = b).
  { intros a b d Hd E. transitivity (E2_div (E2_Mul a d) d); [field; exact Hd|]. rewrite E. field. exact Hd. }
  destruct P as [|X Y], Q as [|X' Y']; rewrite ?iso_map_aff, ?iso_map_inf.
  - reflexivity.
  - intros [E|E] (N & N' & _); [exact (False_ind _ (N E)) | exact (False_ind _ (N' E))].
  - intros (N & N' & _) [E|E]; [exact (False_ind _ (N E)) | exact (False_ind _ (N' E))].
  - intros (N & N' & E1 & E2) (_ & _ & E3 & E4). f_equal; [apply (C _ _ _ N); rewrite E1, E3; reflexivity | apply (C _ _ _ N'); rewrite E2, E4; reflexivity].
Qed.
(** RFC iso_map lands on the G2 curve *)
Lemma iso_on x y P : isoon (Aff x y) -> iso_map x y P -> g2on P.
Proof.
  intros H M. destruct P as [|X Y]; [exact I|]. rewrite iso_map_aff in M. destruct M as (Nx & Ny & EX & EY).
  pose proof (iso_ident x) as E. change (E2_Mul y y = E2_Add (E2_Add (E2_Mul (E2_Mul x x) x) (E2_Mul isoA x)) isoB) in H. fold (iso_g x) in H. rewrite <- H in E. rewrite <- EX in E.
  assert (DD : E2_Mul (E2_Mul (xd x) (xd x)) (xd x) = E2_Mul (yd x) (yd x)) by (rewrite xd_eq, yd_eq; ring).
  change (E2_Mul Y Y = E2_Add (E2_Add (E2_Mul (E2_Mul X X) X) (E2_Mul g2a X)) g2b).
  assert (L : E2_Mul (E2_Mul Y Y) (E2_Mul (yd x) (yd x)) = E2_Mul (E2_Mul (yn x) (yn x)) (E2_Mul y y)).
  { transitivity (E2_Mul (E2_Mul Y (yd x)) (E2_Mul Y (yd x))); [ring|]. rewrite EY. ring. }
  rewrite E in L. assert (N2 : E2_Mul (yd x) (yd x) <> E2_Zero). { intros Z. apply E2_integral in Z. destruct Z; contradiction. }
  transitivity (E2_div (E2_Mul (E2_Mul Y Y) (E2_Mul (yd x) (yd x))) (E2_Mul (yd x) (yd x))); [field; exact Ny|]. rewrite L.
  transitivity (E2_div (E2_Mul (E2_Add (E2_Mul (E2_Mul X X) X) g2b) (E2_Mul (E2_Mul (xd x) (xd x)) (xd x))) (E2_Mul (yd x) (yd x))); [f_equal; ring|].
  rewrite DD. unfold g2a. field. exact Ny.
Qed.
(** no point of order two on E' *)
Lemma iso_no_root x : iso_g x <> E2_Zero.
Proof.
  intros G. destruct (E2_eq_dec (E2_Add x kerc) E2_Zero) as [K|K].
  - assert (X : x = E2_Neg kerc). { transitivity (E2_Add (E2_Add x kerc) (E2_Neg kerc)); [ring|]. rewrite K. ring. }
    rewrite X in G. exact (ker_not_root G).
  - assert (H : isoon (Aff x E2_Zero)). { change (E2_Mul E2_Zero E2_Zero = iso_g x). rewrite G. ring. }
    pose proof (iso_on _ _ _ H (iso_map_ok x E2_Zero K)) as O. apply (g2_no_y0 (g2X (iso_pt x E2_Zero))).
    assert (Y0 : g2Y (iso_pt x E2_Zero) = E2_Zero). { unfold iso_pt. cbn [g2Y]. field. rewrite ker_yd. exact K. }
    rewrite Y0 in O. exact O.
Qed.
