(** The coordinate ring of y^2 = x^3 + a x + b over a field, as pairs of
    polynomials (u, v) standing for u + v y, with the two facts needed by
    EcIdeal.v; hence the group law over any field that can be coded in pairs
    of natural numbers. *)
From Coq Require Import Ring Field List Lia.
From mathcomp Require Import all_ssreflect ssralg poly.
From Verif Require Import CurveSpec EcIdeal.
Import GRing.Theory.
Set Implicit Arguments.
Unset Strict Implicit.
Unset Printing Implicit Defensive.

Section Coord.
Variable F : fieldType.
Variables a b : F.
Local Open Scope ring_scope.
Notation P := {poly F}.
Definition p0 : P := 0.
Definition p1 : P := 1.
Definition radd (x y : P) : P := x + y.
Definition rmul (x y : P) : P := x * y.
Definition rsub (x y : P) : P := x - y.
Definition ropp (x : P) : P := - x.
Lemma PR : ring_theory p0 p1 radd rmul rsub ropp eq.
Proof.
split => //=; rewrite /radd /rmul /rsub /ropp /p0 /p1.
- exact: add0r.
- exact: addrC.
- exact: addrA.
- exact: mul1r.
- exact: mulrC.
- exact: mulrA.
- exact: mulrDl.
- exact: subrr.
Qed.
Add Ring Pring : PR.
Definition cub : P := 'X^3 + a%:P * 'X + b%:P.
Definition K : Type := (P * P)%type.
Definition k0 : K := (p0, p0).
Definition k1 : K := (p1, p0).
Definition kadd (z w : K) : K := (radd z.1 w.1, radd z.2 w.2).
Definition ksub (z w : K) : K := (rsub z.1 w.1, rsub z.2 w.2).
Definition kopp (z : K) : K := (ropp z.1, ropp z.2).
Definition kmul (z w : K) : K := (radd (rmul z.1 w.1) (rmul (rmul z.2 w.2) cub), radd (rmul z.1 w.2) (rmul z.2 w.1)).
Lemma KR : ring_theory k0 k1 kadd kmul ksub kopp eq.
Proof.
constructor; rewrite /kadd /kmul /ksub /kopp /k0 /k1.
- by case=> u v /=; congr pair; ring.
- by case=> u v [u' v'] /=; congr pair; ring.
- by case=> u v [u' v'] [u2 v2] /=; congr pair; ring.
- by case=> u v /=; congr pair; ring.
- by case=> u v [u' v'] /=; congr pair; ring.
- by case=> u v [u' v'] [u2 v2] /=; congr pair; ring.
- by case=> u v [u' v'] [u2 v2] /=; congr pair; ring.
- by case=> u v [u' v'] /=; congr pair; ring.
- by case=> u v /=; congr pair; ring.
Qed.
Definition c (x : F) : K := (x%:P, 0).
Definition X : K := ('X, 0).
Definition Y : K := (0, 1).
Lemma c0 : c 0 = k0. Proof. by rewrite /c polyC0. Qed.
Lemma c1 : c 1 = k1. Proof. by rewrite /c polyC1. Qed.
Lemma cadd x y : c (x + y) = kadd (c x) (c y).
Proof. by rewrite /c /kadd /radd /= polyCD addr0. Qed.
Lemma cmul x y : c (x * y) = kmul (c x) (c y).
Proof. by rewrite /c /kmul /radd /rmul /= polyCM !mul0r mulr0 !addr0. Qed.
Lemma HXY : kmul Y Y = kadd (kadd (kmul X (kmul X X)) (kmul (c a) X)) (c b).
Proof.
rewrite /kmul /kadd /X /Y /c /radd /rmul /=.
rewrite !(mul0r, mulr0, mul1r, mulr1, add0r, addr0) /cub !exprS expr0 mulr1.
by [].
Qed.
Lemma Hreg x : regular K k0 kmul (ksub X (c x)).
Proof.
case=> u v; rewrite /kmul /ksub /X /c /k0 /radd /rmul /rsub /= => -[].
rewrite subr0 !mul0r addr0 addr0 => /eqP; rewrite mulf_eq0 polyXsubC_eq0 /= => /eqP ->.
by move=> /eqP; rewrite mulf_eq0 polyXsubC_eq0 /= => /eqP ->.
Qed.
(** the norm *)
Definition nrm (z : K) : P := rsub (rmul z.1 z.1) (rmul (rmul z.2 z.2) cub).
Lemma nrmM z w : nrm (kmul z w) = nrm z * nrm w.
Proof.
transitivity (rmul (nrm z) (nrm w)); last by [].
by case: z w => u v [u' v']; rewrite /nrm /kmul /=; ring.
Qed.
Lemma cub_size : size cub = 4%N.
Proof.
rewrite /cub -addrA size_addl ?size_polyXn //.
apply: (leq_ltn_trans (size_add _ _)); rewrite gtn_max; apply/andP; split.
  apply: (leq_ltn_trans (size_mul_leq _ _)); rewrite size_polyX addn2 /=.
  by rewrite !ltnS (leq_trans (size_polyC_leq1 a)).
by rewrite (leq_ltn_trans (size_polyC_leq1 b)).
Qed.
Lemma nrm_size z : z.2 != 0 -> (4 <= size (nrm z))%N.
Proof.
case: z => u v /= nv; rewrite /nrm /rsub /rmul /=.
have nc : cub != 0 by rewrite -size_poly_eq0 cub_size.
have nvv : v * v != 0 by rewrite mulf_neq0.
have sv : size (v * v * cub) = (2 * size v + 2)%N.
  rewrite size_mul // cub_size size_mul // -!subn1.
  have : (0 < size v)%N by rewrite size_poly_gt0.
  by case: (size v) => // n _; rewrite /addn /addn_rec /muln /muln_rec /subn /subn_rec; Lia.lia.
have pv : (0 < size v)%N by rewrite size_poly_gt0.
have lb : (4 <= size (v * v * cub)%R)%N.
  by rewrite sv; case: (size v) pv => // n _; rewrite mulnS addnC addnA leq_addr.
case: (eqVneq u 0) => [->|nu].
  by rewrite mul0r sub0r size_opp.
have su : size (u * u) = (2 * size u).-1 by rewrite size_mul // mul2n addnn.
have df : size (u * u) != size (v * v * cub).
  rewrite su sv; apply/negP => /eqP E; have := congr1 odd E.
  have pu : (0 < size u)%N by rewrite size_poly_gt0.
  by case: (size u) pu => // n _; rewrite mul2n doubleS /= odd_double oddD mul2n odd_double.
case: (ltngtP (size (u * u)) (size (v * v * cub))) => [lt|lt|eq]; last by rewrite eq eqxx in df.
  by rewrite addrC size_addl ?size_opp.
by rewrite size_addl ?size_opp // (leq_trans lb) // ltnW.
Qed.
(** evaluation at a point *)
Definition ev (x y : F) (z : K) : F := z.1.[x] + z.2.[x] * y.
Lemma ev_sub x y z w : ev x y (ksub z w) = ev x y z - ev x y w.
Proof. by rewrite /ev /ksub /rsub /= !hornerD !hornerN mulrBl opprD addrACA. Qed.
Lemma ev_mul x y z w : y * y = x * x * x + a * x + b -> ev x y (kmul z w) = ev x y z * ev x y w.
Proof.
move=> E; rewrite /ev /kmul /radd /rmul /= !hornerD !hornerM.
have -> : cub.[x] = y * y by rewrite E /cub !hornerE.
rewrite !mulrDl !mulrDr -!mulrA.
by rewrite [y * w.1.[x]]mulrC [y * (w.2.[x] * y)]mulrCA addrACA [X in _ = _ + X]addrC.
Qed.
Lemma ev_mem x y z : y * y = x * x * x + a * x + b ->
  mem K k0 kmul ksub (ksub X (c x) :: ksub Y (c y) :: nil) z -> ev x y z = 0.
Proof.
move=> E [u [v /= H]].
have Z : ev x y k0 = 0 by rewrite /ev /= !horner0 mul0r addr0.
have EX : ev x y (ksub X (c x)) = 0.
  by rewrite ev_sub /ev /X /c /= !hornerE ?(mul0r, addr0) subrr.
have EY : ev x y (ksub Y (c y)) = 0.
  by rewrite ev_sub /ev /Y /c /= !hornerE ?(mul1r, mul0r, add0r, addr0) subrr.
by move: Z; rewrite -H !ev_sub !ev_mul // EX EY !mulr0 !subr0.
Qed.
Lemma Hnp x y h : y * y = x * x * x + a * x + b ->
  mem K k0 kmul ksub (ksub X (c x) :: ksub Y (c y) :: nil) h ->
  mem K k0 kmul ksub (h :: nil) (ksub X (c x)) -> mem K k0 kmul ksub (h :: nil) (ksub Y (c y)) -> False.
Proof.
move=> E Hh [k /= Hk] [k' /= Hk'].
have KE z w : ksub z w = k0 -> z = w.
  case: z w => z1 z2 [w1 w2]; rewrite /ksub /rsub /k0 /= => -[/eqP A /eqP B].
  by move: A B; rewrite !subr_eq0 => /eqP -> /eqP ->.
move/KE: Hk => Hk; move/KE: Hk' => Hk'.
have N : nrm k * nrm h = ('X - x%:P) * ('X - x%:P).
  by rewrite -nrmM -Hk /nrm /ksub /rsub /rmul /X /c /= subr0 mul0r mul0r subr0.
have n0 : 'X - x%:P != 0 by rewrite polyXsubC_eq0.
have nh : nrm h != 0.
  by apply/eqP => Z; move/eqP: N; rewrite Z mulr0 eq_sym mulf_eq0 orbb (negbTE n0).
have nk : nrm k != 0.
  by apply/eqP => Z; move/eqP: N; rewrite Z mul0r eq_sym mulf_eq0 orbb (negbTE n0).
have s3 : (size (nrm h) <= 3)%N.
  have := congr1 (fun p : P => size p) N; rewrite /= size_mul // size_mul // size_XsubC /= => S.
  have pk : (0 < size (nrm k))%N by rewrite size_poly_gt0.
  have -> : 3%N = (size (nrm k) + size (nrm h)).-1 by rewrite S.
  by case: (size (nrm k)) pk => // n _; rewrite addSn /= leq_addl.
have v0 : h.2 = 0.
  by apply/eqP/negPn/negP => nv; have := leq_trans (nrm_size nv) s3.
have U : k'.2 * h.1 = 1.
  have := congr1 (fun z : K => z.2) Hk'; rewrite /ksub /kmul /rsub /radd /rmul /Y /c /= subr0 v0 mulr0 add0r => <- //.
have one : ev x y (kmul (k'.2, 0) h) = 1.
  rewrite /ev /kmul /radd /rmul /= v0 U !mul0r mulr0 ?(addr0, add0r) !hornerE ?(mul0r, addr0) //.
move: one; rewrite ev_mul // (ev_mem E Hh) mulr0 => /eqP; rewrite eq_sym oner_eq0 //.
Qed.
End Coord.

(** ** The group law over a field given by its operations *)
Section Plain.
Variable F : Type.
Variables (zero one : F) (add mul sub : F -> F -> F) (opp : F -> F) (div : F -> F -> F) (inv : F -> F).
Hypothesis FT : field_theory zero one add mul sub opp div inv eq.
Hypothesis Fdec : forall x y : F, {x = y} + {x <> y}.
Variables (code : F -> nat * nat) (decode : nat * nat -> F).
Hypothesis codeK : cancel code decode.
Hypothesis inv0 : inv zero = zero.
Let RT := F_R FT.
Definition F_eqb (x y : F) : bool := if Fdec x y then true else false.
Lemma F_eqP : Equality.axiom F_eqb.
Proof. by move=> x y; rewrite /F_eqb; case: (Fdec x y) => H; constructor. Qed.
Definition F_eqMixin := EqMixin F_eqP.
Definition T : Type := F.
Canonical F_eqType := EqType T F_eqMixin.
Definition F_choiceMixin := CanChoiceMixin (codeK : @cancel (prod_choiceType nat_choiceType nat_choiceType) F_eqType code decode).
Canonical F_choiceType := ChoiceType T F_choiceMixin.
Lemma FaddA : associative add. Proof. exact: (Radd_assoc RT). Qed.
Lemma FaddC : commutative add. Proof. exact: (Radd_comm RT). Qed.
Lemma Fadd0 : left_id zero add. Proof. exact: (Radd_0_l RT). Qed.
Lemma FaddN : left_inverse zero opp add.
Proof. by move=> x; rewrite FaddC (Ropp_def RT). Qed.
Definition F_zmodMixin := @ZmodMixin T _ _ _ FaddA FaddC Fadd0 FaddN.
Canonical F_zmodType := ZmodType T F_zmodMixin.
Lemma FmulA : associative mul. Proof. exact: (Rmul_assoc RT). Qed.
Lemma FmulC : commutative mul. Proof. exact: (Rmul_comm RT). Qed.
Lemma Fmul1 : left_id one mul. Proof. exact: (Rmul_1_l RT). Qed.
Lemma FmulD : left_distributive mul add. Proof. exact: (Rdistr_l RT). Qed.
Lemma F10 : is_true ((one : F_zmodType) != (zero : F_zmodType)).
Proof. by apply/eqP; exact: (F_1_neq_0 FT). Qed.
Definition F_ringMixin := @ComRingMixin F_zmodType one mul FmulA FmulC Fmul1 FmulD F10.
Canonical F_ringType := RingType T F_ringMixin.
Canonical F_comRingType := ComRingType T FmulC.
Lemma FmulV : forall x : F_comRingType, is_true (x != (zero : F_comRingType)) -> mul (inv x) x = one.
Proof. by move=> x /eqP nx; exact: (Finv_l FT). Qed.
Definition F_unitMixin := @FieldUnitMixin F_comRingType inv FmulV inv0.
Canonical F_unitRingType := UnitRingType T F_unitMixin.
Canonical F_comUnitRingType := [comUnitRingType of T].
Definition F_fieldMixin := @FieldMixin F_comUnitRingType inv FmulV inv0.
Canonical F_idomainType := IdomainType T (FieldIdomainMixin F_fieldMixin).
Canonical F_fieldType := FieldType T F_fieldMixin.

Variables a b : F.
Notation oncurve := (on_curve F add mul a b).
Notation ecadd := (ec_add F zero one add mul sub opp a).
Hypothesis Hns : forall x y, oncurve (Aff x y) -> add y y <> zero \/ add (mul (add (add one one) one) (mul x x)) a <> zero.
Let KK := K F_fieldType.
Let kk0 := k0 F_fieldType.
Let kk1 := k1 F_fieldType.
Let kka := @kadd F_fieldType.
Let kks := @ksub F_fieldType.
Let kkm := @kmul F_fieldType a b.
Let kko := @kopp F_fieldType.
Let cc : F -> KK := @c F_fieldType.
Let XX : KK := X F_fieldType.
Let YY : KK := Y F_fieldType.
Lemma KKR : ring_theory kk0 kk1 kka kkm kks kko eq. Proof. exact (@KR F_fieldType a b). Qed.
Lemma cc0 : cc zero = kk0. Proof. exact (@c0 F_fieldType). Qed.
Lemma cc1 : cc one = kk1. Proof. exact (@c1 F_fieldType). Qed.
Lemma ccadd x y : cc (add x y) = kka (cc x) (cc y). Proof. exact (@cadd F_fieldType x y). Qed.
Lemma ccmul x y : cc (mul x y) = kkm (cc x) (cc y). Proof. exact (@cmul F_fieldType a b x y). Qed.
Lemma HHXY : kkm YY YY = kka (kka (kkm XX (kkm XX XX)) (kkm (cc a) XX)) (cc b).
Proof. exact (@HXY F_fieldType a b). Qed.
Lemma HHreg x : regular KK kk0 kkm (kks XX (cc x)). Proof. exact (@Hreg F_fieldType a b x). Qed.
Lemma HHnp x y h : oncurve (Aff x y) -> mem KK kk0 kkm kks (I F KK kk1 kks cc XX YY (Aff x y)) h ->
  mem KK kk0 kkm kks (h :: nil) (kks XX (cc x)) -> mem KK kk0 kkm kks (h :: nil) (kks YY (cc y)) -> False.
Proof. exact (@Hnp F_fieldType a b x y h). Qed.
Theorem plain_closed P Q S : oncurve P -> oncurve Q -> ecadd P Q S -> oncurve S.
Proof. exact (add_closed F zero one add mul sub opp div inv FT a b P Q S). Qed.
Theorem plain_total P Q : oncurve P -> oncurve Q -> exists S, ecadd P Q S.
Proof. exact (add_total F zero one add mul sub opp div inv FT Fdec a b P Q). Qed.
Theorem plain_comm P Q S : ecadd P Q S -> ecadd Q P S.
Proof. exact (add_comm F zero one add mul sub opp div inv FT a P Q S). Qed.
Theorem plain_fun P Q S S' : oncurve P -> oncurve Q -> ecadd P Q S -> ecadd P Q S' -> S = S'.
Proof.
exact (add_fun F zero one add mul sub opp div inv FT Fdec a b KK kk0 kk1 kka kkm kks kko KKR cc cc0 cc1 ccadd ccmul XX YY HHXY HHreg HHnp Hns P Q S S').
Qed.
Theorem plain_assoc P Q R D E G G' : oncurve P -> oncurve Q -> oncurve R ->
  ecadd P Q D -> ecadd D R G -> ecadd Q R E -> ecadd P E G' -> G = G'.
Proof.
exact (add_assoc F zero one add mul sub opp div inv FT Fdec a b KK kk0 kk1 kka kkm kks kko KKR cc cc0 cc1 ccadd ccmul XX YY HHXY HHreg HHnp Hns P Q R D E G G').
Qed.
End Plain.
