(** Textbook definitions for the second group of BLS12-381 and for hashing to
    it (RFC 9380, suite BLS12381G2_XMD:SHA-256_SSWU_RO_).  Specification only:
    nothing here refers to the model of the circuits in G2.v and HashG2.v.
    Fp2 = Fp(u), u^2 = -1, is the type [E2]; PropertiesTower.v proves that its
    operations are those of Fp2. *)
From Coq Require Import ZArith NArith List Bool.
From Verif Require Import Params ZMod RingPow Emulated Tower CurveSpec.
Import ListNotations.
Open Scope Z_scope.

(** integer multiples on any short Weierstrass curve: iterated addition, and
    the opposite of it for negative multipliers *)
Definition ec_zmul (F : Type) (zero one : F) (add mul sub : F -> F -> F) (opp : F -> F) (a : F) (P : point F) (k : Z) (R : point F) : Prop :=
  if 0 <=? k then ec_mul F zero one add mul sub opp a P (Z.to_nat k) R
  else exists R', ec_mul F zero one add mul sub opp a P (Z.to_nat (- k)) R' /\ R = pneg F opp R'.

(** E2(Fp2): y^2 = x^3 + 4(1+u) *)
Definition g2a : E2 := E2_Zero.
Definition g2b : E2 := mkE2 (fpZ 4) (fpZ 4).
Definition g2on : point E2 -> Prop := on_curve E2 E2_Add E2_Mul g2a g2b.
Definition g2add : point E2 -> point E2 -> point E2 -> Prop := ec_add E2 E2_Zero E2_One E2_Add E2_Mul E2_Sub E2_Neg g2a.
Definition g2mul : point E2 -> Z -> point E2 -> Prop := ec_zmul E2 E2_Zero E2_One E2_Add E2_Mul E2_Sub E2_Neg g2a.
Definition g2neg : point E2 -> point E2 := pneg E2 E2_Neg.

(** the seed of the BLS12-381 family *)
Definition blsX : Z := -15132376222941642752.

(** Jacobian coordinates: (X, Y, Z) stands for (X/Z^2, Y/Z^3), and for the
    point at infinity when Z = 0 *)
Definition jacobian (X Y Z : E2) (P : point E2) : Prop :=
  match P with
  | Inf => Z = E2_Zero
  | Aff x y => Z <> E2_Zero /\ X = E2_Mul x (E2_Mul Z Z) /\ Y = E2_Mul y (E2_Mul Z (E2_Mul Z Z))
  end.

(** the untwist-Frobenius-twist endomorphism: with w^6 = 1+u the twist sends
    (x, y) to (w^2 x, w^3 y), so psi (x, y) = (x^p / (1+u)^((p-1)/3), y^p / (1+u)^((p-1)/2)) *)
Definition psi_of (P Q : point E2) : Prop :=
  match P, Q with
  | Inf, Inf => True
  | Aff x y, Aff x' y' =>
      E2_Mul x' (npow E2_One E2_Mul E2_NonResidue (Z.to_N ((pBLS - 1) / 3))) = npow E2_One E2_Mul x (Z.to_N pBLS) /\
      E2_Mul y' (npow E2_One E2_Mul E2_NonResidue (Z.to_N ((pBLS - 1) / 2))) = npow E2_One E2_Mul y (Z.to_N pBLS)
  | _, _ => False
  end.

(** no positive multiple up to N is the point at infinity *)
Definition order_above (N : Z) (P : point E2) : Prop := forall k, 0 < k <= N -> ~ g2mul P k Inf.

(** the cofactor formula, on points: R = [x^2-x-1]P + psi([x-1]P) + psi(psi([2]P)) *)
Definition cleared (P R : point E2) : Prop :=
  exists A B0 B C0 C1 C S,
    g2mul P (blsX * blsX - blsX - 1) A /\ g2mul P (blsX - 1) B0 /\ psi_of B0 B /\
    g2mul P 2 C0 /\ psi_of C0 C1 /\ psi_of C1 C /\ g2add A B S /\ g2add S C R.
Definition nonexc (P Q : point E2) : Prop := P <> Inf /\ Q <> Inf /\ P <> Q /\ P <> g2neg Q.
(** none of the three additions of the formula is exceptional *)
Definition clear_generic (P : point E2) : Prop :=
  order_above (blsX * blsX - blsX + 1) P /\
  forall A B0 B C0 C1 C S, g2mul P (blsX * blsX - blsX - 1) A -> g2mul P (blsX - 1) B0 -> psi_of B0 B ->
    g2mul P 2 C0 -> psi_of C0 C1 -> psi_of C1 C -> g2add A B S -> nonexc A B /\ nonexc S C.
(** the subgroup of order r, by the criterion psi(P) = [x]P *)
Definition in_G2 (P : point E2) : Prop := g2on P /\ P <> Inf /\ exists Q, psi_of P Q /\ g2mul P blsX Q.

(** RFC 9380, section 4.1: sgn0 for an extension of degree 2 *)
Definition sgn0 (x : E2) : bool :=
  let sign_0 := Z.odd (fval (A0 x)) in
  let zero_0 := fval (A0 x) =? 0 in
  let sign_1 := Z.odd (fval (A1 x)) in
  sign_0 || (zero_0 && sign_1).

(** RFC 9380, section 8.8.2: the isogenous curve E': y^2 = x^3 + A x + B and Z *)
Definition isoA : E2 := mkE2 (fpZ 0) (fpZ 240).
Definition isoB : E2 := mkE2 (fpZ 1012) (fpZ 1012).
Definition isoZ : E2 := mkE2 (fpZ (-2)) (fpZ (-1)).
Definition isoon : point E2 -> Prop := on_curve E2 E2_Add E2_Mul isoA isoB.
Definition is_square (x : E2) : Prop := exists y, E2_Mul y y = x.

(** RFC 9380, section 6.6.2: the right-hand side of the curve equation, and the
    simplified SWU map without the final choice of sign *)
Definition iso_g (x : E2) : E2 := E2_Add (E2_Add (E2_Mul (E2_Mul x x) x) (E2_Mul isoA x)) isoB.
Definition sswu_x1 (u x1 : E2) : Prop :=
  let d := E2_Add (E2_Mul (E2_Mul isoZ isoZ) (E2_Mul (E2_Mul u u) (E2_Mul u u))) (E2_Mul isoZ (E2_Mul u u)) in
  (d <> E2_Zero -> exists t, E2_Mul t d = E2_One /\ E2_Mul x1 isoA = E2_Mul (E2_Neg isoB) (E2_Add E2_One t)) /\
  (d = E2_Zero -> E2_Mul x1 (E2_Mul isoZ isoA) = isoB).
Definition sswu_x2 (u x1 x2 : E2) : Prop := x2 = E2_Mul (E2_Mul isoZ (E2_Mul u u)) x1.
Definition sswu_xy (u x y : E2) : Prop :=
  exists x1 x2, sswu_x1 u x1 /\ sswu_x2 u x1 x2 /\
  (is_square (iso_g x1) -> x = x1) /\ (~ is_square (iso_g x1) -> x = x2) /\ E2_Mul y y = iso_g x.
(** with the choice of sign *)
Definition sswu (u x y : E2) : Prop := sswu_xy u x y /\ sgn0 u = sgn0 y.
