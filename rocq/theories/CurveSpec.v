(** Textbook short Weierstrass curves y^2 = x^3 + a x + b over any field and
    the chord-and-tangent law, as relations (no division).  Specification
    only: nothing here refers to the model. *)

Section Curve.
Variable F : Type.
Variables (zero one : F) (add mul sub : F -> F -> F) (opp : F -> F).
Local Infix "+" := add.
Local Infix "*" := mul.
Local Infix "-" := sub.

(** affine point, or the point at infinity *)
Inductive point : Type := Inf | Aff (x y : F).

Definition on_curve (a b : F) (P : point) : Prop :=
  match P with
  | Inf => True
  | Aff x y => y * y = x * x * x + a * x + b
  end.

Definition pneg (P : point) : point :=
  match P with Inf => Inf | Aff x y => Aff x (opp y) end.

(** third point on the line of slope l through (x1,y1), reflected *)
Definition third (l x1 y1 x2 : F) : point :=
  let x3 := l * l - x1 - x2 in Aff x3 (l * (x1 - x3) - y1).

(** [ec_add a P Q R] : R = P + Q *)
Inductive ec_add (a : F) : point -> point -> point -> Prop :=
| add_inf_l Q : ec_add a Inf Q Q
| add_inf_r P : ec_add a P Inf P
| add_opp x y y' : y' = opp y -> ec_add a (Aff x y) (Aff x y') Inf
| add_chord x1 y1 x2 y2 l :
    x1 <> x2 -> l * (x2 - x1) = y2 - y1 ->
    ec_add a (Aff x1 y1) (Aff x2 y2) (third l x1 y1 x2)
| add_tangent x y l :
    y + y <> zero -> l * (y + y) = (one + one + one) * (x * x) + a ->
    ec_add a (Aff x y) (Aff x y) (third l x y x).

(** k-fold sum, by iterating the addition relation *)
Inductive ec_mul (a : F) (P : point) : nat -> point -> Prop :=
| mul_0 : ec_mul a P O Inf
| mul_S k R S : ec_mul a P k R -> ec_add a R P S -> ec_mul a P (Datatypes.S k) S.

(** The line Y + r0 X + r1 = 0 meets y^2 = x^3 + a x + b exactly in the
    points with abscissae x1, x2, x3 (with multiplicity). *)
Definition on_line (r0 r1 X Y : F) : Prop := Y + r0 * X + r1 = zero.
Definition meets (a b r0 r1 x1 x2 x3 : F) : Prop :=
  forall X Y, on_line r0 r1 X Y ->
    (X * X * X + a * X + b) - Y * Y = (X - x1) * (X - x2) * (X - x3).
End Curve.
Arguments Inf {F}.
Arguments Aff {F} x y.
