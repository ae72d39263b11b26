(** C19 and C21 for any prover: exactly when addition is sound. *)
From Coq Require Import ZArith List.
From Verif Require Import Params ZMod Circuit Api Emulated Tower Pairing CurveSpec G2 G2Spec G2Jac G2Order G2Mul G2Cof G2Psi G2Clear G2Gen G2Refute FixedQ AddExact.
Open Scope Z_scope.

(** C19: every accepted result of a Jacobian addition is the sum, exactly when both
    operands are infinity, or both are finite and, if equal, the two products that
    the circuit compares have no coordinate below 2^381 - p *)
Theorem C19_exact (p a : G2Jacobian) (P Q : point E2) :
  jacobian (jX p) (jY p) (jZ p) P -> jacobian (jX a) (jY a) (jZ a) Q -> g2on P -> g2on Q ->
  ((forall r, sat (G2JacobianAddAssign p a) r -> exists R, g2add P Q R /\ jacobian (jX r) (jY r) (jZ r) R) <->
   ((P = Inf /\ Q = Inf) \/
    (P <> Inf /\ Q <> Inf /\
     (P = Q -> ~ twoReps (E2_Mul (jX a) (E2_Mul (jZ p) (jZ p))) /\ ~ twoReps (E2_Mul (jY a) (E2_Mul (jZ p) (E2_Mul (jZ p) (jZ p)))))))).
Proof. exact (add_exact p a P Q). Qed.
Print Assumptions C19_exact.
Example C19_exact_ex : jacobian (jX gJ) (jY gJ) (jZ gJ) (aff2 G2gen) /\ g2on (aff2 G2gen) /\ aff2 G2gen <> g2neg (aff2 G2gen) /\ aff2 G2gen <> Inf.
Proof. exact C19_example. Qed.

(** C21: every accepted result of an affine addition is the sum, exactly when the
    operands differ *)
Theorem C21_exact (p q : G2Affine) : g2on (aff2 p) -> g2on (aff2 q) ->
  ((forall r, sat (G2AddAssign p q) r -> g2add (aff2 p) (aff2 q) (aff2 r)) <-> aff2 p <> aff2 q).
Proof. exact (affine_add_exact p q). Qed.
Print Assumptions C21_exact.
Example C21_exact_ex : exists q, g2add (aff2 G2gen) (aff2 G2gen) (aff2 q) /\ g2on (aff2 G2gen) /\ g2on (aff2 q) /\ aff2 G2gen <> aff2 q /\ aff2 G2gen <> g2neg (aff2 q).
Proof. exact C21_example. Qed.
