(** The points of the twist as an abelian group with functions in place of
    relations: addition, multiples, psi and the cofactor formula. *)
From Coq Require Import ZArith List Bool Lia Field Znumtheory Eqdep_dec.
From Verif Require Import Params ZMod RingPow Emulated FieldFacts Tower TowerFacts CurveSpec G2 G2Spec EcGroup G2Jac G2Mul G2Cof G2Psi G2Clear G2Order G2ClearFacts PairMul G2Cyclic SubCount.
Import ListNotations.
Open Scope Z_scope.
Add Field E2FTG : E2_ft.

Definition gaddf (P Q : point E2) : point E2 :=
  match P, Q with
  | Inf, _ => Q
  | _, Inf => P
  | Aff x1 y1, Aff x2 y2 =>
      if E2_dec x1 x2 then
        if E2_dec y2 (E2_Neg y1) then Inf
        else third E2 E2_Mul E2_Sub (E2_Mul (E2_Mul (E2_Add (E2_Add E2_One E2_One) E2_One) (E2_Mul x1 x1)) (E2_inv (E2_Add y1 y1))) x1 y1 x1
      else third E2 E2_Mul E2_Sub (E2_Mul (E2_Sub y2 y1) (E2_inv (E2_Sub x2 x1))) x1 y1 x2
  end.
Lemma gaddf_ok P Q : g2on P -> g2on Q -> g2add P Q (gaddf P Q).
Proof.
  intros HP HQ. destruct P as [|x1 y1]; [constructor|]. destruct Q as [|x2 y2]; [constructor|]. cbn [gaddf].
  destruct (E2_dec x1 x2) as [<-|N].
  - destruct (E2_dec y2 (E2_Neg y1)) as [E|N]; [now constructor|]. destruct (same_x _ _ _ HP HQ) as [<-|C]; [|contradiction].
    assert (Y : E2_Add y1 y1 <> E2_Zero). { intros Z. apply N. transitivity (E2_Sub (E2_Add y1 y1) y1); [ring | rewrite Z; ring]. }
    apply add_tangent; [exact Y|]. unfold g2a. field. exact Y.
  - assert (D : E2_Sub x2 x1 <> E2_Zero). { intros Z. apply N. transitivity (E2_Sub x2 (E2_Sub x2 x1)); [ring | rewrite Z; ring]. }
    apply add_chord; [exact N|]. field. exact D.
Qed.

Definition Tw : Type := {P : point E2 | g2on P}.
Definition tv (x : Tw) : point E2 := proj1_sig x.
Definition ton (x : Tw) : g2on (tv x) := proj2_sig x.
Lemma g2on_irr P (a b : g2on P) : a = b.
Proof.
  destruct P as [|x y]; [destruct a, b; reflexivity|]. apply UIP_dec. exact E2_dec.
Qed.
Lemma tv_inj x y : tv x = tv y -> x = y.
Proof. destruct x as [P a], y as [Q b]. cbn. intros <-. now rewrite (g2on_irr P a b). Qed.
Definition tof (P : point E2) (H : g2on P) : Tw := exist _ P H.
Definition tadd (x y : Tw) : Tw := tof (gaddf (tv x) (tv y)) (g2_closed _ _ _ (ton x) (ton y) (gaddf_ok _ _ (ton x) (ton y))).
Definition topp (x : Tw) : Tw := tof (g2neg (tv x)) (g2_neg_on _ (ton x)).
Definition tO : Tw := tof Inf Logic.I.
Definition tpsi (x : Tw) : Tw := tof (psiP (tv x)) (psiP_on _ (ton x)).
Lemma tadd_ok x y : g2add (tv x) (tv y) (tv (tadd x y)).
Proof. exact (gaddf_ok _ _ (ton x) (ton y)). Qed.
Lemma tadd_fun x y S : g2add (tv x) (tv y) S -> S = tv (tadd x y).
Proof. intros H. exact (g2_func _ _ _ _ (ton x) (ton y) H (tadd_ok x y)). Qed.
Global Opaque tadd.
Lemma tdec (x y : Tw) : {x = y} + {x <> y}.
Proof. destruct (g2_dec (tv x) (tv y)) as [E|N]; [left; now apply tv_inj | right; intros ->; now apply N]. Qed.
Lemma tassoc x y z : tadd (tadd x y) z = tadd x (tadd y z).
Proof. apply tv_inj. exact (g2_assoc _ _ _ _ _ _ _ (ton x) (ton y) (ton z) (tadd_ok x y) (tadd_ok _ z) (tadd_ok y z) (tadd_ok x _)). Qed.
Lemma tcomm x y : tadd x y = tadd y x.
Proof. apply tv_inj. apply tadd_fun, g2_comm, tadd_ok. Qed.
Lemma tadd_O x : tadd tO x = x.
Proof. apply tv_inj. symmetry. apply tadd_fun. constructor. Qed.
Lemma tadd_opp x : tadd x (topp x) = tO.
Proof. apply tv_inj. symmetry. apply tadd_fun. apply g2_add_neg. Qed.
Lemma topp_v x : tv (topp x) = g2neg (tv x). Proof. reflexivity. Qed.

Definition tm (k : Z) (x : Tw) : Tw := zm Tw tadd topp tO k x.
Lemma tm_0 x : tm 0 x = tO. Proof. exact (zm_0 _ _ _ _ x). Qed.
Lemma tm_1 x : tm 1 x = x. Proof. exact (zm_1 _ _ _ _ tadd_O x). Qed.
Lemma tm_step k x : tm (k + 1) x = tadd (tm k x) x. Proof. exact (zm_step _ _ _ _ tassoc tcomm tadd_O tadd_opp k x). Qed.
Lemma tm_add i j x : tm (i + j) x = tadd (tm i x) (tm j x). Proof. exact (zm_add _ _ _ _ tassoc tcomm tadd_O tadd_opp i j x). Qed.
Lemma tm_sum k x y : tm k (tadd x y) = tadd (tm k x) (tm k y). Proof. exact (zm_sum _ _ _ _ tassoc tcomm tadd_O tadd_opp k x y). Qed.
Lemma tm_mul i j x : tm (i * j) x = tm i (tm j x). Proof. exact (zm_mul _ _ _ _ tassoc tcomm tadd_O tadd_opp i j x). Qed.
Lemma tm_neg k x : tm (- k) x = topp (tm k x). Proof. exact (zm_neg _ _ _ _ tassoc tcomm tadd_O tadd_opp k x). Qed.
Lemma tm_opp k x : tm k (topp x) = topp (tm k x). Proof. exact (zm_opp _ _ _ _ tassoc tcomm tadd_O tadd_opp k x). Qed.
Lemma tm_O k : tm k tO = tO. Proof. exact (zm_O _ _ _ _ tassoc tcomm tadd_O tadd_opp k). Qed.
Lemma tm_kill m k x : tm m x = tO -> (m | k) -> tm k x = tO. Proof. exact (zm_kill _ _ _ _ tassoc tcomm tadd_O tadd_opp m k x). Qed.
Lemma tm_unit l d x : prime l -> tm l x = tO -> ~ (l | d) -> exists u, x = tm u (tm d x). Proof. exact (zm_unit _ _ _ _ tassoc tcomm tadd_O tadd_opp l d x). Qed.
Lemma tadd_O_r x : tadd x tO = x. Proof. exact (add_O_r _ _ _ tcomm tadd_O x). Qed.
Lemma topp_add x y : topp (tadd x y) = tadd (topp x) (topp y). Proof. exact (opp_add _ _ _ _ tassoc tcomm tadd_O tadd_opp x y). Qed.
Lemma tswap a b c d : tadd (tadd a b) (tadd c d) = tadd (tadd a c) (tadd b d). Proof. exact (swap4 _ _ tassoc tcomm a b c d). Qed.
Lemma tcancel x y z : tadd x z = tadd y z -> x = y. Proof. exact (cancel_r _ _ _ _ tassoc tcomm tadd_O tadd_opp x y z). Qed.
Lemma topp_unique x y : tadd x y = tO -> y = topp x. Proof. exact (opp_unique _ _ _ _ tassoc tcomm tadd_O tadd_opp x y). Qed.
Lemma topp_opp x : topp (topp x) = x. Proof. apply tv_inj. apply g2_neg_neg. Qed.
Global Opaque tm.
Lemma tm_ok k x : g2mul (tv x) k (tv (tm k x)).
Proof.
  revert k. apply zm_ind.
  - rewrite tm_0. apply g2_mul_0.
  - intros k. rewrite tm_step. split; intros H.
    + exact (g2_mul_add _ _ _ _ _ _ (ton x) H (g2_mul_1 _) (tadd_ok _ _)).
    + pose proof (g2_mul_neg _ _ _ (g2_mul_1 (tv x))) as N1. replace k with (k + 1 + -1) at 1 by lia.
      refine (g2_mul_add _ _ _ _ _ _ (ton x) H N1 _). exact (g2_add_cancel _ _ _ (ton _) (ton x) (tadd_ok _ _)).
Qed.
Lemma tm_iff k x R : g2mul (tv x) k R <-> R = tv (tm k x).
Proof. split; [intros H; exact (g2_mul_fun _ _ _ _ (ton x) H (tm_ok k x)) | intros ->; apply tm_ok]. Qed.
Lemma tm_eq k x y : g2mul (tv x) k (tv y) -> tm k x = y.
Proof. intros H. apply tv_inj. symmetry. now apply tm_iff. Qed.
Lemma tm_inf k x : g2mul (tv x) k Inf <-> tm k x = tO.
Proof. rewrite tm_iff. split; [intros H; apply tv_inj; now rewrite <- H | intros ->; reflexivity]. Qed.

Lemma tpsi_add x y : tpsi (tadd x y) = tadd (tpsi x) (tpsi y).
Proof. apply tv_inj. apply tadd_fun. cbn [tv tpsi tof proj1_sig]. apply psiP_add. apply tadd_ok. Qed.
Lemma tpsi_opp x : tpsi (topp x) = topp (tpsi x).
Proof. apply tv_inj. apply psiP_neg. Qed.
Lemma tpsi_m k x : tpsi (tm k x) = tm k (tpsi x).
Proof. symmetry. apply tm_eq. exact (psi_mul _ _ _ (tm_ok k x)). Qed.
Lemma tpsi_O : tpsi tO = tO. Proof. now apply tv_inj. Qed.

Lemma tpsi_v x : psi_of (tv x) (tv (tpsi x)).
Proof. apply (proj2 (psiP_spec (tv x) (tv (tpsi x)))). reflexivity. Qed.
(** the cofactor formula *)
Definition tcl (x : Tw) : Tw := tadd (tadd (tm (blsX * blsX - blsX - 1) x) (tpsi (tm (blsX - 1) x))) (tpsi (tpsi (tm 2 x))).
Lemma tcl_ok x : cleared (tv x) (tv (tcl x)).
Proof.
  exists (tv (tm (blsX * blsX - blsX - 1) x)), (tv (tm (blsX - 1) x)), (tv (tpsi (tm (blsX - 1) x))), (tv (tm 2 x)), (tv (tpsi (tm 2 x))), (tv (tpsi (tpsi (tm 2 x)))), (tv (tadd (tm (blsX * blsX - blsX - 1) x) (tpsi (tm (blsX - 1) x)))).
  split; [apply tm_ok|]. split; [apply tm_ok|]. split; [apply tpsi_v|]. split; [apply tm_ok|]. split; [apply tpsi_v|]. split; [apply tpsi_v|]. split; apply tadd_ok.
Qed.
Lemma tcl_iff x R : cleared (tv x) R <-> R = tv (tcl x).
Proof. split; [intros H; exact (cleared_fun _ _ _ (ton x) H (tcl_ok x)) | intros ->; apply tcl_ok]. Qed.
Lemma tcl_add x y : tcl (tadd x y) = tadd (tcl x) (tcl y).
Proof. unfold tcl. rewrite !tm_sum, !tpsi_add. rewrite (tswap (tm _ x) (tm _ y)). apply tswap. Qed.
Lemma tcl_opp x : tcl (topp x) = topp (tcl x).
Proof. unfold tcl. now rewrite !tm_opp, !tpsi_opp, !topp_add. Qed.
Lemma tcl_O : tcl tO = tO.
Proof. unfold tcl. now rewrite !tm_O, !tpsi_O, !tadd_O. Qed.
Lemma tcl_psi x : tcl (tpsi x) = tpsi (tcl x).
Proof. unfold tcl. now rewrite !tpsi_add, <- !tpsi_m. Qed.
(** psi x = lam x *)
Lemma tcl_eig l lam x : tpsi x = tm lam x -> tm l x = tO -> (l | blsX * blsX - blsX - 1 + lam * (blsX - 1) + lam * (lam * 2)) -> tcl x = tO.
Proof.
  intros E K D. assert (EP : forall k, tpsi (tm k x) = tm (lam * k) x) by (intros k; now rewrite tpsi_m, E, <- tm_mul, Z.mul_comm).
  unfold tcl. rewrite !EP, <- !tm_add. exact (tm_kill _ _ _ K D).
Qed.
(** psi^2 x = c0 x + c1 psi x *)
Lemma tcl_quad l c0 c1 x : tpsi (tpsi x) = tadd (tm c0 x) (tm c1 (tpsi x)) -> tm l x = tO -> (l | blsX * blsX - blsX - 1 + 2 * c0) -> (l | blsX - 1 + 2 * c1) -> tcl x = tO.
Proof.
  intros E K D0 D1. unfold tcl. rewrite !tpsi_m, E, tm_sum, <- !tm_mul, tswap, <- !tm_add.
  rewrite (tm_kill l _ _ K D0), (tm_kill l); [apply tadd_O | rewrite <- tpsi_m, K; apply tpsi_O | exact D1].
Qed.
