(** Circuits with prover-chosen wires.

    Models the way a gnark [frontend.API] program behaves (all of
    /repo/spark): [Ret] = finished with a value, [Fail] = an assertion is
    violated / the Go code panics or returns an error, [Ask T h k] = a hint
    ([api.NewHint], [curveF.NewHint], [ba.NewHint]): a value of type [T] is
    chosen by the prover; [h] is what the Go hint function computes
    ([None] when the hint function itself returns an error). *)
From Coq Require Import List Bool.
Import ListNotations.

Inductive Circ (A : Type) : Type :=
| Ret (a : A)
| Fail
| Ask (T : Set) (h : option T) (k : T -> Circ A).
Arguments Ret {A} a.
Arguments Fail {A}.
Arguments Ask {A} T h k.

Fixpoint bind {A B} (c : Circ A) (f : A -> Circ B) : Circ B :=
  match c with
  | Ret a => f a
  | Fail => Fail
  | Ask T h k => Ask T h (fun t => bind (k t) f)
  end.

Notation "x <- c ;; k" := (bind c (fun x => k))
  (at level 61, c at next level, right associativity).
Notation "' p <- c ;; k" := (bind c (fun x => match x with p => k end))
  (at level 61, p pattern, c at next level, right associativity).
Notation "c ;;; k" := (bind c (fun _ : unit => k))
  (at level 61, right associativity).

Definition assert (b : bool) : Circ unit := if b then Ret tt else Fail.

(** Honest execution: every hint takes its honest value. *)
Fixpoint run {A} (c : Circ A) : option A :=
  match c with
  | Ret a => Some a
  | Fail => None
  | Ask T (Some t) k => run (k t)
  | Ask T None k => None
  end.

(** Some choice of all hint values satisfies every assertion and yields [a]. *)
Fixpoint sat {A} (c : Circ A) (a : A) : Prop :=
  match c with
  | Ret b => b = a
  | Fail => False
  | Ask T _ k => exists t : T, sat (k t) a
  end.

Definition satisfiable {A} (c : Circ A) : Prop := exists a, sat c a.

Lemma run_sat {A} (c : Circ A) a : run c = Some a -> sat c a.
Proof.
  induction c as [b| |T h k IH]; cbn; intros H; try congruence.
  destruct h as [t|]; [|congruence]. exists t. now apply IH.
Qed.

Lemma sat_bind {A B} (c : Circ A) (f : A -> Circ B) b :
  sat (bind c f) b <-> exists a, sat c a /\ sat (f a) b.
Proof.
  induction c as [a| |T h k IH]; cbn.
  - split; [intros H; now exists a | intros (x & <- & H); exact H].
  - split; [tauto | intros (x & H & _); exact H].
  - split.
    + intros (t & H). apply IH in H. destruct H as (a & Ha & Hb).
      exists a; split; [now exists t | exact Hb].
    + intros (a & (t & Ha) & Hb). exists t. apply IH. now exists a.
Qed.

Lemma run_bind {A B} (c : Circ A) (f : A -> Circ B) :
  run (bind c f) = match run c with Some a => run (f a) | None => None end.
Proof.
  induction c as [a| |T h k IH]; cbn; try reflexivity.
  destruct h; [apply IH | reflexivity].
Qed.

Lemma bind_assoc_run {A B C} (c : Circ A) (f : A -> Circ B) (g : B -> Circ C) :
  run (bind (bind c f) g) = run (bind c (fun a => bind (f a) g)).
Proof.
  rewrite !run_bind. destruct (run c); [|reflexivity].
  now rewrite run_bind.
Qed.

Lemma sat_assert b u : sat (assert b) u <-> b = true.
Proof. destruct b, u; cbn; split; congruence || tauto. Qed.

Lemma sat_ret {A} (a b : A) : sat (Ret a) b <-> a = b.
Proof. reflexivity. Qed.

Lemma sat_ret_inv {A} (a b : A) : sat (Ret a) b -> a = b.
Proof. intros H. exact H. Qed.

Lemma sat_ask {A} (T : Set) h (k : T -> Circ A) a :
  sat (Ask T h k) a <-> exists t, sat (k t) a.
Proof. reflexivity. Qed.

Lemma sat_assert_bind {B} b (f : unit -> Circ B) r :
  sat (bind (assert b) f) r <-> b = true /\ sat (f tt) r.
Proof.
  destruct b; cbn; split; try tauto; try (intros [? ?]; try congruence; tauto).
Qed.

(** Monadic iteration, for the Go [for] loops. *)
Fixpoint mfold {A S} (f : S -> A -> Circ S) (l : list A) (s : S) : Circ S :=
  match l with
  | nil => Ret s
  | x :: t => bind (f s x) (fun s' => mfold f t s')
  end.

Fixpoint mmap {A B} (f : A -> Circ B) (l : list A) : Circ (list B) :=
  match l with
  | nil => Ret nil
  | x :: t => y <- f x ;; ys <- mmap f t ;; Ret (y :: ys)
  end.

Lemma mfold_app {A S} (f : S -> A -> Circ S) l1 l2 s r :
  sat (mfold f (l1 ++ l2) s) r <-> exists m, sat (mfold f l1 s) m /\ sat (mfold f l2 m) r.
Proof.
  revert s; induction l1 as [|x t IH]; intros s; cbn [mfold app].
  - split; [intros H; exists s; cbn; auto | intros (m & <- & H); exact H].
  - rewrite sat_bind. split.
    + intros (a & Ha & H). apply IH in H. destruct H as (m & H1 & H2).
      exists m; split; [apply sat_bind; eauto | exact H2].
    + intros (m & H1 & H2). apply sat_bind in H1. destruct H1 as (a & Ha & H1).
      exists a; split; [exact Ha | apply IH; eauto].
Qed.

(** A circuit that asks nothing and never fails: used to state determinism. *)
Definition determ {A} (c : Circ A) (a : A) : Prop :=
  run c = Some a /\ forall b, sat c b -> b = a.

Lemma determ_ret {A} (a : A) : determ (Ret a) a.
Proof. split; [reflexivity | cbn; congruence]. Qed.

Lemma determ_bind {A B} (c : Circ A) (f : A -> Circ B) a b :
  determ c a -> determ (f a) b -> determ (bind c f) b.
Proof.
  intros [H1 H2] [H3 H4]. split.
  - rewrite run_bind, H1. exact H3.
  - intros b' H. apply sat_bind in H. destruct H as (a' & Ha & Hb).
    apply H2 in Ha. subst a'. now apply H4.
Qed.

Lemma determ_bind' {A B} (c : Circ A) (f : A -> Circ B) a b :
  determ c a -> (determ c a -> determ (f a) b) -> determ (bind c f) b.
Proof. intros H1 H2. eapply determ_bind; eauto. Qed.

Lemma determ_mmap {A B} (f : A -> Circ B) (g : A -> B) l :
  (forall x, In x l -> determ (f x) (g x)) -> determ (mmap f l) (map g l).
Proof.
  induction l as [|x t IH]; intros H; cbn [mmap map].
  - apply determ_ret.
  - eapply determ_bind; [apply H; now left|].
    eapply determ_bind; [apply IH; intros y Hy; apply H; now right|].
    apply determ_ret.
Qed.

Lemma determ_mfold {A S} (f : S -> A -> Circ S) (g : S -> A -> S) l s :
  (forall s x, In x l -> determ (f s x) (g s x)) ->
  determ (mfold f l s) (fold_left g l s).
Proof.
  revert s; induction l as [|x t IH]; intros s H; cbn [mfold fold_left].
  - apply determ_ret.
  - eapply determ_bind; [apply H; now left|].
    apply IH; intros s' y Hy; apply H; now right.
Qed.

Lemma determ_sat {A} (c : Circ A) a : determ c a -> forall b, sat c b <-> b = a.
Proof.
  intros [H1 H2] b; split; [apply H2 | intros ->; now apply run_sat].
Qed.

(** Fails for every choice of hints. *)
Definition unsat {A} (c : Circ A) : Prop := forall a, ~ sat c a.

Lemma unsat_bind_l {A B} (c : Circ A) (f : A -> Circ B) : unsat c -> unsat (bind c f).
Proof. intros H b Hb. apply sat_bind in Hb. destruct Hb as (a & Ha & _). now apply (H a). Qed.

Lemma unsat_bind_r {A B} (c : Circ A) (f : A -> Circ B) :
  (forall a, sat c a -> unsat (f a)) -> unsat (bind c f).
Proof. intros H b Hb. apply sat_bind in Hb. destruct Hb as (a & Ha & Hb). now apply (H a Ha b). Qed.

(** Inversion tactic for satisfaction hypotheses. *)
Ltac sat_inv :=
  repeat match goal with
  | H : sat (bind (assert _) _) _ |- _ => apply sat_assert_bind in H; destruct H as [? H]
  | H : sat (bind _ _) _ |- _ => apply sat_bind in H; destruct H as (? & ? & H)
  | H : sat (Ask _ _ _) _ |- _ => apply sat_ask in H; destruct H as (? & H)
  | H : sat (Ret _) _ |- _ => apply sat_ret_inv in H
  | H : sat (assert _) _ |- _ => apply sat_assert in H
  | H : sat Fail _ |- _ => destruct H
  end.
