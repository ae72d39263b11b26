(** Fast checking of double-and-add chains on the twist from their slopes
    (proof infrastructure; no model definition depends on it). *)
From Coq Require Import ZArith List Bool Lia Uint63.
From Verif Require Import Params ZMod RingPow FastMod FastParams Emulated Tower FieldFacts TowerFacts FastTower CurveSpec G2Spec EcGroup G2Mul G2Cof G2Chain.
Import ListNotations.
Open Scope Z_scope.
Add Field E2FS : E2_ft.

(** one step: true = add the base point, false = double; the slope *)
Definition sstep : Set := bool * Z2.
Definition sa (a b : Z) : sstep := (true, (a, b)).
Definition sd (a b : Z) : sstep := (false, (a, b)).
Definition LPt : Set := L2 * L2.
Definition slopeStep (gx gy : L2) (c : LPt) (s : sstep) : option LPt :=
  let '(cx, cy) := c in
  let '(b, lZ) := s in
  let l := l2Z lZ in
  if b then
    if negb (l2eq cx gx) && l2eq (l2mul l (l2sub gx cx)) (l2sub gy cy) then
      let x := l2sub (l2sub (l2mul l l) cx) gx in Some (x, l2sub (l2mul l (l2sub cx x)) cy)
    else None
  else
    let xx := l2mul cx cx in
    if l2eq (l2mul l (l2add cy cy)) (l2add (l2add xx xx) xx) then
      let x := l2sub (l2sub (l2mul l l) cx) cx in Some (x, l2sub (l2mul l (l2sub cx x)) cy)
    else None.
Fixpoint slopeRun (gx gy : L2) (c : LPt) (l : list sstep) : option LPt :=
  match l with
  | [] => Some c
  | s :: l' => match slopeStep gx gy c s with Some c' => slopeRun gx gy c' l' | None => None end
  end.
Definition slopeEnd (l : list sstep) (k : Z) : Z := fold_left (fun k (s : sstep) => if fst s then k + 1 else 2 * k) l k.
(** the chain ends at (x, y) *)
Definition slopeOk (gx gy x y : Z2) (l : list sstep) : bool :=
  match slopeRun (l2Z gx) (l2Z gy) (l2Z gx, l2Z gy) l with
  | Some (a, b) => l2eq a (l2Z x) && l2eq b (l2Z y)
  | None => false
  end.

Local Opaque E2_Mul E2_Add E2_Sub E2_Neg l2mul l2add l2sub l2eq l2Z.
Lemma slope_step gx gy lgx lgy k cx cy lcx lcy s c' : g2on (Aff gx gy) -> stands2 lgx gx -> stands2 lgy gy -> stands2 lcx cx -> stands2 lcy cy ->
  g2mul (Aff gx gy) k (Aff cx cy) -> slopeStep lgx lgy (lcx, lcy) s = Some c' ->
  exists x y, stands2 (fst c') x /\ stands2 (snd c') y /\ g2mul (Aff gx gy) (if fst s then k + 1 else 2 * k) (Aff x y).
Proof.
  intros HP Sgx Sgy Scx Scy H C. destruct s as [b lZ]. cbn [fst snd]. unfold slopeStep in C. pose proof (st2_Z lZ) as Sl.
  pose proof (g2_mul_on _ _ _ HP H) as HC. destruct b.
  - destruct (negb (l2eq lcx lgx) && l2eq (l2mul (l2Z lZ) (l2sub lgx lcx)) (l2sub lgy lcy)) eqn:D; [|discriminate]. injection C as <-.
    rewrite !andb_true_iff, negb_true_iff in D. destruct D as (C1 & C2).
    apply (l2neq_ok _ _ _ _ Scx Sgx) in C1. apply (l2eq_ok _ _ _ _ (st2_mul _ _ _ _ Sl (st2_sub _ _ _ _ Sgx Scx)) (st2_sub _ _ _ _ Sgy Scy)) in C2.
    pose proof (st2_sub _ _ _ _ (st2_sub _ _ _ _ (st2_mul _ _ _ _ Sl Sl) Scx) Sgx) as C3.
    pose proof (st2_sub _ _ _ _ (st2_mul _ _ _ _ Sl (st2_sub _ _ _ _ Scx C3)) Scy) as C4.
    do 2 eexists. split; [exact C3|]. split; [exact C4|].
    refine (g2_mul_add _ _ _ _ _ _ HP H (g2_mul_1 _) _).
    exact (add_chord _ _ _ _ _ _ _ _ _ _ _ _ (e2Z lZ) C1 C2).
  - destruct (l2eq (l2mul (l2Z lZ) (l2add lcy lcy)) (l2add (l2add (l2mul lcx lcx) (l2mul lcx lcx)) (l2mul lcx lcx))) eqn:C2; [|discriminate]. injection C as <-.
    apply (l2eq_ok _ _ _ _ (st2_mul _ _ _ _ Sl (st2_add _ _ _ _ Scy Scy)) (st2_add _ _ _ _ (st2_add _ _ _ _ (st2_mul _ _ _ _ Scx Scx) (st2_mul _ _ _ _ Scx Scx)) (st2_mul _ _ _ _ Scx Scx))) in C2.
    pose proof (st2_sub _ _ _ _ (st2_sub _ _ _ _ (st2_mul _ _ _ _ Sl Sl) Scx) Scx) as C3.
    pose proof (st2_sub _ _ _ _ (st2_mul _ _ _ _ Sl (st2_sub _ _ _ _ Scx C3)) Scy) as C4.
    do 2 eexists. split; [exact C3|]. split; [exact C4|].
    replace (2 * k) with (k + k) by lia. refine (g2_mul_add _ _ _ _ _ _ HP H H _).
    refine (add_tangent _ _ _ _ _ _ _ _ _ _ (e2Z lZ) _ _).
    + intros D; exact (g2_y_nz _ _ HC (double_zero _ D)).
    + rewrite C2. unfold g2a. ring.
Qed.
Lemma slope_run gx gy lgx lgy l : g2on (Aff gx gy) -> stands2 lgx gx -> stands2 lgy gy -> forall k cx cy lcx lcy c', stands2 lcx cx -> stands2 lcy cy ->
  g2mul (Aff gx gy) k (Aff cx cy) -> slopeRun lgx lgy (lcx, lcy) l = Some c' ->
  exists x y, stands2 (fst c') x /\ stands2 (snd c') y /\ g2mul (Aff gx gy) (slopeEnd l k) (Aff x y).
Proof.
  intros HP Sgx Sgy. induction l as [|s l IH]; intros k cx cy lcx lcy c' Scx Scy H C; cbn [slopeRun] in C.
  - injection C as <-. exists cx, cy. auto.
  - destruct (slopeStep lgx lgy (lcx, lcy) s) as [[ax ay]|] eqn:D; [|discriminate].
    destruct (slope_step _ _ _ _ _ _ _ _ _ _ _ HP Sgx Sgy Scx Scy H D) as (x & y & Sx & Sy & H1). exact (IH _ _ _ _ _ _ Sx Sy H1 C).
Qed.
Theorem slope_ok gx gy x y l k : g2on (Aff (e2Z gx) (e2Z gy)) -> slopeOk gx gy x y l = true -> slopeEnd l 1 = k ->
  g2mul (Aff (e2Z gx) (e2Z gy)) k (Aff (e2Z x) (e2Z y)).
Proof.
  intros HP C <-. unfold slopeOk in C. destruct (slopeRun (l2Z gx) (l2Z gy) (l2Z gx, l2Z gy) l) as [[a b]|] eqn:D; [|discriminate].
  apply andb_true_iff in C. destruct C as [Ca Cb].
  destruct (slope_run _ _ _ _ _ HP (st2_Z gx) (st2_Z gy) _ _ _ _ _ _ (st2_Z gx) (st2_Z gy) (g2_mul_1 _) D) as (u & v & Su & Sv & H). cbn [fst snd] in Su, Sv.
  now rewrite <- (l2eq_ok _ _ _ _ Su (st2_Z x) Ca), <- (l2eq_ok _ _ _ _ Sv (st2_Z y) Cb).
Qed.
