(** Fast checking of double-and-add chains on the twist (proof
    infrastructure; no model definition depends on it). *)
From Coq Require Import ZArith List Bool Lia Uint63.
From Verif Require Import Params ZMod RingPow FastMod FastParams Emulated Tower FieldFacts TowerFacts FastTower CurveSpec G2Spec EcGroup G2Mul G2Cof.
Import ListNotations.
Open Scope Z_scope.
Add Field E2FC : E2_ft.

Definition Z2 : Set := Z * Z.
Definition e2Z (z : Z2) : E2 := mkE2 (fpZ (fst z)) (fpZ (snd z)).
Definition l2Z (z : Z2) : L2 := (inM MPp (zmod pBLS (fst z)), inM MPp (zmod pBLS (snd z))).
Lemma st2_Z z : stands2 (l2Z z) (e2Z z).
Proof. apply st2_mk; apply st_lit. Qed.

(** one step: true = add the base point, false = double; slope and result *)
Definition cstep : Set := bool * Z2 * Z2 * Z2.
Definition cs (b : bool) (l0 l1 x0 x1 y0 y1 : Z) : cstep := (b, (l0, l1), (x0, x1), (y0, y1)).
Definition stepOk (gx gy cx cy : L2) (s : cstep) : bool :=
  let '(b, lZ, xZ, yZ) := s in
  let l := l2Z lZ in let x := l2Z xZ in let y := l2Z yZ in
  let ll := l2mul l l in
  if b then
    negb (l2eq cx gx) && l2eq (l2mul l (l2sub gx cx)) (l2sub gy cy) &&
    l2eq (l2sub (l2sub ll cx) gx) x && l2eq (l2sub (l2mul l (l2sub cx x)) cy) y
  else
    let xx := l2mul cx cx in
    l2eq (l2mul l (l2add cy cy)) (l2add (l2add xx xx) xx) &&
    l2eq (l2sub (l2sub ll cx) cx) x && l2eq (l2sub (l2mul l (l2sub cx x)) cy) y.
Fixpoint chainOk (gx gy cx cy : L2) (l : list cstep) : bool :=
  match l with
  | [] => true
  | (b, lZ, xZ, yZ) :: l' => stepOk gx gy cx cy (b, lZ, xZ, yZ) && chainOk gx gy (l2Z xZ) (l2Z yZ) l'
  end.
Definition chainEndZ (l : list cstep) (k : Z) : Z := fold_left (fun k (s : cstep) => if fst (fst (fst s)) then k + 1 else 2 * k) l k.
Definition chainLast (l : list cstep) (d : Z2 * Z2) : Z2 * Z2 := fold_left (fun _ (s : cstep) => (snd (fst s), snd s)) l d.

Local Opaque E2_Mul E2_Add E2_Sub E2_Neg l2mul l2add l2sub l2eq l2Z.
Lemma step_mul P k cx cy s lcx lcy lgx lgy gx gy : g2on P -> P = Aff gx gy -> stands2 lgx gx -> stands2 lgy gy -> stands2 lcx cx -> stands2 lcy cy ->
  g2mul P k (Aff cx cy) -> stepOk lgx lgy lcx lcy s = true ->
  g2mul P (if fst (fst (fst s)) then k + 1 else 2 * k) (Aff (e2Z (snd (fst s))) (e2Z (snd s))).
Proof.
  intros HP EP Sgx Sgy Scx Scy H C. destruct s as (((b & lZ) & xZ) & yZ). cbn [fst snd]. unfold stepOk in C. pose proof (st2_Z lZ) as Sl. pose proof (st2_Z xZ) as Sx. pose proof (st2_Z yZ) as Sy.
  pose proof (g2_mul_on _ _ _ HP H) as HC.
  destruct b.
  - rewrite !andb_true_iff, negb_true_iff in C. destruct C as (((C1 & C2) & C3) & C4).
    apply (l2neq_ok _ _ _ _ Scx Sgx) in C1. apply (l2eq_ok _ _ _ _ (st2_mul _ _ _ _ Sl (st2_sub _ _ _ _ Sgx Scx)) (st2_sub _ _ _ _ Sgy Scy)) in C2.
    apply (l2eq_ok _ _ _ _ (st2_sub _ _ _ _ (st2_sub _ _ _ _ (st2_mul _ _ _ _ Sl Sl) Scx) Sgx) Sx) in C3.
    apply (l2eq_ok _ _ _ _ (st2_sub _ _ _ _ (st2_mul _ _ _ _ Sl (st2_sub _ _ _ _ Scx Sx)) Scy) Sy) in C4.
    refine (g2_mul_add _ _ _ _ _ _ HP H (g2_mul_1 P) _). rewrite EP.
    replace (Aff (e2Z xZ) (e2Z yZ)) with (third E2 E2_Mul E2_Sub (e2Z lZ) cx cy gx); [now apply add_chord|].
    unfold third. cbv zeta. rewrite C3, C4. reflexivity.
  - rewrite !andb_true_iff in C. destruct C as ((C2 & C3) & C4).
    apply (l2eq_ok _ _ _ _ (st2_mul _ _ _ _ Sl (st2_add _ _ _ _ Scy Scy)) (st2_add _ _ _ _ (st2_add _ _ _ _ (st2_mul _ _ _ _ Scx Scx) (st2_mul _ _ _ _ Scx Scx)) (st2_mul _ _ _ _ Scx Scx))) in C2.
    apply (l2eq_ok _ _ _ _ (st2_sub _ _ _ _ (st2_sub _ _ _ _ (st2_mul _ _ _ _ Sl Sl) Scx) Scx) Sx) in C3.
    apply (l2eq_ok _ _ _ _ (st2_sub _ _ _ _ (st2_mul _ _ _ _ Sl (st2_sub _ _ _ _ Scx Sx)) Scy) Sy) in C4.
    replace (2 * k) with (k + k) by lia. refine (g2_mul_add _ _ _ _ _ _ HP H H _).
    replace (Aff (e2Z xZ) (e2Z yZ)) with (third E2 E2_Mul E2_Sub (e2Z lZ) cx cy cx).
    + apply add_tangent; [intros D; exact (g2_y_nz _ _ HC (double_zero _ D))|]. rewrite C2. unfold g2a. ring.
    + unfold third. cbv zeta. rewrite C3, C4. reflexivity.
Qed.
Lemma chain_mul l : forall P k cxZ cyZ gx gy lgx lgy, g2on P -> P = Aff gx gy -> stands2 lgx gx -> stands2 lgy gy ->
  g2mul P k (Aff (e2Z cxZ) (e2Z cyZ)) -> chainOk lgx lgy (l2Z cxZ) (l2Z cyZ) l = true ->
  g2mul P (chainEndZ l k) (Aff (e2Z (fst (chainLast l (cxZ, cyZ)))) (e2Z (snd (chainLast l (cxZ, cyZ))))).
Proof.
  induction l as [|s l IH]; intros P k cxZ cyZ gx gy lgx lgy HP EP Sgx Sgy H C; [exact H|]. destruct s as (((b & lZ) & xZ) & yZ).
  cbn [chainOk] in C. apply andb_true_iff in C. destruct C as [C1 C2].
  pose proof (step_mul P k _ _ _ _ _ _ _ _ _ HP EP Sgx Sgy (st2_Z cxZ) (st2_Z cyZ) H C1) as H1. cbn [fst snd] in H1.
  exact (IH P _ xZ yZ gx gy lgx lgy HP EP Sgx Sgy H1 C2).
Qed.
(** from the base point itself *)
Theorem chain_run gxZ gyZ l k xZ yZ : g2on (Aff (e2Z gxZ) (e2Z gyZ)) -> chainOk (l2Z gxZ) (l2Z gyZ) (l2Z gxZ) (l2Z gyZ) l = true ->
  chainEndZ l 1 = k -> chainLast l (gxZ, gyZ) = (xZ, yZ) -> g2mul (Aff (e2Z gxZ) (e2Z gyZ)) k (Aff (e2Z xZ) (e2Z yZ)).
Proof.
  intros HP C <- E. pose proof (chain_mul l _ 1 gxZ gyZ _ _ _ _ HP eq_refl (st2_Z gxZ) (st2_Z gyZ) (g2_mul_1 _) C) as H. now rewrite E in H.
Qed.
