(** Residues modulo n with Leibniz equality.
    Used for the native field Fr of the circuits (BN254 scalar field, the
    [frontend.Variable]s of every file in /repo/spark) and for the emulated
    field Fp (BLS12-381 base field, [emulated.Field] in
    /repo/spark/pairing_bls12381/params.go). *)
From Coq Require Import ZArith Lia Bool List Eqdep_dec Ring_theory Ring.
From Verif Require Import Params.
Import ListNotations.
Open Scope Z_scope.

(** ** Reduction modulo n.
    [zmod n z] is [z mod n] (lemma [zmod_eq]) with quick exits for arguments
    within one modulus of the range. *)
Definition zmod (n z : Z) : Z :=
  if z <? 0 then
    let y := z + n in if (0 <=? y) && (y <? n) then y else z mod n
  else if z <? n then z
  else let y := z - n in if y <? n then y
  else z mod n.

Lemma zmod_eq n z : zmod n z = z mod n.
Proof.
  unfold zmod. destruct (Z.ltb_spec z 0).
  - destruct ((0 <=? z + n) && (z + n <? n)) eqn:E; [|reflexivity].
    apply andb_true_iff in E. rewrite Z.leb_le, Z.ltb_lt in E.
    rewrite <- (Z.mod_small (z + n) n) by lia.
    replace (z + n) with (z + 1 * n) by ring. apply Z_mod_plus_full.
  - destruct (Z.ltb_spec z n); [symmetry; apply Z.mod_small; lia|].
    cbv zeta. destruct (Z.ltb_spec (z - n) n); [|reflexivity].
    destruct (Z.leb_spec 0 n) as [Hn|Hn]; [|lia].
    rewrite <- (Z.mod_small (z - n) n) by lia.
    replace (z - n) with (z + (-1) * n) by ring. apply Z_mod_plus_full.
Qed.

Record Fm (n : Z) : Set := mkF { fval : Z; fok : Z.eqb (fval mod n) fval = true }.
Arguments mkF {n} _ _.
Arguments fval {n} _.
Arguments fok {n} _.

Lemma mod_ok (n z : Z) : Z.eqb ((zmod n z) mod n) (zmod n z) = true.
Proof. apply Z.eqb_eq. rewrite zmod_eq. apply Zmod_mod. Qed.

Definition ofZ (n z : Z) : Fm n := mkF (zmod n z) (mod_ok n z).
Arguments ofZ : simpl never.

Section Ops.
Context {n : Z}.
Definition fadd (a b : Fm n) : Fm n := ofZ n (fval a + fval b).
Definition fsub (a b : Fm n) : Fm n := ofZ n (fval a - fval b).
Definition fmul (a b : Fm n) : Fm n := ofZ n (fval a * fval b).
Definition fopp (a : Fm n) : Fm n := ofZ n (- fval a).
Definition f0 : Fm n := ofZ n 0.
Definition f1 : Fm n := ofZ n 1.
Definition feqb (a b : Fm n) : bool := Z.eqb (fval a) (fval b).

Lemma fval_inj (a b : Fm n) : fval a = fval b -> a = b.
Proof.
  destruct a as [x hx], b as [y hy]; cbn; intros ->.
  f_equal. apply UIP_dec. apply bool_dec.
Qed.

Lemma feqb_eq (a b : Fm n) : feqb a b = true <-> a = b.
Proof.
  unfold feqb. rewrite Z.eqb_eq. split; [apply fval_inj | now intros ->].
Qed.

Lemma feqb_refl (a : Fm n) : feqb a a = true.
Proof. now apply feqb_eq. Qed.

Lemma feqb_neq (a b : Fm n) : feqb a b = false <-> a <> b.
Proof. rewrite <- feqb_eq. destruct (feqb a b); split; congruence. Qed.

Lemma feq_dec (a b : Fm n) : {a = b} + {a <> b}.
Proof.
  destruct (feqb a b) eqn:E; [left; now apply feqb_eq | right; now apply feqb_neq].
Defined.

Lemma fval_mod (a : Fm n) : fval a mod n = fval a.
Proof. apply Z.eqb_eq, fok. Qed.

Lemma fval_ofZ z : fval (ofZ n z) = z mod n.
Proof. apply zmod_eq. Qed.

Lemma ofZ_fval (a : Fm n) : ofZ n (fval a) = a.
Proof. apply fval_inj. rewrite fval_ofZ. apply fval_mod. Qed.

Lemma ofZ_eq x y : x mod n = y mod n -> ofZ n x = ofZ n y.
Proof. intros H; apply fval_inj; rewrite !fval_ofZ; exact H. Qed.

Lemma ofZ_inj_mod x y : ofZ n x = ofZ n y -> x mod n = y mod n.
Proof. intros H. apply (f_equal fval) in H. rewrite !fval_ofZ in H. exact H. Qed.

Lemma fval_add a b : fval (fadd a b) = (fval a + fval b) mod n.
Proof. apply fval_ofZ. Qed.
Lemma fval_mul a b : fval (fmul a b) = (fval a * fval b) mod n.
Proof. apply fval_ofZ. Qed.
Lemma fval_sub a b : fval (fsub a b) = (fval a - fval b) mod n.
Proof. apply fval_ofZ. Qed.
Lemma fval_opp a : fval (fopp a) = (- fval a) mod n.
Proof. apply fval_ofZ. Qed.

Lemma ofZ_add x y : ofZ n (x + y) = fadd (ofZ n x) (ofZ n y).
Proof. apply fval_inj. rewrite fval_add, !fval_ofZ. apply Zplus_mod. Qed.
Lemma ofZ_mul x y : ofZ n (x * y) = fmul (ofZ n x) (ofZ n y).
Proof. apply fval_inj. rewrite fval_mul, !fval_ofZ. apply Zmult_mod. Qed.
Lemma ofZ_sub x y : ofZ n (x - y) = fsub (ofZ n x) (ofZ n y).
Proof. apply fval_inj. rewrite fval_sub, !fval_ofZ. apply Zminus_mod. Qed.
Lemma ofZ_opp x : ofZ n (- x) = fopp (ofZ n x).
Proof.
  apply fval_inj. rewrite fval_opp, !fval_ofZ. change (- x) with (0 - x).
  rewrite <- Zminus_mod_idemp_r. reflexivity.
Qed.

Lemma fm_ind (P : Fm n -> Prop) : (forall z, P (ofZ n z)) -> forall a, P a.
Proof. intros H a. rewrite <- (ofZ_fval a). apply H. Qed.

Lemma Fm_rt : ring_theory f0 f1 fadd fmul fsub fopp (@eq (Fm n)).
Proof.
  constructor; intros;
    repeat match goal with a : Fm n |- _ => revert a; apply fm_ind; intro end;
    unfold f0, f1; rewrite <- ?ofZ_opp, <- ?ofZ_sub, <- ?ofZ_add, <- ?ofZ_mul;
    rewrite <- ?ofZ_opp, <- ?ofZ_sub, <- ?ofZ_add, <- ?ofZ_mul;
    rewrite <- ?ofZ_opp, <- ?ofZ_sub, <- ?ofZ_add, <- ?ofZ_mul;
    f_equal; ring.
Qed.

Lemma ofZ_morph : ring_morph f0 f1 fadd fmul fsub fopp (@eq (Fm n))
                    0 1 Z.add Z.mul Z.sub Z.opp Z.eqb (ofZ n).
Proof.
  constructor; try reflexivity; intros.
  - apply ofZ_add. - apply ofZ_sub. - apply ofZ_mul. - apply ofZ_opp.
  - apply Z.eqb_eq in H. now subst.
Qed.
End Ops.

Arguments f0 : clear implicits.
Arguments f1 : clear implicits.

Lemma fval_range {n} (a : Fm n) : 0 < n -> 0 <= fval a < n.
Proof. intros H. rewrite <- fval_mod. now apply Z.mod_pos_bound. Qed.

Lemma fval_ofZ_small {n} z : 0 <= z < n -> fval (ofZ n z) = z.
Proof. intros H. rewrite fval_ofZ. now apply Z.mod_small. Qed.

Lemma ofZ_eq_iff {n} x y : 0 < n -> ofZ n x = ofZ n y <-> (n | x - y).
Proof.
  intros H. split; intros E.
  - apply ofZ_inj_mod in E. apply Z.mod_divide; [lia|].
    rewrite Zminus_mod, E, Z.sub_diag. apply Zmod_0_l.
  - apply ofZ_eq. destruct E as [k E]. replace x with (y + k * n) by lia.
    apply Z_mod_plus_full.
Qed.

Lemma ofZ_0_iff {n} z : 0 < n -> ofZ n z = f0 n <-> (n | z).
Proof. intros H. unfold f0. rewrite ofZ_eq_iff by exact H. now rewrite Z.sub_0_r. Qed.

Notation Fr := (Fm rBN).
Notation Fp := (Fm pBLS).
