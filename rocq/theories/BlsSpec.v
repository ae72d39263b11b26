(** Specification side of the BLS circuits: what "signers", "their weight",
    "their aggregated key", "trusted weight" mean, independently of the circuit.
    Only data types (keys as limb lists, residues) are shared with the model. *)
From Coq Require Import ZArith List Bool.
From Verif Require Import Params ZMod Pairing CurveSpec Bls.
Import ListNotations.
Open Scope Z_scope.

Definition zsum (l : list Z) : Z := fold_right Z.add 0 l.

(** a list of wires that are all 0 or 1 *)
Definition is_bits (bits : list Fr) : Prop := Forall (fun b => fval b = 0 \/ fval b = 1) bits.

(** the entries of [l] whose bit is 1, in order *)
Definition signers {A} (bits : list Fr) (l : list A) : list A :=
  map snd (filter (fun p => fval (fst p) =? 1) (combine bits l)).

(** integer weight of the signers *)
Definition signed_weight (bits ws : list Fr) : Z := zsum (map fval (signers bits ws)).

(** integer with the given base-2^64 digits, least significant first *)
Definition limbs_int (l : list Fr) : Z := fold_right (fun d acc => fval d + 2 ^ 64 * acc) 0 l.
(** six 64-bit digits of an integer of at most 381 bits *)
Definition limbs_wf (l : list Fr) : Prop :=
  length l = 6%nat /\ Forall (fun d => fval d < 2 ^ 64) l /\ limbs_int l < 2 ^ 381.
Definition key_wf (k : G1Key) : Prop := limbs_wf (kX k) /\ limbs_wf (kY k).
Definition key_x (k : G1Key) : Fp := ofZ pBLS (limbs_int (kX k)).
Definition key_y (k : G1Key) : Fp := ofZ pBLS (limbs_int (kY k)).

(** the curve y^2 = x^3 + 4 over Fp *)
Notation add1 := (ec_add Fp (f0 pBLS) (f1 pBLS) fadd fmul fsub fopp (f0 pBLS)).
Definition oncurve1 (P : point Fp) : Prop := on_curve Fp fadd fmul (f0 pBLS) (ofZ pBLS 4) P.
Definition key_point (k : G1Key) : point Fp := Aff (key_x k) (key_y k).

(** sum of a list of points, from left to right, starting at infinity *)
Inductive point_sum : list (point Fp) -> point Fp -> Prop :=
| ps_nil : point_sum [] Inf
| ps_snoc l P S R : point_sum l S -> add1 S P R -> point_sum (l ++ [P]) R.

(** the same sum of a non-empty list, when it never adds two points of equal abscissa *)
Inductive generic_sum : list (Fp * Fp) -> Fp * Fp -> Prop :=
| gs_one p : generic_sum [p] p
| gs_snoc l s p r : generic_sum l s -> fst s <> fst p ->
    add1 (Aff (fst s) (snd s)) (Aff (fst p) (snd p)) (Aff (fst r) (snd r)) ->
    generic_sum (l ++ [p]) r.
Definition key_xy (k : G1Key) : Fp * Fp := (key_x k, key_y k).

(** a key whose coordinates have six limbs each (emulated.Element of BLS12381Fp) *)
Definition key6 (k : G1Key) : Prop := length (kX k) = 6%nat /\ length (kY k) = 6%nat.
Definition zero_key : G1Key := mkKey (repeat (f0 rBN) 6) (repeat (f0 rBN) 6).

(** position (bit, new key, old key) of a rotation: signed, and the key is unchanged *)
Definition signed_and_kept (p : Fr * G1Key * G1Key) : Prop := fval (fst (fst p)) = 1 /\ snd (fst p) = snd p.
(** ... or not signed, and the old key is the all-zero pair of coordinates *)
Definition counted (p : Fr * G1Key * G1Key) : Prop :=
  signed_and_kept p \/ (fval (fst (fst p)) = 0 /\ snd p = zero_key).

(** [weight_where P l w]: w is the sum of the weights of the entries satisfying P *)
Inductive weight_where {A} (P : A -> Prop) : list (A * Fr) -> Z -> Prop :=
| ww_nil : weight_where P [] 0
| ww_in a w l z : P a -> weight_where P l z -> weight_where P ((a, w) :: l) (fval w + z)
| ww_out a w l z : ~ P a -> weight_where P l z -> weight_where P ((a, w) :: l) z.

(** positions of a rotation with their old weights *)
Definition positions (bits : list Fr) (new old : list G1Key) (ws : list Fr) : list (Fr * G1Key * G1Key * Fr) :=
  combine (combine (combine bits new) old) ws.
