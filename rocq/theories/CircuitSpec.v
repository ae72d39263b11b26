(** Specification side of the two circuits: commitments to a validator set with
    textbook Poseidon, and the sums accepted by the key aggregation.  Only data
    types (keys as limb lists, residues) are shared with the model. *)
From Coq Require Import ZArith List Bool.
From Verif Require Import Params ZMod Circuit Tower TowerSpec TowerFacts Pairing PoseidonSpec Bls BlsSpec.
Import ListNotations.
Open Scope Z_scope.

(** h is the textbook Poseidon hash of 1..16 words, with the Grain parameters *)
Definition poseidon_is (inputs : list Fr) (h : Fr) : Prop :=
  (1 <= length inputs <= 16)%nat /\
  exists rc M, grain_params (S (length inputs)) (partial_rounds (S (length inputs))) rc M /\
    h = textbook_hash rc M inputs.

(** commitment to one validator: H(H(limbs of x), H(limbs of y), weight) *)
Definition key_commit (kw : G1Key * Fr) (c : Fr) : Prop :=
  exists cx cy, poseidon_is (kX (fst kw)) cx /\ poseidon_is (kY (fst kw)) cy /\ poseidon_is [cx; cy; snd kw] c.
(** commitment to a list of validators *)
Definition set_commit (keys : list G1Key) (ws : list Fr) (c : Fr) : Prop :=
  exists cs, Forall2 key_commit (combine keys ws) cs /\ poseidon_is cs c.

(** two different inputs of one length with one hash *)
Definition poseidon_collision : Prop :=
  exists u v h, u <> v /\ length u = length v /\ poseidon_is u h /\ poseidon_is v h.

(** sum of a non-empty list of pairs by the chord formulas: the slope is any
    solution of slope * (x2 - x1) = y2 - y1 (unique unless x1 = x2) *)
Inductive chord_sum : list (Fp * Fp) -> Fp * Fp -> Prop :=
| cs_one p : chord_sum [p] p
| cs_snoc l s p lam x y : chord_sum l s ->
    fmul lam (fsub (fst p) (fst s)) = fsub (snd p) (snd s) ->
    x = fsub (fsub (fmul lam lam) (fst s)) (fst p) ->
    y = fsub (fmul lam (fsub (fst s) x)) (snd s) ->
    chord_sum (l ++ [p]) (x, y).

(** what is added up: the signers' keys in the test engine; in the compiled
    circuit the pair (0,0) stands in for every validator that did not sign *)
Definition addends (eng : engine) (bits : list Fr) (keys : list G1Key) : list (Fp * Fp) :=
  match eng with
  | TestEngine => map key_xy (signers bits keys)
  | Compiled => map (fun bk => if fval (fst bk) =? 1 then key_xy (snd bk) else (f0 pBLS, f0 pBLS)) (combine bits keys)
  end.
Definition apk_is (eng : engine) (bits : list Fr) (keys : list G1Key) (P : G1Affine) : Prop :=
  chord_sum (addends eng bits keys) (g1X P, g1Y P) \/
  (eng = TestEngine /\ signers bits keys = [] /\ P = mkG1 (f0 pBLS) (f0 pBLS)).

(** the product of the Miller values of these pairs has trivial final
    exponentiation (three times the usual exponent; 3 does not divide r) *)
Definition pairing_product (l : list (G1Affine * G2Affine)) : Prop :=
  exists rs, Forall2 (fun pq r => sat (MillerLoop [fst pq] [snd pq]) r) l rs /\
    S12pow (fold_right S12mul S12one (map rep12 rs)) (Z.to_N (3 * ((pBLS ^ 12 - 1) / rBLS))) = S12one.

(** contract of go-iden3-crypto's poseidon.Hash: the textbook hash of 1..16
    integers of [0, r), an error for other lengths or for an entry >= r *)
Definition iden3_hash (hash : list Z -> option Z) : Prop :=
  (forall l, (1 <= length l <= 16)%nat -> Forall (fun z => 0 <= z < rBN) l ->
     exists h, hash l = Some h /\ 0 <= h < rBN /\ poseidon_is (map (ofZ rBN) l) (ofZ rBN h)) /\
  (forall l, ~ (1 <= length l <= 16)%nat \/ Exists (fun z => rBN <= z) l -> hash l = None).
