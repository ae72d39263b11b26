(** Model of the host-side helpers that build the circuits' inputs:
    /repo/spark/pairing_bls12381/g1.go:11-24 and
    /repo/spark/test_helpers.go:166-189 (trusted weight in generateNew),
    218-240 (genCommitment), 248-256, 258-265, 267-273, and the message of
    /repo/spark/bls-rotate_test.go:21-26.
    Key generation and signing are in HostFlow.v; random sampling is not modelled. *)
From Coq Require Import ZArith List Bool.
From Verif Require Import Params ZMod Poseidon Bls HashG2.
Import ListNotations.
Open Scope Z_scope.

(** bls12381.G1Affine of gnark-crypto: two integers below p *)
Record HostG1 : Set := mkHost { hX : Z; hY : Z }.

(** emulated.ValueOf: the six base-2^64 digits, least significant first *)
Definition limbsOf (z : Z) : list Z := map (fun i => (z / 2 ^ (64 * Z.of_nat i)) mod 2 ^ 64) (seq 0 6).
(** g1.go:11-16 *)
Definition NewG1Affine (v : HostG1) : G1Key := mkKey (map (ofZ rBN) (limbsOf (hX v))) (map (ofZ rBN) (limbsOf (hY v))).
(** g1.go:18-24 *)
Definition NewG1AffineArray (v : list HostG1) : list G1Key := map NewG1Affine v.

(** test_helpers.go:248-256 (bigIntToVariableArray) *)
Definition bigIntToVariableArray (p : list Z) : list Fr := map (ofZ rBN) p.

(** test_helpers.go:218-240; [hash] is PoseidonHash (lines 267-273), that is
    go-iden3-crypto's poseidon.Hash with a panic on error *)
Definition genOne (hash : list Z -> option Z) (pk : HostG1) (w : Z) : option Z :=
  obind (hash (limbsOf (hX pk))) (fun cmX =>
  obind (hash (limbsOf (hY pk))) (fun cmY =>
  hash [cmX; cmY; w])).
Definition genCommitment (hash : list Z -> option Z) (publicKeys : list HostG1) (weights : list Z) : option Z :=
  obind (omap (fun i => genOne hash (nth i publicKeys (mkHost 0 0)) (nth i weights 0)) (seq 0 10)) hash.

(** test_helpers.go:258-265; the strings compared are decimal forms of X *)
Definition contains (arr : list Z) (val : Z) : bool := existsb (Z.eqb val) arr.
(** big.Int.Int64: the low 64 bits, as a signed number; int is 64 bits wide *)
Definition int64 (z : Z) : Z := (z + 2 ^ 63) mod 2 ^ 64 - 2 ^ 63.
(** test_helpers.go:166-189, the part that computes trustedWeight *)
Definition helperTrusted (oldKeys newKeys : list HostG1) (weights bitlist : list Z) : Z :=
  let tt := map hX oldKeys in
  fold_left (fun acc i =>
    let isOld := contains tt (hX (nth i newKeys (mkHost 0 0))) in
    if isOld && (int64 (nth i bitlist 0) =? 1) then int64 (acc + int64 (nth i weights 0)) else acc)
    (seq 0 (length newKeys)) 0.

(** bls-rotate_test.go:21-26 and test_helpers.go:160-161: the signed message is
    newApkCommitment.Bytes() *)
Definition helperMessage (commitment : Z) : list Z := bigBytes commitment.
