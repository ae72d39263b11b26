(** Contract of the gnark-crypto v0.12 functions that the test flow calls
    (bls12381.G1Affine, G2Affine, HashToG2, PairingCheck): what each returns,
    in terms of the group laws, RFC 9380 and the pairing.  gnark-crypto writes
    the point at infinity as (0,0).  Specification only. *)
From Coq Require Import ZArith NArith List Bool.
From Verif Require Import Params ZMod Circuit Emulated Tower TowerSpec TowerFacts Pairing CurveSpec G2Spec HashFieldSpec HashSpec Bls BlsSpec PairSpec SigSpec Helpers HashFieldProofs FinalExpSpec G2Jac.
Import ListNotations.
Open Scope Z_scope.

(** affine encoding of points *)
Definition host1 (P : point Fp) : HostG1 := match P with Inf => mkHost 0 0 | Aff x y => mkHost (fval x) (fval y) end.
Definition host2 (P : point E2) : G2Affine := match P with Inf => mkG2 E2_Zero E2_Zero | Aff x y => mkG2 x y end.

(** G1Affine.ScalarMultiplicationBase and G1Affine.Add *)
Definition base_mul (s : Z) (v : HostG1) : Prop := exists P, mul1 (g1aff G1gen) s P /\ v = host1 P.
Definition host_add1 (u v w : HostG1) : Prop :=
  exists P Q R, oncurve1 P /\ oncurve1 Q /\ u = host1 P /\ v = host1 Q /\ add1 P Q R /\ w = host1 R.
(** G2Affine.ScalarMultiplication and G2Affine.Add *)
Definition host_mul2 (a : G2Affine) (s : Z) (b : G2Affine) : Prop :=
  exists P R, g2on P /\ a = host2 P /\ g2mul P s R /\ b = host2 R.
Definition host_add2 (a b c : G2Affine) : Prop :=
  exists P Q R, g2on P /\ g2on Q /\ a = host2 P /\ b = host2 Q /\ g2add P Q R /\ c = host2 R.
(** HashToG2: hash_to_field followed by hash_to_curve of RFC 9380 *)
Definition host_hash (msg dst : list Z) (h : G2Affine) : Prop :=
  exists c0 c1 T, hash_to_field pBLS msg dst 2 = Some [c0; c1] /\ rfc_hash (pairE2 c0) (pairE2 c1) T /\ h = host2 T.
(** PairingCheck: the product of the pairings is 1, where a pair with a point at
    infinity counts 1.  The pairing is the one of C61 (bilinear, of order r,
    non-degenerate); every other one on these groups is a power of it with an
    exponent prime to r, with the same products equal to 1. *)
Definition host_pair (u : HostG1) (v : G2Affine) (e : list (list (list Fp))) : Prop :=
  ((u = host1 Inf \/ v = host2 Inf) /\ e = S12one) \/
  (v <> host2 Inf /\ exists P, u = host1 (g1aff P) /\ pairing_value P v e).
Definition host_check (us : list HostG1) (vs : list G2Affine) : Prop :=
  exists es, Forall2 (fun uv e => host_pair (fst uv) (snd uv) e) (combine us vs) es /\ fold_right S12mul S12one es = S12one.

(** ** conditions on the random values *)
(** the ranges of genRandom in generate: secrets below 2^230 (and not 0, which
    has probability 2^-230), bits, weights below 2^10 *)
Definition test_values (secrets bitlist weights : list Z) : Prop :=
  length secrets = 10%nat /\ length bitlist = 10%nat /\ length weights = 10%nat /\
  Forall (fun s => 0 < s < 2 ^ 230) secrets /\ Forall (fun b => b = 0 \/ b = 1) bitlist /\ Forall (fun w => 0 <= w < 2 ^ 10) weights.
Definition bytes32 (x : list Z) : Prop := length x = 32%nat /\ Forall (fun b => 0 <= b < 256) x.
(** no secret equals the sum of the secrets before it *)
Definition no_doubling (l : list Z) : Prop := forall a s b, l = a ++ s :: b -> a <> [] -> s <> zsum a.
(** the field elements of the message avoid the cases where the code's sign
    differs from RFC 9380 (C31), and map to different points (C32) *)
Definition plain_hash (msg dst : list Z) : Prop :=
  forall c0 c1, hash_to_field pBLS msg dst 2 = Some [c0; c1] ->
    A0 (pairE2 c0) <> fp0 /\ A0 (pairE2 c1) <> fp0 /\
    (forall x y, sswu (pairE2 c0) x y -> A0 y <> fp0) /\ (forall x y, sswu (pairE2 c1) x y -> A0 y <> fp0) /\
    (forall P0 P1, rfc_map (pairE2 c0) P0 -> rfc_map (pairE2 c1) P1 -> P0 <> P1).
(** the signers' aggregate: somebody signs, the key sum meets no doubling, and
    the pairing check does not run into the trivial easy part (C60, C62) *)
Definition good_signers (ss : list Z) (sig h : G2Affine) : Prop :=
  ss <> [] /\ no_doubling ss /\
  exists apk f, mul1 (g1aff G1gen) (zsum ss) (g1aff apk) /\ sat (MillerLoop [G1neg; apk] [sig; h]) f /\ ~ easy_trivial f.
