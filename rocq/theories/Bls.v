(** Model of /repo/spark/pairing_bls12381/pairing.go:725-866 (key aggregation,
    trusted weight, equality checks), /repo/spark/test_helpers.go:15-37,
    /repo/spark/bls-bls12381_sig.go, /repo/spark/bls-tx.go and
    /repo/spark/bls-rotate.go (the two circuits). *)
From Coq Require Import ZArith List Bool.
From Verif Require Import Params ZMod Circuit Api Emulated Tower Pairing HashField HashG2 Poseidon.
Import ListNotations.
Open Scope Z_scope.
Local Notation fr0 := (f0 rBN).

(** A public key as assigned to the circuit: a G1Affine whose two coordinates
    are [emulated.Element]s, seen as their limbs (base 2^64, least significant
    first).  pairing.go: G1Affine; emulated.Element.Limbs. *)
Record G1Key : Set := mkKey { kX : list Fr; kY : list Fr }.

(** gnark [enforceWidthConditional]: an element taken from the witness has 6
    limbs, of at most 64 bits and the last of at most 61 bits (381 = 5*64+61). *)
Definition limbsOk (l : list Fr) : bool :=
  Nat.eqb (length l) 6 && forallb (fun x => fval x <? 2 ^ 64) l && (fval (nth 5 l fr0) <? 2 ^ 61).
Definition fp_enforceWidth (l : list Fr) : Circ unit := assert (limbsOk l).
(** the residue an element stands for *)
Definition limbsVal (l : list Fr) : Fp := ofZ pBLS (recompose64 (map fval l)).

(** Go's [==] on two frontend.Variable compares interface values.  The limbs of
    the constant returned by curveF.Zero() are *big.Int pointers created once.
    In gnark's test engine api.Select hands back the pointer of the selected
    operand, so a limb selected from that constant is [==] to it.  When the
    circuit is compiled to constraints, a selected limb is a linear expression
    and never [==] to a *big.Int. *)
Inductive engine := TestEngine | Compiled.

(** a point together with "its limbs are the limbs of curveF.Zero()" *)
Record g1val : Set := mkGV { gvP : G1Affine; gvZero : bool }.

(** curveF.Select(bit, &key, &infinity) on both coordinates
    (pairing.go:816-817 and 846-847) *)
Definition selectKey (eng : engine) (bit : Fr) (k : G1Key) : Circ g1val :=
  fp_enforceWidth (kX k) ;;;
  x <- fp_Select bit (limbsVal (kX k)) fp0 ;;
  fp_enforceWidth (kY k) ;;;
  y <- fp_Select bit (limbsVal (kY k)) fp0 ;;
  Ret (mkGV (mkG1 x y) (match eng with TestEngine => feqb bit fr0 | Compiled => false end)).

(** pairing.go:739-755: the chord formulas *)
Definition chordAdd (p1 p2 : G1Affine) : Circ G1Affine :=
  let n := fsub (g1Y p2) (g1Y p1) in
  let d := fsub (g1X p2) (g1X p1) in
  l <- fp_Div n d ;;
  let x3 := fmul l l in
  let x3 := fsub x3 (g1X p1) in
  let x3 := fsub x3 (g1X p2) in
  let y3 := fsub (g1X p1) x3 in
  let y3 := fmul l y3 in
  let y3 := fsub y3 (g1Y p1) in
  x3 <- fp_Reduce x3 ;;
  y3 <- fp_Reduce y3 ;;
  Ret (mkG1 (fpZ x3) (fpZ y3)).

(** pairing.go:725-757.  All limbs of a coordinate are the pointers of Zero()
    or none is, so the loop on i decides at i = 0. *)
Definition AddG1Points (p1 p2 : g1val) : Circ g1val :=
  if gvZero p1 then Ret p2
  else if gvZero p2 then Ret p1
  else r <- chordAdd (gvP p1) (gvP p2) ;; Ret (mkGV r false).

(** pairing.go:824-829 and 852-855: reslist[i+1] = AddG1Points(reslist[i], reslist[i+1]) *)
Definition addAll (l : list g1val) : Circ G1Affine :=
  match l with
  | [] => Fail
  | p :: rest => r <- mfold AddG1Points rest p ;; Ret (gvP r)
  end.

Definition keyAt (ks : list G1Key) (i : nat) : G1Key := nth i ks (mkKey [] []).
Definition at_ (l : list Fr) (i : nat) : Fr := nth i l fr0.

(** pairing.go:863-866 and 858-861 *)
Definition ThresholdCheck (t1 t2 : Fr) : Circ unit := api_AssertIsEqual t1 t2.
Definition CommitmentCheck (c1 c2 : Fr) : Circ unit := api_AssertIsEqual c1 c2.

(** pairing.go:812-822, body; state (threshold, reslist so far) *)
Definition aggStep (eng : engine) (publicKeys : list G1Key) (bitlist quorumW : list Fr)
    (st : Fr * list g1val) (i : nat) : Circ (Fr * list g1val) :=
  let '(threshold, reslist) := st in
  sum <- selectKey eng (at_ bitlist i) (keyAt publicKeys i) ;;
  threshold <- api_Select (at_ bitlist i) (fadd threshold (at_ quorumW i)) threshold ;;
  Ret (threshold, reslist ++ [sum]).

(** pairing.go:798-830 *)
Definition AggregatePublicKeys (eng : engine) (publicKeys : list G1Key) (bitlist quorumW : list Fr)
    (newTotalWeight : Fr) : Circ G1Affine :=
  ' (threshold, reslist) <- mfold (aggStep eng publicKeys bitlist quorumW) (seq 0 10) (fr0, []) ;;
  ThresholdCheck threshold newTotalWeight ;;;
  addAll reslist.

(** pairing.go:832-856 *)
Definition AggregatePublicKeys_Rotate (eng : engine) (publicKeys : list G1Key) (bitlist : list Fr) : Circ G1Affine :=
  reslist <- mmap (fun i => selectKey eng (at_ bitlist i) (keyAt publicKeys i)) (seq 0 10) ;;
  addAll reslist.

(** pairing.go:770-778, one coordinate: six api.Select of a limb against 0 *)
Definition selectLimbs (bit : Fr) (limbs : list Fr) : Circ (list Fr) :=
  mmap (fun j => api_Select bit (at_ limbs j) fr0) (seq 0 6).

(** pairing.go:783-790, body of the loop on j *)
Definition cmpStep (selX selY oldX oldY : list Fr) (xysix : Fr) (j : nat) : Circ Fr :=
  let comparePKsX := api_Cmp (at_ selX j) (at_ oldX j) in
  let comparePKsY := api_Cmp (at_ selY j) (at_ oldY j) in
  let x := api_Cmp comparePKsX fr0 in
  let y := api_Cmp comparePKsY fr0 in
  xy <- api_Or x y ;;
  api_Or xysix xy.

(** pairing.go:759-796 *)
Definition CalculateTrustedWeight (pubKeys_old pubKeys_new : list G1Key) (BitList_new oldWeights : list Fr) : Circ Fr :=
  signed <- mmap (fun i =>
    sx <- selectLimbs (at_ BitList_new i) (kX (keyAt pubKeys_new i)) ;;
    sy <- selectLimbs (at_ BitList_new i) (kY (keyAt pubKeys_new i)) ;;
    Ret (sx, sy)) (seq 0 10) ;;
  mfold (fun oldSignedWeight i =>
    let '(sx, sy) := nth i signed ([], []) in
    xysix <- mfold (cmpStep sx sy (kX (keyAt pubKeys_old i)) (kY (keyAt pubKeys_old i))) (seq 0 6) fr0 ;;
    weight <- api_Select xysix fr0 (at_ oldWeights i) ;;
    Ret (fadd oldSignedWeight weight)) (seq 0 10) fr0.

(** a panic as a failed circuit *)
Definition oC {A} (o : option A) : Circ A := match o with Some a => Ret a | None => Fail end.

(** test_helpers.go:24-37 *)
Definition keyCommitment (pubKeys : list G1Key) (quorumW : list Fr) (i : nat) : Circ Fr :=
  commX <- oC (Poseidon (kX (keyAt pubKeys i))) ;;
  commY <- oC (Poseidon (kY (keyAt pubKeys i))) ;;
  oC (Poseidon [commX; commY; at_ quorumW i]).
Definition ComputeAPKCommitment (pubKeys : list G1Key) (quorumW : list Fr) : Circ Fr :=
  m <- mmap (keyCommitment pubKeys quorumW) (seq 0 10) ;;
  oC (Poseidon m).

(** bls12381.Generators() of gnark-crypto, third value: the affine generator of
    G1; bls-bls12381_sig.go:41-43 and 64-66 negate it *)
Definition g1GenX : Fp := fpZ 0x17f1d3a73197d7942695638c4fa9ac0fc3688c4f9774b905a14e3a3f171bac586c55e83ff97a1aeffb3af00adb22c6bb.
Definition g1GenY : Fp := fpZ 0x08b3f481e3aaa0f1a09e30ed741d8ae4fcf5e095d5d00af600db18cb2c04b3edd03cc744a2888ae40caa232946c5e7e1.
Definition G1neg : G1Affine := mkG1 g1GenX (fopp g1GenY).

(** bls-bls12381_sig.go:30-47; the parameter [hash] is not used *)
Definition VerifyBLS_bls12_Tx (eng : engine) (publicKeys : list G1Key) (bitlist weights : list Fr)
    (signature hash : G2Affine) (commitment totalSignedWeight : Fr) (msg : list Fr) : Circ unit :=
  apk <- AggregatePublicKeys eng publicKeys bitlist weights totalSignedWeight ;;
  apkCommitment <- ComputeAPKCommitment publicKeys weights ;;
  CommitmentCheck commitment apkCommitment ;;;
  h <- HashToG2 msg ;;
  PairingCheck [G1neg; apk] [signature; h].

(** bls-bls12381_sig.go:50-72 *)
Definition Verify_bls12_Rotate (eng : engine) (oldPublicKeys newPublicKeys : list G1Key)
    (bitlist oldWeights newWeights : list Fr) (signature : G2Affine)
    (trustedWeight newCommitment oldApkCommitment : Fr) (newApkCommitmentBytes : list Fr) : Circ unit :=
  trustedWeight_ <- CalculateTrustedWeight oldPublicKeys newPublicKeys bitlist oldWeights ;;
  CommitmentCheck trustedWeight trustedWeight_ ;;;
  apkCommitment <- ComputeAPKCommitment oldPublicKeys oldWeights ;;
  CommitmentCheck oldApkCommitment apkCommitment ;;;
  newApkCommitment <- ComputeAPKCommitment newPublicKeys newWeights ;;
  CommitmentCheck newCommitment newApkCommitment ;;;
  newApk <- AggregatePublicKeys_Rotate eng newPublicKeys bitlist ;;
  apkToG2 <- HashToG2 newApkCommitmentBytes ;;
  PairingCheck [G1neg; newApk] [signature; apkToG2].

(** bls-tx.go:8-18.  Fixed-size Go arrays are lists; [txWf] states their sizes. *)
Record BLS_BLS12_TX : Set := mkTx {
  tx_MessageHash : G2Affine;      (* public *)
  tx_ApkCommitment : Fr;          (* public *)
  tx_SignedWeight : Fr;           (* public *)
  tx_PublicKeys : list G1Key;     (* [10] *)
  tx_Signature : G2Affine;
  tx_BitList : list Fr;           (* [10] *)
  tx_Weights : list Fr;           (* [10] *)
  tx_MsgBytes : list Fr }.        (* [32] *)

(** bls-tx.go:20-37 *)
Definition txDefine (eng : engine) (c : BLS_BLS12_TX) : Circ unit :=
  VerifyBLS_bls12_Tx eng (tx_PublicKeys c) (tx_BitList c) (tx_Weights c)
    (tx_Signature c) (tx_MessageHash c) (tx_ApkCommitment c) (tx_SignedWeight c) (tx_MsgBytes c).

(** bls-rotate.go:8-26 *)
Record BLS_BLS12_ROTATE : Set := mkRot {
  ro_MessageHash : G2Affine;              (* public *)
  ro_OldApkCommitment : Fr;               (* public *)
  ro_NewCommitment : Fr;                  (* public *)
  ro_NewApkCommitmentBytes : list Fr;     (* public, [32] *)
  ro_TrustedWeight : Fr;                  (* public *)
  ro_OldWeights : list Fr;
  ro_NewWeights : list Fr;
  ro_OldPublicKeys : list G1Key;
  ro_NewPublicKeys : list G1Key;
  ro_BitList : list Fr;
  ro_Signature : G2Affine }.

(** bls-rotate.go:28-48 *)
Definition rotateDefine (eng : engine) (c : BLS_BLS12_ROTATE) : Circ unit :=
  Verify_bls12_Rotate eng (ro_OldPublicKeys c) (ro_NewPublicKeys c) (ro_BitList c)
    (ro_OldWeights c) (ro_NewWeights c) (ro_Signature c)
    (ro_TrustedWeight c) (ro_NewCommitment c) (ro_OldApkCommitment c) (ro_NewApkCommitmentBytes c).

(** sizes of the Go arrays *)
Definition txWf (c : BLS_BLS12_TX) : bool :=
  Nat.eqb (length (tx_PublicKeys c)) 10 && Nat.eqb (length (tx_BitList c)) 10 &&
  Nat.eqb (length (tx_Weights c)) 10 && Nat.eqb (length (tx_MsgBytes c)) 32.
Definition roWf (c : BLS_BLS12_ROTATE) : bool :=
  Nat.eqb (length (ro_OldPublicKeys c)) 10 && Nat.eqb (length (ro_NewPublicKeys c)) 10 &&
  Nat.eqb (length (ro_BitList c)) 10 && Nat.eqb (length (ro_OldWeights c)) 10 &&
  Nat.eqb (length (ro_NewWeights c)) 10 && Nat.eqb (length (ro_NewApkCommitmentBytes c)) 32.
