# Design of the formal model of etrapay/spark-awm

The code under study is a set of gnark (v0.9.1) circuits.  A circuit is a Go
program run once to emit constraints; the witness generator later fills in
values.  Two different questions matter to a user:

* **completeness / honest value** - what value does the honest witness
  generator produce, and does it satisfy the constraints?
* **soundness** - what can *any* assignment of the internal wires that
  satisfies the constraints look like?

The model keeps both.  A circuit is a value of the free monad
`Circ A := Ret a | Fail | Ask T honest k` (file `Circuit.v`).
`Ask` is a hint: the wire value is chosen by the prover, `honest` is the value
the Go hint function computes.  `Fail` is a violated assertion, a Go panic or
a returned error.  `run c : option A` is the honest execution and
`sat c a` says that *some* choice of hint values satisfies all assertions and
makes the circuit return `a`.  Soundness theorems are about `sat`,
completeness theorems about `run` (and `run c = Some a -> sat c a`).

## Layers

Model files contain definitions only (each citing file and lines of /repo);
specification files are written from standards or textbooks and import at most
the data types; proof files contain lemmas; `Properties*.v` contain only the
property theorems, each closed by `exact`, a `Print Assumptions` below it and
an `Example` that meets its hypotheses.

| model file | models |
|---|---|
| `ZMod.v`, `Params.v` | residues mod n with Leibniz equality; the moduli r (BN254 scalars, native field) and p (BLS12-381 base field) |
| `Circuit.v` | the monad above |
| `Api.v`, `Emulated.v` | contracts of gnark's `frontend.API`, `std/math/bits` and `std/math/emulated` (trusted) |
| `Tower.v` | `tower.go` (all) and the hint functions of `hints.go` |
| `Pairing.v`, `PrecompTable.v` | `pairing.go:67-723`, `precomputations.go` (table transcribed by a script) |
| `Sha256.v` | `sha256/*.go` |
| `HashField.v`, `HashG2.v` | `hashG2.go` |
| `G2.v` | `g2.go` |
| `Poseidon.v`, `PoseidonTables.v` | `poseidonHash.go`, `constants.go` (tables transcribed by a script) |
| `Bls.v` | `pairing.go:725-866`, `bls-bls12381_sig.go`, `bls-tx.go`, `bls-rotate.go`, constants of `test_helpers.go` |
| `Helpers.v` | `g1.go:11-24` and the host-side helpers of `test_helpers.go` that build circuit inputs |
| `HostFlow.v` | `test_helpers.go:40-192, 242-246`, `bls-tx_test.go:17-68`, `bls-rotate_test.go:15-57`: key generation, signing, rotation, host-side check, assignment |
| `TestCirc.v` | `pairing_bls12381/pairing_test.go:30-255`: the seven test circuits |
| `Parse.v`, `ParseText.v` | `pairing_bls12381/constants.go:12-40`, the parsers with the calls of `strings` and `math/big` they make; the texts of `strPOSEIDON_C`, `_M`, `_P` verbatim |

| specification file | source |
|---|---|
| `Sha256Spec.v` | FIPS 180-4 |
| `HashFieldSpec.v`, `HashSpec.v`, parts of `G2Spec.v` | RFC 9380 |
| `PoseidonSpec.v` | Poseidon paper: permutation, Grain LFSR |
| `TowerSpec.v` | quotient rings with schoolbook multiplication |
| `CurveSpec.v`, `G2Spec.v` | short Weierstrass curves, chord and tangent, multiples, twist endomorphism |
| `BlsSpec.v`, `CircuitSpec.v` | signers, weights, aggregated key, commitments |
| `HostSpec.v` | what gnark-crypto's point operations, hash and pairing check return, in terms of the curve and RFC specifications |

| proof files | content |
|---|---|
| `RingPow`, `ZPow`, `Counting`, `Primes` | powers, Frobenius, Fermat, Pocklington certificates, root counting |
| `EcIdeal`, `EcPoly`, `EcGroup` | the group law of a Weierstrass curve: ideals of the coordinate ring (mathcomp polynomials), multiples |
| `FieldFacts`, `TowerFacts`, `TowerProofs`, `Frobenius`, `TorusFacts`, `CycloFacts`, `FinalExp*` | fields and final exponentiation |
| `Sha256Words`, `Sha256Proofs`, `Sha256Session`, `HashFieldProofs` | hash gadgets |
| `Poseidon{Lin,Code,Grain,Proofs,Hash,Eval,Example,WidthsA-D}` | Poseidon |
| `G2{Pred,Jac,Mul,Cof,Psi,Clear,ClearFacts,Order,Gen,Refute}` | second group |
| `Hash{Sgn,Sqrt,Iso,Map,Final,Wit,WitPts,Cheat,Top}` | hashing to the second group |
| `MillerProofs`, `FixedQ`, `FixedLoop`, `PairProofs`, `Miller{Total,Neg,Wit}` | Miller loops and pairing check |
| `MillerLf`, `Kappa`, `PairAdd`, `PairAdd2`, `G1Group`, `PairMul`, `PairSig`, `PairNondeg`, `SigWit` (specification: `PairSpec`, `SigSpec`) | bilinearity, nondegeneracy, signatures |
| `Cyclic`, `G2Slope`, `TwistPt`, `G1Order`, `G2Cyclic` | order of the generators, counting of points, cyclic subgroups |
| `SubCount`, `TwGroup`, `TwistSmall`, `G2Full`, `HashFull`, `Clear13`, `ConstMulExact`, `Clear13Jac`, `AddExact` | size of the twist from points of small order; cofactor clearing and hashing land in the subgroup |
| `BlsProofs`, `BlsExamples`, `BlsRefute`, `CircuitProofs`, `HelperProofs`, `Accept` | aggregation, weights, commitments, both circuits, accepted executions |
| `HostMath`, `HostProofs`, `FlowWitPts`, `FlowWit` | multiples of the generator, totality of the RFC hash, the two test flows, one accepted run of each |
| `TestSpec`, `TestCircProofs`, `TestHost`, `TestWit` | products of pairing values over lists of pairs, the test circuits, points drawn as multiples of the generators, the Miller loop at the generators and one accepted run of each test |
| `ParseSpec`, `ParseProofs`, `ParseTables`, `ParseWit` | texts of numbers, lists and tables; the parsers; the texts of the file evaluated in the kernel |
| `SelectSpec`, `SelectProofs` | selection, lookup, zero tests, the unexported inverse, `MixS` |
| `FastMod`, `FastParams`, `FastTower`, `Fast10`, `PoseidonFast`, `G2Chain`, `G2Slope`, `HashFast`, `MillerFast`, `FastExp` | verified fast evaluators on 63-bit integers; used inside proofs of closed facts only, no model or specification definition depends on them |

## Per-property plan

| id | modelled | how proved |
|---|---|---|
| C01-C04 | all of `sha256/` bit by bit over Fr | refinement: each word gadget against Z arithmetic mod 2^32, then rounds, blocks, buffer; induction over the message |
| C05 | `ExpandMsgXmd` | on top of C01/C03 by symbolic evaluation of the Write sequence, induction over ell |
| C06, C07 | `HashToField`, raw-limb hint | honest value by arithmetic; C07 is false (unconstrained hint), `_refuted` in the strongest form: every element is accepted |
| C08-C11 | all of Ext2/6/12 | ring identities against schoolbook polynomials over Fp2[w]/(w^6-1-u) |
| C12, C13 | hints + assertions | field facts: p prime (Pocklington), -1 non-square, 1+u non-cube/non-square |
| C14 | constants | recomputation of (1+u)^(Y(p^X-1)/6) in the kernel, Frobenius by freshman's dream |
| C15-C18 | torus functions, finalExponentiation | relation "y represents m in Fp12", exponent bookkeeping in Z |
| C19-C24 | all of `g2.go` | field identities with case analysis; group law by ideals; induction over the bits |
| C25, C26 | predicates through prover-chosen representatives | arithmetic; false parts `_refuted` |
| C27-C32, C56-C58 | `hashG2.go` | powers, Euler criterion in Fp2, polynomial identity of the isogeny, composition |
| C33-C36, C59, C60 | `pairing.go` | ring identities, induction over pairs and iterations, kernel check of the table; order of the point for totality |
| C37-C39 | `poseidonHash.go`, tables | linear algebra: the sparse factorisation equals the dense one; Grain LFSR recomputed in the kernel |
| C40-C55 | aggregation, weights, commitment, top-level circuits, helpers | induction over the key lists; accepted executions built explicitly; false parts `_refuted` |
| C61 | Miller loop, final exponentiation | line functions l_{A,B} of the code as functions on the twist, four-line identity, telescoping over the loop; nondegeneracy from one kernel-checked value and C64 |
| C62, C63 | `PairingCheck`, both circuits | C61 and induction over the signers; r prime |
| C64 | the two curves | injective numbering of the points below 2p^2+1 (2p+1) and a second point of order r would give too many; order of the generators and of one more point checked in the kernel |
| C65 | cofactor clearing | explicit independent points of order 13, 13, 23, 23, 2713, 11953, 262069 and of two large orders; the subgroup they span has h2 r points, more than half of the upper bound 2p^2+1, so it is the whole twist; the formula kills every generator but the one of order r |
| C66, C67 | the two test flows | invariants of the signing, aggregation and replacement loops; C62 and C63 read as statements about the honest execution; false parts `_refuted` |
| C68 | table parsers | induction over the text: number, entry, comma list, brackets, rows; an exact characterisation of the accepted texts; the texts of the file by evaluation in the kernel |
| C69 | pairing test circuits | induction over the list of pairs, determinism of each Miller loop, bilinearity with discrete logarithms; `accepted_iff` gives the honest and the arbitrary prover at once; false parts `_refuted` |
| C70 | selection and lookup | determinism of each gadget over the tower, inversion of the boolean assertions |

## Trusted base

* **Kernel**: Coq 8.16.1.  Closed computations are checked by the kernel
  (`vm_compute` at build time; the checker re-checks them without the VM).
* **Axioms**: no axiom of ours.  `Print Assumptions` lists either nothing
  ("Closed under the global context") or only the primitive 63-bit integers of
  the standard library (`Coq.Numbers.Cyclic.Int63`: `PrimInt63.int`, `add`,
  `sub`, `mul`, `lsl`, `lsr`, `land`, `lor`, `eqb`, `ltb`, `leb`, `addc`, `head0`...
  and their specifications in `Uint63`, e.g. `add_spec`, `eqb_correct`), which
  come in through the fast evaluators.  Theorems of `PropertiesSha256.v` and
  `PropertiesHashField.v` are closed.  mathcomp (`EcPoly.v`) adds no axiom.
* **Contracts of dependencies** (not in /repo, so not modelled but specified):
  * `Api.v`: `frontend.API` on values of the native field; `api.Cmp` compares
    canonical integers; `bits.ToBinary` asserts booleanity and the weighted sum.
  * `Emulated.v`: an emulated element is its value mod p.  `Reduce` returns a
    prover-chosen representative below 2^381 that need not be canonical
    (gnark v0.9.1 checks the width of the top limb, not `< p`); this is what
    makes several bit-wise predicates refutable.  `Inverse` and `Div` assert the
    product; the honest 0/0 of `DivUnchecked` hints is 0.  Elements created from
    the witness have their limb widths enforced when first used.
  * `iden3_hash` (`CircuitSpec.v`): go-iden3-crypto's `poseidon.Hash` is the
    textbook Poseidon of `PoseidonSpec.v` on inputs below r, an error otherwise.
  * `HostSpec.v`: gnark-crypto's `ScalarMultiplicationBase`, `ScalarMultiplication`,
    `Add`, `HashToG2`, `Pair` and `PairingCheck` are the group operations of
    `CurveSpec.v`, the RFC 9380 hash and a bilinear nondegenerate map (stated
    through `pairing_value`); infinity is encoded as (0,0).
  * the two engines: gnark's test engine executes Go `==` on `*big.Int`
    pointers, the compiled constraint system on wires; `Bls.v` models the
    pointer comparison in `AddG1Points` by the flag `engine`.
* **Transcription**: our reading of the Go code (nothing was run), and the
  scripts that copied the two tables.

## What is not modelled

* The constraint compiler, Groth16/Plonk, the Solidity side and the meaning of
  public versus secret inputs beyond their names.
* Limb-level overflow bookkeeping inside `std/math/emulated`.
* Random sampling (`genRandom`, `genWeights`, `genBitlist`, `randomG1G2Affines`): the flows take the
  sampled values as arguments.  Benchmarks, trivial
  constructors (`NewExt*`, `NewPairing`, `New*API`, `FromE*`), `GetHints`.  The text
  of `strPOSEIDON_S` beyond the widths 2 and 3: that table is transcribed in parsed form (the other three
  are transcribed both ways and C68 relates them).  Bytes above 0x7f in the table texts.
* Methods on `*Pairing` in `hashG2.go` that repeat a function verbatim (listed at
  the top of `HashG2.v`).

## Findings (properties that fail of the faithful model)

* `MessageHash` is an unused public input (C50); the message bytes are bound by
  nothing because the output of `HashToField` is an unconstrained hint (C07, C51).
* In a rotation the signed bytes are not tied to `NewCommitment` (C52).
* Weights are added modulo r without range checks (C41); no quorum is enforced.
* No on-curve or subgroup checks on keys, signature or hash point.  The compiled
  engine adds (0,0) for every unset bit (C42, C43).  At Q = (0,0) the slopes of
  the Miller loop are free.
* `Reduce` is not canonical, so a prover may flip `NotZero`, `NotEqual`,
  `NotOne` and `sgn0` on small values (C25, C26), which affects Jacobian addition
  (C19), the square root ratio (C28), the map (C29, C56) and the hash (C32).
* `g2Sgn0` ignores the second coordinate when the first is zero (C26);
  `g2SqrtRatio` answers "non-square" for u = 0 (C28); the SSWU map lacks the
  exceptional case, so u = 0 is unsatisfiable (C30).
* `GetG2AffineFromG2Jac` is unsatisfiable at infinity (C20); affine addition of
  equal points divides 0 by 0 and leaves the slope free (C21); so `G2ClearCofactor`
  of a point of order 13 returns a point off the curve (C24), and the multiplication
  chain is not binding there (C22, an exact condition), so a prover can make the Jacobian
  clearing return a point outside the subgroup (C24, exactly at order 13).
* `big.Int.Bytes` drops leading zeros, so a commitment below 2^248 leaves the
  message too short (C54); the helper's trusted weight matches by abscissa at
  any position and uses the new weights (C55).
* The tests' own generators make inputs that the circuit rejects: no signer, or a
  signer whose secret is the sum of the earlier signers' (C66, C67); a rotation
  whose commitment has fewer than 32 bytes has no assignment (C67).
* The pairing tests draw their scalars from [0, r): with the scalar 0 no result is
  accepted, and the final-exponentiation test fails on an input whose power is 1
  (C69).
* The two-dimensional table parser drops only spaces and line feeds before it
  looks for `],[`, so a tab between two rows merges them without a panic (C68).
  The texts in the file contain no tab.

## Seeded errors

See `seeded/LOG.jsonl`, one line per edited copy of the model.  `failed` lists the
property theorems that depend on the first lemmas that no longer compile
(`first_failing_lemmas`); `tightened` lists statements changed because an edit
survived.
