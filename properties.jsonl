{"id": "C01", "title": "SHA-256 gadget computes FIPS 180-4 SHA-256", "statement": "Creating a digest with sha256.New, writing any sequence of bytes and calling Sum yields exactly the 32 bytes of the FIPS 180-4 SHA-256 hash of those bytes.", "quantifier": "every byte string of length < 2^61", "why_tests_cant": "tests try a few random fixed-length messages; padding and carry boundaries depend on every length and every bit pattern", "anchors": ["spark/sha256/sha256.go:New,Write,Sum,checkSum", "spark/sha256/sha256block.go:blockGeneric", "spark/sha256/uint32api.go"]}
{"id": "C02", "title": "SHA-256 gadget is chunking independent and Sum is non-destructive", "statement": "Writing a message in any sequence of chunks (including empty ones, and with Sum calls interleaved) gives the same Sum as writing it at once; Sum leaves the digest state unchanged.", "quantifier": "every list of chunks and every interleaving of Sum calls", "why_tests_cant": "the buffer logic has cases at every residue mod 64; tests only write one chunk", "anchors": ["spark/sha256/sha256.go:write,Sum"]}
{"id": "C03", "title": "SHA-256 gadget constraints are sound", "statement": "No prover can make the SHA-256 gadget output anything else than the digest of the written values: every assignment of hint values that satisfies the constraints yields the true digest, and if some written value is not a byte no assignment satisfies them.", "quantifier": "every prover-chosen assignment of internal wires and every vector of field elements written", "why_tests_cant": "a test only runs the honest witness generator; soundness quantifies over all dishonest witnesses", "anchors": ["spark/sha256/uint8api.go:asUint8", "spark/sha256/uint32api.go:add", "spark/sha256/sha256.go"]}
{"id": "C04", "title": "Word gadgets compute 32-bit machine arithmetic", "statement": "The 32-bit word gadgets (add with any number >= 2 of operands, and, or, xor, not, rotate, shifts) compute exactly the corresponding operation on uint32 values, with no carry lost or kept.", "quantifier": "every tuple of 32-bit words, every operand count used, every shift amount", "why_tests_cant": "2^32 x 2^32 operand pairs cannot be enumerated; overflow width depends on operand count", "anchors": ["spark/sha256/uint32api.go:add,and,or,xor,not,lrot,rshift,lshift"]}
{"id": "C05", "title": "ExpandMsgXmd implements RFC 9380 expand_message_xmd", "statement": "ExpandMsgXmd(msg, count) returns expand_message_xmd(msg, DST, 64*count) with SHA-256 and the package's 43-byte DST, for every satisfying assignment as well as for the honest prover.", "quantifier": "every 32-byte message and every count with 1 <= count and 64*count <= 255*32", "why_tests_cant": "hash chaining and preimage layout must hold for all messages and counts; tests use one count", "anchors": ["spark/pairing_bls12381/hashG2.go:ExpandMsgXmd"]}
{"id": "C06", "title": "HashToField honest output", "statement": "With the honest prover HashToField(msg,count) returns the elements OS2IP(64-byte block) mod p of RFC 9380 hash_to_field, paired into Fp2 elements in order.", "quantifier": "every 32-byte message and even count in range", "why_tests_cant": "reduction of 512-bit values must be right for all blocks", "anchors": ["spark/pairing_bls12381/hashG2.go:HashToField,GetUint64From8Bytes,GetRawLimbsBy8Uint64"]}
{"id": "C07", "title": "HashToField output is bound to the message", "statement": "In every satisfying assignment the field elements returned by HashToField are the RFC 9380 hash_to_field of the message; a prover has no freedom in choosing them.", "quantifier": "every prover-chosen assignment", "why_tests_cant": "test.IsSolved runs only the honest hint; the property is about dishonest hints", "anchors": ["spark/pairing_bls12381/hashG2.go:GetRawLimbsBy8Uint64"]}
{"id": "C08", "title": "Fp2 arithmetic", "statement": "Ext2 Add, Sub, Neg, Mul, Square, Double, Conjugate, MulByElement, MulByConstElement, MulByNonResidue, Select compute the corresponding operation of the field Fp[u]/(u^2+1); MulByNonResidue multiplies by 1+u.", "quantifier": "all elements of Fp2", "why_tests_cant": "an identity over a 762-bit domain; random tests sample it", "anchors": ["spark/pairing_bls12381/tower.go:Ext2"]}
{"id": "C09", "title": "Fp6 arithmetic", "statement": "Ext6 Add, Sub, Neg, Mul, Square, Double, MulByE2, MulByNonResidue compute the corresponding operation of Fp2[v]/(v^3-1-u); MulByNonResidue multiplies by v.", "quantifier": "all elements of Fp6", "why_tests_cant": "an identity over a 2286-bit domain", "anchors": ["spark/pairing_bls12381/tower.go:Ext6"]}
{"id": "C10", "title": "Fp12 arithmetic", "statement": "Ext12 Add, Sub, Mul, Square, Conjugate compute the corresponding operation of Fp6[w]/(w^2-v), equivalently of Fp2[w]/(w^6-1-u).", "quantifier": "all elements of Fp12", "why_tests_cant": "an identity over a 4572-bit domain", "anchors": ["spark/pairing_bls12381/tower.go:Ext12"]}
{"id": "C11", "title": "Sparse multiplications agree with full multiplications", "statement": "Ext6.MulBy0, MulBy01, MulBy12 and Ext12.MulBy014, Mul014By014, MulBy01245 return the full product with the sparse element they document.", "quantifier": "all elements and all sparse factors", "why_tests_cant": "polynomial identities over huge domains", "anchors": ["spark/pairing_bls12381/tower.go:MulBy0,MulBy01,MulBy12,MulBy014,Mul014By014,MulBy01245"]}
{"id": "C12", "title": "Inverse gadgets are sound, complete and unique", "statement": "Ext2/Ext6/Ext12 Inverse are satisfiable exactly for nonzero arguments, and then the only accepted result is the multiplicative inverse.", "quantifier": "all elements and all prover-chosen hints", "why_tests_cant": "soundness quantifies over dishonest hints", "anchors": ["spark/pairing_bls12381/tower.go:Inverse", "spark/pairing_bls12381/hints.go:inverseE2Hint,inverseE6Hint,inverseE12Hint"]}
{"id": "C13", "title": "DivUnchecked contract", "statement": "Ext2/Ext6/Ext12 DivUnchecked(x,y) with y nonzero accept exactly x/y; with y=0 and x nonzero nothing is accepted; with x=y=0 every value is accepted (this is the documented 'unchecked' hazard).", "quantifier": "all x, y and all prover-chosen hints", "why_tests_cant": "soundness quantifies over dishonest hints", "anchors": ["spark/pairing_bls12381/tower.go:DivUnchecked", "spark/pairing_bls12381/hints.go:divE2Hint,divE6Hint,divE12Hint"]}
{"id": "C14", "title": "Non-residue power constants", "statement": "MulByNonResidueXPowerY(x) multiplies by (1+u)^(Y*(p^X-1)/6) for X in {1,2}, Y in 1..5, and the table in NewExt2 holds the same values.", "quantifier": "all elements; the ten constants", "why_tests_cant": "tests multiply random elements but compare with a library that could share the error; here the constant is recomputed from its definition", "anchors": ["spark/pairing_bls12381/tower.go:NewExt2,MulByNonResidue1Power1..2Power5"]}
{"id": "C15", "title": "Torus arithmetic is a group morphism", "statement": "Under the decompression map y -> (y+w)/(y-w), MulTorus, SquareTorus, InverseTorus, FrobeniusTorus and FrobeniusSquareTorus compute product, square, inverse, p-th power and p^2-th power in Fp12 for every accepted assignment, and CompressTorus/DecompressTorus are mutually inverse.", "quantifier": "all elements and all prover-chosen hints", "why_tests_cant": "soundness over dishonest hints and identities over huge domains", "anchors": ["spark/pairing_bls12381/tower.go:MulTorus,SquareTorus,InverseTorus,FrobeniusTorus,FrobeniusSquareTorus,CompressTorus,DecompressTorus"]}
{"id": "C16", "title": "Torus exponentiation by the curve seed", "statement": "ExptHalfTorus and ExptTorus raise the decompressed element to -7566188111470821376 and -15132376222941642752.", "quantifier": "all elements and all prover-chosen hints", "why_tests_cant": "the addition chain must be right for every element", "anchors": ["spark/pairing_bls12381/tower.go:ExptHalfTorus,ExptTorus"]}
{"id": "C17", "title": "Final exponentiation computes the documented power", "statement": "Every accepted result of FinalExponentiation(e) and FinalExponentiationUnsafe(e) equals e^(3*(p^12-1)/r).", "quantifier": "all e in Fp12 and all prover-chosen hints", "why_tests_cant": "soundness over dishonest hints; 4500-bit exponent", "anchors": ["spark/pairing_bls12381/pairing.go:finalExponentiation"]}
{"id": "C18", "title": "FinalExponentiation does not modify its argument", "statement": "Calling FinalExponentiation(e) leaves the caller's element e unchanged.", "quantifier": "all e in Fp12", "why_tests_cant": "tests never look at the argument afterwards", "anchors": ["spark/pairing_bls12381/pairing.go:finalExponentiation"]}
{"id": "C19", "title": "Jacobian doubling and addition implement the group law", "statement": "G2JacobianDouble and G2JacobianAddAssign represent P+P and P+Q of the chord-tangent law on y^2=x^3+4(1+u) for all points, including infinity operands, equal operands and opposite operands.", "quantifier": "all pairs of Jacobian representatives of curve points", "why_tests_cant": "special cases (infinity, P=Q, P=-Q) have measure zero for random tests", "anchors": ["spark/pairing_bls12381/g2.go:G2JacobianDouble,G2JacobianAddAssign,G2JacobianNeg,G2JacobianSubAssign"]}
{"id": "C20", "title": "Affine/Jacobian conversions", "statement": "Converting an affine point to Jacobian and back gives the point; GetG2AffineFromG2Jac returns (0,0) for the point at infinity (Z=0).", "quantifier": "all points incl. infinity", "why_tests_cant": "the infinity branch is never exercised", "anchors": ["spark/pairing_bls12381/g2.go:GetG2JacFromG2Affine,GetG2AffineFromG2Jac"]}
{"id": "C21", "title": "Affine G2 addition implements the group law and is sound", "statement": "G2AddAssign/G2SubAssign/G2Double accept exactly the chord-tangent sum, and no other point, for any operands on the curve.", "quantifier": "all operand pairs and all prover-chosen hints", "why_tests_cant": "the exceptional inputs and dishonest hints are out of reach of random tests", "anchors": ["spark/pairing_bls12381/g2.go:G2AddAssign,G2SubAssign,G2Double"]}
{"id": "C22", "title": "Constant scalar multiplication", "statement": "G2JacobianConstScalarMul(P) represents [15132376222941642752]P for the honest prover at every point, and for every prover exactly at the points that do not have order 13.", "quantifier": "all points of the curve, incl. infinity", "why_tests_cant": "an addition chain over all points", "anchors": ["spark/pairing_bls12381/g2.go:G2JacobianConstScalarMul"]}
{"id": "C23", "title": "Psi endomorphism", "statement": "G2Psi and G2JacobianPsi map the curve to itself, agree with each other, are additive-compatible with negation and satisfy Psi(Psi(x,y)) = (w3*x, -y) where w3 is the cube root of unity used by ClearCofactor.", "quantifier": "all points", "why_tests_cant": "constants must be right for all points", "anchors": ["spark/pairing_bls12381/g2.go:G2Psi,G2JacobianPsi"]}
{"id": "C24", "title": "Cofactor clearing formula", "statement": "ClearCofactor(P) computes [x^2-x-1]P + [x-1]Psi(P) + Psi(Psi([2]P)) with x=-15132376222941642752, and no witness gives another result. This holds at every point of the curve except those of order 13, where a prover can make the Jacobian version return a point outside the subgroup and the affine version returns a point off the curve. Away from order 13 the affine version has no valid witness exactly when the formula gives infinity.", "quantifier": "all points of the curve", "why_tests_cant": "composition of ~130 group operations over all points", "anchors": ["spark/pairing_bls12381/hashG2.go:ClearCofactor", "spark/pairing_bls12381/g2.go:G2ClearCofactor"]}
{"id": "C25", "title": "Zero / equality predicates", "statement": "G1NotZero, E2NotZero, G1NotEqual, E2NotEqual, E2NotOne, G2AffineNotInfinity return 1 exactly when the field elements differ (from 0 / from each other / from 1), for every accepted assignment.", "quantifier": "all elements and all prover-chosen representatives", "why_tests_cant": "a dishonest prover can choose the integer representative of a residue class", "anchors": ["spark/pairing_bls12381/g2.go:G1NotZero,E2NotZero,G1NotEqual,E2NotEqual,G2AffineNotInfinity", "spark/pairing_bls12381/hashG2.go:E2NotOne,G1NotEqualOne"]}
{"id": "C26", "title": "g2Sgn0 implements RFC 9380 sgn0", "statement": "g2Sgn0(u) equals sgn0(u) of RFC 9380 for m=2, for every accepted assignment.", "quantifier": "all elements of Fp2 and all prover-chosen representatives", "why_tests_cant": "u0=0 has probability 2^-381 in a random test; dishonest representatives never occur", "anchors": ["spark/pairing_bls12381/hashG2.go:g2Sgn0"]}
{"id": "C27", "title": "E2Exp computes powers", "statement": "E2Exp(x,k) returns x^k for every k>=0 and (x^-1)^|k| for k<0.", "quantifier": "all x in Fp2 and all integers k", "why_tests_cant": "square-and-multiply over all exponents", "anchors": ["spark/pairing_bls12381/hashG2.go:E2Exp"]}
{"id": "C28", "title": "sqrt_ratio", "statement": "g2SqrtRatio(u,v) with v nonzero and the honest prover returns (z,0) with z^2*v=u when u/v is a square and (z,1) with z^2*v=Z*u otherwise.", "quantifier": "all u and all nonzero v in Fp2", "why_tests_cant": "two-case algebra over all field elements; constants c3,c4,c5,c6,c7 must match", "anchors": ["spark/pairing_bls12381/hashG2.go:g2SqrtRatio"]}
{"id": "C29", "title": "SSWU map lands on the isogenous curve", "statement": "MapElementToCurve2(u) returns a point of y^2=x^3+240u*x+1012(1+u) for every u for which it is satisfiable.", "quantifier": "all u in Fp2 and all prover-chosen hints", "why_tests_cant": "holds for all u", "anchors": ["spark/pairing_bls12381/hashG2.go:MapElementToCurve2"]}
{"id": "C30", "title": "SSWU map is total", "statement": "MapElementToCurve2 is satisfiable for every u in Fp2 (RFC 9380 map_to_curve is total).", "quantifier": "all u in Fp2", "why_tests_cant": "the exceptional u have negligible probability in tests", "anchors": ["spark/pairing_bls12381/hashG2.go:MapElementToCurve2"]}
{"id": "C31", "title": "Isogeny maps to the G2 curve", "statement": "G2Isogeny maps every point of the isogenous curve (outside the kernel) to a point of y^2=x^3+4(1+u).", "quantifier": "all points of the isogenous curve", "why_tests_cant": "a rational identity of degree 9 over all points", "anchors": ["spark/pairing_bls12381/hashG2.go:G2Isogeny"]}
{"id": "C32", "title": "HashToG2 output lies on the G2 curve", "statement": "Every point accepted as output of HashToG2 lies on y^2 = x^3+4(1+u) whenever the intermediate affine additions are non-exceptional.", "quantifier": "all messages and all prover-chosen hints", "why_tests_cant": "all messages", "anchors": ["spark/pairing_bls12381/hashG2.go:HashToG2"]}
{"id": "C33", "title": "Miller loop step functions", "statement": "doubleStep, addStep, doubleAndAddStep, tripleStep and tangentCompute return 2P, P+Q, 2P+Q, 3P of the chord-tangent law and lines (slope, intercept) that pass through the points they document.", "quantifier": "all non-exceptional points and all prover-chosen hints", "why_tests_cant": "identities over all points", "anchors": ["spark/pairing_bls12381/pairing.go:doubleStep,addStep,doubleAndAddStep,tripleStep,tangentCompute"]}
{"id": "C34", "title": "Multi-Miller loop is the product of Miller loops", "statement": "MillerLoop on n pairs returns the product of the n single-pair Miller loops, hence is invariant under permuting the pairs; it errors on empty or mismatched inputs.", "quantifier": "all n and all point lists", "why_tests_cant": "n is unbounded, all points", "anchors": ["spark/pairing_bls12381/pairing.go:MillerLoop"]}
{"id": "C35", "title": "Fixed-argument Miller loop agrees with the generic one", "statement": "MillerLoopFixedQ(P) = MillerLoop([P],[G2 generator]) and DoubleMillerLoopFixedQ(P,T,Q) = MillerLoop([P,T],[Q,G2 generator]).", "quantifier": "all P, T, Q", "why_tests_cant": "a 252-entry table of 381-bit constants must be right at every entry for every P", "anchors": ["spark/pairing_bls12381/pairing.go:MillerLoopFixedQ,DoubleMillerLoopFixedQ", "spark/pairing_bls12381/precomputations.go"]}
{"id": "C36", "title": "PairingCheck accepts exactly when the product of pairings is one", "statement": "Whenever PairingCheck(P,Q) is accepted, the product of the single-pair Miller values raised to 3(p^12-1)/r is 1.", "quantifier": "all inputs and all prover-chosen hints", "why_tests_cant": "soundness over dishonest hints", "anchors": ["spark/pairing_bls12381/pairing.go:PairingCheck,Pair"]}
{"id": "C37", "title": "Circuit Poseidon equals textbook Poseidon", "statement": "Poseidon(inputs) equals the textbook Poseidon permutation (8 full rounds, the published number of partial rounds, x^5, dense MDS in every round, round constants and MDS from the Grain LFSR) on state (0,inputs), output word 0.", "quantifier": "every input vector of length 1..16 over the BN254 scalar field", "why_tests_cant": "the optimised tables (about 24000 constants) must be right for all inputs", "anchors": ["spark/pairing_bls12381/poseidonHash.go:PoseidonEx,Poseidon", "spark/pairing_bls12381/constants.go"]}
{"id": "C38", "title": "Poseidon arity", "statement": "Poseidon is defined exactly for 1..16 inputs; every table access is in range for these and it panics otherwise.", "quantifier": "every input length", "why_tests_cant": "lengths outside the ones used are untested", "anchors": ["spark/pairing_bls12381/poseidonHash.go:PoseidonEx", "spark/pairing_bls12381/constants.go"]}
{"id": "C39", "title": "Poseidon hasher interface", "statement": "For any sequence of Write/Sum/Reset calls, Sum returns Poseidon of the concatenation of everything written since the last Reset, and Sum does not clear the data.", "quantifier": "all call sequences", "why_tests_cant": "histories", "anchors": ["spark/pairing_bls12381/poseidonHash.go:Write,Sum,Reset"]}
{"id": "C40", "title": "Signed weight is exactly the weight of the signers", "statement": "In an accepted transaction proof every bit of the bit list is 0 or 1 and SignedWeight is the sum (in the native field) of the weights whose bit is 1.", "quantifier": "all witnesses", "why_tests_cant": "all witnesses, incl. dishonest ones", "anchors": ["spark/pairing_bls12381/pairing.go:AggregatePublicKeys,ThresholdCheck"]}
{"id": "C41", "title": "Signed weight does not overflow", "statement": "SignedWeight as an integer equals the integer sum of the signers' weights.", "quantifier": "all witnesses", "why_tests_cant": "weights near the field modulus never occur in tests", "anchors": ["spark/pairing_bls12381/pairing.go:AggregatePublicKeys", "spark/bls-tx.go"]}
{"id": "C42", "title": "Aggregated public key is the sum of the signers' keys", "statement": "AggregatePublicKeys / AggregatePublicKeys_Rotate return the sum of the public keys whose bit is set, both in the test engine and in the compiled constraint system, for every bit list.", "quantifier": "all key vectors, all bit lists, both execution engines", "why_tests_cant": "tests use only the test engine, where Go pointer identity hides the problem", "anchors": ["spark/pairing_bls12381/pairing.go:AddG1Points,AggregatePublicKeys,AggregatePublicKeys_Rotate"]}
{"id": "C43", "title": "AddG1Points is sound", "statement": "AddG1Points(p1,p2) accepts exactly the chord-tangent sum of p1 and p2.", "quantifier": "all points and all prover-chosen hints", "why_tests_cant": "equal points and dishonest hints", "anchors": ["spark/pairing_bls12381/pairing.go:AddG1Points"]}
{"id": "C44", "title": "Trusted weight formula", "statement": "CalculateTrustedWeight returns the sum of the old weights of exactly those positions i where the bit is set and the new key at i has the same limbs as the old key at i (positions whose old key is nonzero).", "quantifier": "all key vectors, bit lists and weights", "why_tests_cant": "all inputs", "anchors": ["spark/pairing_bls12381/pairing.go:CalculateTrustedWeight"]}
{"id": "C45", "title": "Trusted weight counts only signers", "statement": "An old validator's weight is counted as trusted only if the corresponding bit is set.", "quantifier": "all inputs", "why_tests_cant": "the all-zero key never occurs in tests", "anchors": ["spark/pairing_bls12381/pairing.go:CalculateTrustedWeight"]}
{"id": "C46", "title": "Trusted weight is by membership", "statement": "An old validator that signed and is still a member of the new set contributes its weight, whatever its position in the new set.", "quantifier": "all inputs, all permutations", "why_tests_cant": "tests keep positions fixed", "anchors": ["spark/pairing_bls12381/pairing.go:CalculateTrustedWeight", "spark/test_helpers.go:generateNew"]}
{"id": "C47", "title": "In-circuit commitment equals off-circuit commitment", "statement": "ComputeAPKCommitment on the circuit form of (keys, weights) equals genCommitment on the same keys and weights.", "quantifier": "all keys and weights", "why_tests_cant": "all inputs", "anchors": ["spark/test_helpers.go:ComputeAPKCommitment,genCommitment"]}
{"id": "C48", "title": "Commitment binding", "statement": "Two different (key limbs, weights) vectors with the same ComputeAPKCommitment exhibit an explicit Poseidon collision.", "quantifier": "all pairs of validator sets", "why_tests_cant": "cryptographic reduction over all inputs", "anchors": ["spark/test_helpers.go:ComputeAPKCommitment"]}
{"id": "C49", "title": "Transaction circuit acceptance", "statement": "An accepted transaction proof implies: ApkCommitment commits to the witness keys and weights, SignedWeight is the signers' weight, and e(-g1,sig)*e(apk,h)=1 for the aggregated key apk and the point h computed by HashToG2.", "quantifier": "all witnesses and all prover-chosen hints", "why_tests_cant": "soundness over dishonest witnesses", "anchors": ["spark/bls-bls12381_sig.go:VerifyBLS_bls12_Tx", "spark/bls-tx.go:Define"]}
{"id": "C50", "title": "Public MessageHash is bound", "statement": "In an accepted transaction (or rotation) proof the public input MessageHash equals the hash of the signed message.", "quantifier": "all witnesses", "why_tests_cant": "no negative test exists", "anchors": ["spark/bls-tx.go:BLS_BLS12_TX", "spark/bls-rotate.go:BLS_BLS12_ROTATE", "spark/bls-bls12381_sig.go:VerifyBLS_bls12_Tx"]}
{"id": "C51", "title": "Signed message bytes are bound", "statement": "An accepted transaction proof for message bytes m cannot be turned into an accepted proof for other message bytes with the same signature and keys.", "quantifier": "all witnesses and messages", "why_tests_cant": "no negative test exists; needs dishonest hints", "anchors": ["spark/bls-bls12381_sig.go:VerifyBLS_bls12_Tx", "spark/pairing_bls12381/hashG2.go:GetRawLimbsBy8Uint64"]}
{"id": "C52", "title": "Rotation binds the signed bytes to the new commitment", "statement": "In an accepted rotation proof the signed bytes NewApkCommitmentBytes are the 32-byte big-endian encoding of NewCommitment.", "quantifier": "all witnesses", "why_tests_cant": "no negative test exists", "anchors": ["spark/bls-bls12381_sig.go:Verify_bls12_Rotate", "spark/bls-rotate.go"]}
{"id": "C53", "title": "Rotation circuit acceptance", "statement": "An accepted rotation proof implies: OldApkCommitment and NewCommitment commit to the old/new keys and weights, TrustedWeight is the trusted-weight formula, and the aggregated new signers' key passes the pairing equation.", "quantifier": "all witnesses and all prover-chosen hints", "why_tests_cant": "soundness over dishonest witnesses", "anchors": ["spark/bls-bls12381_sig.go:Verify_bls12_Rotate"]}
{"id": "C54", "title": "Commitment bytes have fixed length", "statement": "The byte encoding of the new commitment used as rotation message by the helpers always has 32 bytes.", "quantifier": "all commitments", "why_tests_cant": "fails with probability about 1/50 per run", "anchors": ["spark/bls-rotate_test.go:TestBls12Rotate", "spark/test_helpers.go:generateNew"]}
{"id": "C55", "title": "Host trusted weight agrees with the circuit", "statement": "The trustedWeight computed by generateNew equals the value CalculateTrustedWeight constrains, for every old and new validator set.", "quantifier": "all old and new validator sets, weights and bit lists", "why_tests_cant": "the test replaces one to three keys at random and never moves a key", "anchors": ["spark/test_helpers.go:generateNew", "spark/pairing_bls12381/pairing.go:CalculateTrustedWeight"]}
{"id": "C56", "title": "SSWU map picks the RFC sign", "statement": "MapElementToCurve2(u) returns the point of RFC 9380 map_to_curve_simple_swu, including the sign of y.", "quantifier": "all u in Fp2 and all prover-chosen hints", "why_tests_cant": "u with first coordinate 0 never occurs in a random test; dishonest representatives never occur", "anchors": ["spark/pairing_bls12381/hashG2.go:MapElementToCurve2", "spark/pairing_bls12381/hashG2.go:g2Sgn0"]}
{"id": "C57", "title": "HashToG2 is RFC 9380 hash_to_curve", "statement": "For every 32-byte message HashToG2 returns hash_to_curve(msg) of suite BLS12381G2_XMD:SHA-256_SSWU_RO_ with the code's domain separation tag.", "quantifier": "all 32-byte messages", "why_tests_cant": "a few messages are tried", "anchors": ["spark/pairing_bls12381/hashG2.go:HashToG2"]}
{"id": "C58", "title": "The other hash functions agree", "statement": "EncodeToG2, EncodeToG2OnJac and HashToG2OnJac return the RFC 9380 encode_to_curve and hash_to_curve points.", "quantifier": "all 32-byte messages", "why_tests_cant": "a few messages are tried", "anchors": ["spark/pairing_bls12381/hashG2.go:EncodeToG2", "spark/pairing_bls12381/hashG2.go:EncodeToG2OnJac", "spark/pairing_bls12381/hashG2.go:HashToG2OnJac"]}
{"id": "C59", "title": "Miller loop never fails on the pairing groups", "statement": "MillerLoop on one pair (P,Q), P with nonzero ordinate and Q in the order-r subgroup of the twist, is satisfiable and has exactly one accepted value.", "quantifier": "all P with nonzero ordinate, all Q in G2 (more generally all curve points of order above the loop counter), all prover-chosen hints", "why_tests_cant": "the slopes are hinted quotients; a zero denominator for some point would make the circuit unsatisfiable or the value prover-chosen", "anchors": ["spark/pairing_bls12381/pairing.go:MillerLoop"]}
{"id": "C60", "title": "Opposite pairings cancel", "statement": "PairingCheck accepts (-P,Q),(P,Q).", "quantifier": "all P with nonzero ordinate, all curve points Q of order above the loop counter", "why_tests_cant": "a pair for which the check fails is exponentially rare", "anchors": ["spark/pairing_bls12381/pairing.go:PairingCheck", "spark/pairing_bls12381/pairing.go:FinalExponentiation"]}
{"id": "C61", "title": "The pairing is bilinear and nondegenerate", "statement": "The value computed by MillerLoop and the final exponentiation on one pair is unique, has order dividing r, is multiplicative in each argument (sums, scalar multiples, negatives), and is never 1 on nonzero points of the order-r subgroups; Pair on one pair accepts exactly that value.", "quantifier": "all points P, P1, P2 of E(Fp), all points Q, Q1, Q2 of the order-r subgroup of the twist, all scalars, all prover-chosen hints", "why_tests_cant": "tests check a few scalars; bilinearity is a statement about all pairs of 255-bit groups, and about every line and every iteration of the loop", "anchors": ["spark/pairing_bls12381/pairing.go:MillerLoop,Pair,FinalExponentiation"]}
{"id": "C62", "title": "Honest aggregate signatures are accepted", "statement": "When every key is its secret multiple of the generator, the signers' keys add up without exceptional additions and the signature is the sum of the signers' secrets times the hash of the message, both circuits accept (given the weight and commitment conditions and a nontrivial easy part of the final exponentiation).", "quantifier": "all key sets, secret keys, bit lists, weights and messages, both engines", "why_tests_cant": "completeness over all keys and messages; tests run one set of validators", "anchors": ["spark/bls-tx.go:Define", "spark/bls-rotate.go:Define", "spark/pairing_bls12381/pairing.go:PairingCheck"]}
{"id": "C63", "title": "Accepted signatures are the aggregate signatures", "statement": "For a message point and a signature in the order-r subgroup, the pairing check accepts only the secret multiple of the message point; so at most one signature is accepted per key and message point, and an accepted transaction or rotation carries the sum of the signers' secrets times an accepted hash of the message.", "quantifier": "all keys, signatures and message points of the groups, all witnesses, both engines, all prover-chosen hints", "why_tests_cant": "soundness against every signature and every hint", "anchors": ["spark/bls-tx.go:Define", "spark/bls-rotate.go:Define", "spark/pairing_bls12381/pairing.go:PairingCheck"]}
{"id": "C64", "title": "The subgroups of order r are cyclic and recognised by psi", "statement": "The points of E(Fp) and of the twist killed by r are the multiples of the two generators in the code, and a nonzero point of the twist is killed by r exactly when psi(P) = [x]P; every key in the subgroup has a secret key.", "quantifier": "all points of both curves", "why_tests_cant": "a statement about every point of groups of 381 and 762 bits", "anchors": ["spark/pairing_bls12381/g2.go:G2Psi", "spark/bls-bls12381_sig.go:VerifyBLS_bls12_Tx,Verify_bls12_Rotate"]}
{"id": "C65", "title": "Cofactor clearing lands in the subgroup of order r", "statement": "The twist has exactly h2*r points, the cofactor clearing formula of the code sends every point of the curve to infinity or into the subgroup of order r, it sends exactly the points killed by h2 to infinity, and for every other point none of the code's additions is exceptional.", "quantifier": "all points of the curve", "why_tests_cant": "a statement about every point of a group of 762 bits; tests clear a few hash points", "anchors": ["spark/pairing_bls12381/g2.go:G2ClearCofactor", "spark/pairing_bls12381/hashG2.go:ClearCofactor"]}
{"id": "C66", "title": "The transaction test accepts what its generator makes", "statement": "For secrets, bits, weights and message bytes in the ranges of the generator, the host side of the transaction test always produces an assignment, its own pairing check passes, and the honest execution of the circuit accepts it exactly when somebody signs, no signer's secret is the sum of the earlier signers', and the easy part of the final exponentiation is nontrivial.", "quantifier": "all secrets below 2^230, bit lists, weights below 2^10 and 32-byte messages outside the hash's exceptional cases", "why_tests_cant": "the test draws one random input per run; the failing inputs are improbable or depend on the bit list", "anchors": ["spark/bls-tx_test.go", "spark/test_helpers.go:generate,verifyPairingCheck,genPublickey", "spark/bls-tx.go:Define"]}
{"id": "C67", "title": "The rotation test accepts what its generator makes", "statement": "For values in the ranges of the generator, the rotation test produces an assignment exactly when the new commitment has 32 bytes, and the honest execution of the circuit accepts it exactly when somebody of the new set signs, no doubling is met and the easy part is nontrivial, provided the replaced secrets are new.", "quantifier": "all secrets, replaced positions, bit lists and weights in range", "why_tests_cant": "the test draws one random input per run", "anchors": ["spark/bls-rotate_test.go", "spark/test_helpers.go:generateNew,verifyPairingCheck", "spark/bls-rotate.go:Define"]}
{"id": "C68", "title": "The table texts are read as written", "statement": "parseOneDimensionArray returns exactly the numbers of every bracketed comma list, whatever the blanks, the case of the digits and the leading zeros, and panics on everything that is not a comma list of numbers; no entry is lost or invented and a trailing comma is a panic. parseTwoDimensionArray returns exactly the rows of every table laid out with spaces and line feeds; with a tab between two rows it silently merges them. The texts of the round constants and of both matrices parse to the tables the hash is proved about, for every width, and a width without a text panics.", "quantifier": "all texts, all lists and tables of non-negative numbers, all layouts, all widths", "why_tests_cant": "the tests parse only the texts that are in the file, and a lost, merged or misread entry would only show up as a different hash", "anchors": ["spark/pairing_bls12381/constants.go:parseOneDimensionArray,parseTwoDimensionArray,POSEIDON_C,POSEIDON_M,POSEIDON_P,POSEIDON_S,strPOSEIDON_C,strPOSEIDON_M,strPOSEIDON_P"]}
{"id": "C69", "title": "The pairing test circuits accept exactly the right results", "statement": "Each circuit of pairing_test.go is accepted, by the honest prover and by any other, exactly when the result in the witness is the pairing value (or product of values) of the points in it; the circuits with several pairs also need a Miller value with a nontrivial easy part, which only matters when the product is 1. A test that draws the scalar 0 fails, and so does the final-exponentiation circuit on inputs in the kernel.", "quantifier": "all field elements of degree 12, all points of the two groups, all scalars, all lists of two or more pairs", "why_tests_cant": "each test draws one random input per run and only checks acceptance of a right result, never rejection of a wrong one", "anchors": ["spark/pairing_bls12381/pairing_test.go:FinalExponentiationCircuit,PairCircuit,MultiPairCircuit,PairingCheckCircuit,FinalExponentiationSafeCircuit,PairFixedCircuit,DoublePairFixedCircuit,randomG1G2Affines", "spark/pairing_bls12381/pairing.go:Pair,PairingCheck,FinalExponentiation,FinalExponentiationUnsafe,PairFixedQ,DoublePairFixedQ"]}
{"id": "C70", "title": "Selection, lookup and zero tests over the tower", "statement": "Select and Lookup2 of Ext2, Ext6 and Ext12 return, for the honest prover and for any other, the entry named by the selector bits (entry s1 + 2 s2), and a selector that is not a bit cannot be used; IsZero answers 1 exactly at zero; ext2.Inverse has exactly one output, the inverse, and none at zero; MixS multiplies by the sparse matrix stored in the table.", "quantifier": "all elements of Fp, Fp2, Fp6 and Fp12, all selectors in the native field, all states and tables", "why_tests_cant": "no test calls Lookup2, IsZero of Ext12, ext2.Inverse or MixS, and a wrong selector is a question about all provers", "anchors": ["spark/pairing_bls12381/tower.go:Select,Lookup2,IsZero,ext2.Inverse", "spark/pairing_bls12381/poseidonHash.go:MixS"]}
