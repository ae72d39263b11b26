{
 "claims": [
  {
   "property": "C08",
   "status": "proved",
   "theorems": [
    "C08_fp2_arith",
    "C08_fp2_select"
   ],
   "note": "against schoolbook Fp[u]/(u^2+1)"
  },
  {
   "property": "C09",
   "status": "proved",
   "theorems": [
    "C09_fp6_arith"
   ],
   "note": "against schoolbook Fp2[v]/(v^3-(1+u))"
  },
  {
   "property": "C10",
   "status": "proved",
   "theorems": [
    "C10_fp12_arith"
   ],
   "note": "against schoolbook Fp6[w]/(w^2-v) and Fp2[w]/(w^6-(1+u))"
  },
  {
   "property": "C11",
   "status": "proved",
   "theorems": [
    "C11_sparse_mul6",
    "C11_sparse_mul12"
   ],
   "note": ""
  },
  {
   "property": "C12",
   "status": "proved",
   "theorems": [
    "C12_inverse"
   ],
   "note": ""
  },
  {
   "property": "C13",
   "status": "proved",
   "theorems": [
    "C13_div_unchecked"
   ],
   "note": ""
  },
  {
   "property": "C14",
   "status": "proved",
   "theorems": [
    "C14_nonresidue_constants"
   ],
   "note": ""
  },
  {
   "property": "C15",
   "status": "proved",
   "theorems": [
    "C15_torus_group",
    "C15_compress_decompress"
   ],
   "note": "soundness and uniqueness for all hints; Compress of Decompress for y <> 0 (y = 0 is the coordinate of -1, whose compression divides 0 by 0)"
  },
  {
   "property": "C16",
   "status": "proved",
   "theorems": [
    "C16_expt_torus",
    "C16_expt_torus_total"
   ],
   "note": "every accepted value of ExptHalfTorus/ExptTorus decompresses to the documented power; accepted when the input is not a small root of unity"
  },
  {
   "property": "C17",
   "status": "proved",
   "theorems": [
    "C17_final_exponentiation",
    "C17_final_exponentiation_total",
    "C17_unsafe_zero_refuted"
   ],
   "note": "exact for every e <> 0 and every prover; FinalExponentiationUnsafe at e = 0 divides 0 by 0 and accepts any value of the right order, stated as C17_unsafe_zero_refuted"
  },
  {
   "property": "C18",
   "status": "partial",
   "theorems": [
    "C18_argument_unmodified_refuted",
    "C18_argument_partial"
   ],
   "note": "refuted: with the safe variant the caller's C0 is overwritten when C1 = 0; the unsafe variant leaves it unchanged"
  },
  {
   "property": "C33",
   "status": "proved",
   "theorems": [
    "C33_double_step",
    "C33_tangent_line",
    "C33_add_step",
    "C33_double_and_add_step",
    "C33_triple_step",
    "C33_steps_total",
    "C33_double_zero_refuted"
   ],
   "note": "against the textbook chord-and-tangent relation; the degenerate doubling of (0,0), where any slope is accepted, is stated as C33_double_zero_refuted"
  },
  {
   "property": "C34",
   "status": "proved",
   "theorems": [
    "C34_multi_miller_product",
    "C34_pair_order",
    "C34_bad_lengths",
    "C34_nonzero"
   ],
   "note": "any number of pairs, for every prover and for the honest one"
  },
  {
   "property": "C35",
   "status": "proved",
   "theorems": [
    "C35_fixed_argument",
    "C35_fixed_total"
   ],
   "note": "the whole precomputed table is checked against the steps on the standard G2 generator"
  },
  {
   "property": "C36",
   "status": "proved",
   "theorems": [
    "C36_pairing_check_sound",
    "C36_pairing_check_complete",
    "C36_single_pair_rejected"
   ],
   "note": "a single-pair check is never accepted (unsafe final exponentiation), hence the bound 2 <= n"
  },
  {
   "property": "C01",
   "status": "proved",
   "theorems": [
    "C01_sha256_fips",
    "C01_constants"
   ],
   "note": "byte strings of bit length < 2^64; specification written from FIPS 180-4 with the constants computed as root expansions"
  },
  {
   "property": "C02",
   "status": "proved",
   "theorems": [
    "C02_sessions"
   ],
   "note": "arbitrary programs of Write, Sum and Reset calls"
  },
  {
   "property": "C03",
   "status": "proved",
   "theorems": [
    "C03_sound"
   ],
   "note": "every satisfying assignment"
  },
  {
   "property": "C04",
   "status": "proved",
   "theorems": [
    "C04_bitwise",
    "C04_not",
    "C04_shifts",
    "C04_rotate",
    "C04_add",
    "C04_range",
    "C04_assert_eq"
   ],
   "note": "all operand values; every word size n for the bitwise operations; add for up to 202 operands (the width 33+k must stay below the field size)"
  },
  {
   "property": "C05",
   "status": "proved",
   "theorems": [
    "C05_expand_message",
    "C05_expand_message_sound"
   ],
   "note": "32-byte messages, 1 <= count <= 127, honest prover and every prover"
  },
  {
   "property": "C06",
   "status": "proved",
   "theorems": [
    "C06_hash_to_field"
   ],
   "note": "honest prover, up to 63 extension elements"
  },
  {
   "property": "C07",
   "status": "partial",
   "theorems": [
    "C07_output_bound_refuted",
    "C07_wrong_hash_refuted",
    "C07_shape_partial"
   ],
   "note": "refuted: the RemHint output is never constrained, so any list of elements is accepted; only the byte range of the message and the output length are enforced"
  },
  {
   "property": "C40",
   "status": "proved",
   "theorems": [
    "C40_signed_weight"
   ],
   "note": "either engine, any prover; the sum is modulo the native field order (see C41)"
  },
  {
   "property": "C42",
   "status": "partial",
   "theorems": [
    "C42_test_engine",
    "C42_test_engine_rotate",
    "C42_sum_is_sum",
    "C42_compiled_all_sign_partial",
    "C42_compiled_all_sign_rotate_partial",
    "C42_compiled_one_signer",
    "C42_compiled_refuted"
   ],
   "note": "exact in the test engine; refuted for the compiled circuit, where an unset position adds (0,0) by the chord formula; there it holds when all ten sign"
  },
  {
   "property": "C43",
   "status": "partial",
   "theorems": [
    "C43_add_g1_distinct_partial",
    "C43_add_g1_equal_refuted",
    "C43_add_g1_opposite_unsat"
   ],
   "note": "holds for distinct abscissae; refuted for equal operands (any slope accepted); opposite operands are rejected"
  },
  {
   "property": "C44",
   "status": "proved",
   "theorems": [
    "C44_trusted_weight_general",
    "C44_trusted_weight"
   ],
   "note": "general characterisation, and the stated formula when no old key is all zero"
  },
  {
   "property": "C45",
   "status": "partial",
   "theorems": [
    "C45_only_signers_refuted",
    "C44_trusted_weight"
   ],
   "note": "refuted by an all-zero old key; holds otherwise by C44_trusted_weight"
  },
  {
   "property": "C46",
   "status": "partial",
   "theorems": [
    "C46_membership_refuted",
    "C44_trusted_weight"
   ],
   "note": "refuted: the comparison is by position; C44_trusted_weight gives the exact positional formula"
  },
  {
   "property": "C37",
   "status": "proved",
   "theorems": [
    "C37_poseidon_textbook"
   ],
   "note": "all widths 2..17; the Grain parameters are proved to exist and to be unique; tables checked by kernel evaluation of a proved checker"
  },
  {
   "property": "C38",
   "status": "proved",
   "theorems": [
    "C38_poseidon_arity"
   ],
   "note": "None = Go panic (index out of range or empty-table parse)"
  },
  {
   "property": "C39",
   "status": "proved",
   "theorems": [
    "C39_hasher_session",
    "C39_hasher_defined"
   ],
   "note": ""
  },
  {
   "property": "C47",
   "status": "proved",
   "theorems": [
    "C47_helper_commitment",
    "C47_large_weight",
    "C47_circuit_commitment",
    "C47_encoding"
   ],
   "note": "The hash library of the helper is a contract (iden3_hash): textbook Poseidon on 1..16 words below r, error otherwise. A weight >= r makes the helper panic while the circuit reduces it."
  },
  {
   "property": "C48",
   "status": "proved",
   "theorems": [
    "C48_commitment_binding",
    "C48_commitment_exists"
   ],
   "note": "Reduction: two different sets with one commitment give a Poseidon collision on equal lengths."
  },
  {
   "property": "C49",
   "status": "proved",
   "theorems": [
    "C49_tx_sound",
    "C49_tx_characterised",
    "C49_accepted"
   ],
   "note": "The pairing product is stated through accepted Miller values; no on-curve or subgroup check exists in the circuit, see C42/C43 for what apk_is means when the compiled circuit adds (0,0)."
  },
  {
   "property": "C50",
   "status": "partial",
   "theorems": [
    "C50_message_hash_free",
    "C50_tx_refuted",
    "C50_rotate_refuted"
   ],
   "note": "False of the code: MessageHash is unconstrained in both circuits; proved that any accepted witness stays accepted with any other MessageHash."
  },
  {
   "property": "C51",
   "status": "partial",
   "theorems": [
    "C51_tx_replay",
    "C51_refuted"
   ],
   "note": "False of the code: the output of HashToField is not tied to the message, so an accepted witness is accepted with any other 32 message bytes."
  },
  {
   "property": "C52",
   "status": "partial",
   "theorems": [
    "C52_rotate_replay",
    "C52_refuted"
   ],
   "note": "False of the code: the signed bytes are not tied to NewCommitment (nor to the hash), so an accepted witness is accepted with any 32 bytes."
  },
  {
   "property": "C53",
   "status": "proved",
   "theorems": [
    "C53_rotate_sound",
    "C53_accepted"
   ],
   "note": "Trusted weight is the formula `counted` (C44-C46 describe it). Old keys need six limbs each, the shape of emulated.Element."
  },
  {
   "property": "C54",
   "status": "partial",
   "theorems": [
    "C54_message_length_partial",
    "C54_message_length_refuted"
   ],
   "note": "False of the code: big.Int.Bytes drops leading zero bytes; 32 bytes exactly when the commitment is at least 2^248. Refuted with ten copies of the generator and weight 5."
  },
  {
   "property": "C55",
   "status": "partial",
   "theorems": [
    "C55_helper_trusted_partial",
    "C55_helper_trusted_refuted"
   ],
   "note": "True when each position is kept or gets a fresh abscissa (what generateNew produces); false for a permutation of the validators."
  },
  {
   "property": "C19",
   "status": "partial",
   "theorems": [
    "C19_group_law",
    "C19_double",
    "C19_add_honest",
    "C19_add_sound_partial",
    "C19_add_equal_refuted",
    "C19_add_infinity_refuted",
    "C19_exact"
   ],
   "note": "C19_exact is the exact condition for any prover. Doubling: all points, any prover. Addition: the honest prover on all points; any prover on distinct finite points. Refuted for equal operands and for infinity: the comparison bits come from a representative the prover chooses below 2^381, so they can be flipped. The specification is proved to be an abelian group."
  },
  {
   "property": "C20",
   "status": "partial",
   "theorems": [
    "C20_round_trip",
    "C20_to_jacobian",
    "C20_to_affine",
    "C20_zero",
    "C20_infinity_refuted",
    "C20_infinity_unsat"
   ],
   "note": "The round trip holds for any prover; refuted for infinity: GetG2AffineFromG2Jac with Z = 0 is unsatisfiable instead of returning (0,0)."
  },
  {
   "property": "C21",
   "status": "partial",
   "theorems": [
    "C21_add_partial",
    "C21_sub_partial",
    "C21_double",
    "C21_add_opposite",
    "C21_add_equal_any",
    "C21_add_equal_refuted",
    "C21_exact"
   ],
   "note": "For any prover sound exactly when the operands differ (C21_exact). Exactly the sum for distinct, non-opposite points; doubling for all points. Refuted for equal operands: 0/0 leaves the slope free, and the honest slope 0 gives a point off the curve."
  },
  {
   "property": "C22",
   "status": "proved",
   "theorems": [
    "C22_honest",
    "C22_exact",
    "C22_sound_partial",
    "C22_subgroup",
    "C22_infinity",
    "C22_criterion",
    "C22_order13",
    "C22_refuted"
   ],
   "note": "Honest prover: every curve point. Any prover: exactly the points that are infinity or not killed by 13 (C22_exact); at every point of order 13 a prover can reach infinity (C22_order13, C22_refuted)."
  },
  {
   "property": "C23",
   "status": "proved",
   "theorems": [
    "C23_psi_affine",
    "C23_psi_jacobian",
    "C23_psi_function",
    "C23_psi_curve",
    "C23_psi_homomorphism",
    "C23_psi_square"
   ],
   "note": "against the untwist-Frobenius-twist map defined with p-th powers"
  },
  {
   "property": "C24",
   "status": "proved",
   "theorems": [
    "C24_honest",
    "C24_sound",
    "C24_exact",
    "C24_jacobian_refuted",
    "C24_affine",
    "C24_affine_sound",
    "C24_affine_reject",
    "C24_affine_refuted",
    "C24_subgroup",
    "C24_formula"
   ],
   "note": "Jacobian version: the honest prover is right at every curve point; for any prover C24_exact shows it is right exactly at the points not of order 13 (or infinity), and C24_jacobian_refuted gives a result outside the subgroup at order 13. Affine version: any prover, every point not of order 13; it has no witness when the image is infinity; refuted at order 13."
  },
  {
   "property": "C25",
   "status": "partial",
   "theorems": [
    "C25_honest",
    "C25_accepted_partial",
    "C25_refuted"
   ],
   "note": "The honest answers are right and the accepted answers are characterised exactly; refuted: the answer 1 (different) is accepted for equal values."
  },
  {
   "property": "C26",
   "status": "partial",
   "theorems": [
    "C26_accepted",
    "C26_honest_partial",
    "C26_refuted",
    "C26_flip_refuted"
   ],
   "note": "Accepted values characterised exactly. Refuted twice: the code ignores A1 when A0 = 0 (honest prover), and any A0 below 2^381-p lets a prover choose the bit."
  },
  {
   "property": "C27",
   "status": "proved",
   "theorems": [
    "C27_exp",
    "C27_exp_neg",
    "C27_exp_neg_zero"
   ],
   "note": "unique accepted result, all exponents; 0 to a negative power is unsatisfiable"
  },
  {
   "property": "C28",
   "status": "partial",
   "theorems": [
    "C28_sqrt_ratio_partial",
    "C28_zero_refuted",
    "C28_any_prover",
    "C28_cheat_refuted"
   ],
   "note": "Honest prover for u and v nonzero; refuted at u = 0 (flag says non-square). Any prover: right up to an eighth root of unity, and no better."
  },
  {
   "property": "C29",
   "status": "partial",
   "theorems": [
    "C29_sswu_honest",
    "C29_any_prover_partial",
    "C29_refuted"
   ],
   "note": "Honest prover: every nonzero u. Refuted for other provers: an accepted point off the isogenous curve."
  },
  {
   "property": "C30",
   "status": "partial",
   "theorems": [
    "C30_satisfiable_partial",
    "C30_refuted"
   ],
   "note": "Satisfiable exactly for u <> 0; refuted at u = 0, where RFC 9380 has a value."
  },
  {
   "property": "C31",
   "status": "proved",
   "theorems": [
    "C31_isogeny",
    "C31_all_points"
   ],
   "note": "every point of the isogenous curve, any prover"
  },
  {
   "property": "C32",
   "status": "partial",
   "theorems": [
    "C32_honest",
    "C32_any_prover_partial",
    "C32_refuted"
   ],
   "note": "Honest prover: every 32-byte message with nonzero field elements, different mapped points and finite result; the result is in the order-r subgroup. Refuted for other provers: every message has an accepted output off the curve, and accepted outputs that do not depend on the message."
  },
  {
   "property": "C56",
   "status": "partial",
   "theorems": [
    "C56_sign_partial",
    "C56_refuted",
    "C56_flip_refuted"
   ],
   "note": "Agrees with RFC 9380 when A0 u and A0 y are nonzero; refuted at u = (0,1); a prover can negate the ordinate for small A0 u."
  },
  {
   "property": "C57",
   "status": "partial",
   "theorems": [
    "C57_rfc_partial",
    "C57_field_partial"
   ],
   "note": "Honest prover; missing: A0 zero (refuted, C56), equal mapped points and results at infinity. The result is in the order-r subgroup. For other provers see C26-C32."
  },
  {
   "property": "C58",
   "status": "partial",
   "theorems": [
    "C58_encode_partial",
    "C58_hash_jac_partial"
   ],
   "note": "Honest prover, finite results; the result is in the order-r subgroup and EncodeToG2 equals EncodeToG2OnJac."
  },
  {
   "property": "C41",
   "status": "partial",
   "theorems": [
    "C41_no_overflow_partial",
    "C41_overflow_refuted"
   ],
   "note": "True when every weight is below 2^250; refuted in general by an accepted witness with weights r-1 and 2 and public weight 1 (either engine)."
  },
  {
   "property": "C59",
   "status": "proved",
   "theorems": [
    "C59_miller_total",
    "C59_miller_total_curve"
   ],
   "note": ""
  },
  {
   "property": "C60",
   "status": "partial",
   "theorems": [
    "C60_negation"
   ],
   "note": "Exact condition: accepted unless the norm of the Miller value is a multiple of v^2, the case the torus form of the final exponentiation cannot represent. Whether such a pair exists is not settled."
  },
  {
   "property": "C61",
   "status": "proved",
   "theorems": [
    "C61_value_exists",
    "C61_value_unique",
    "C61_order_r",
    "C61_additive_first",
    "C61_additive_second",
    "C61_scalar_first",
    "C61_scalar_second",
    "C61_inverse_first",
    "C61_inverse_second",
    "C61_nondegenerate",
    "C61_pair_circuit"
   ],
   "note": "Value = Miller value to the power 3(p^12-1)/r, as the code computes it. First argument: every finite point of E(Fp)."
  },
  {
   "property": "C62",
   "status": "proved",
   "theorems": [
    "C62_check",
    "C62_tx_honest",
    "C62_rotate_honest",
    "C62_tx_rfc",
    "C62_rotate_rfc"
   ],
   "note": "The condition that the easy part is nontrivial is exact (C60, C62_check). C62_tx_rfc and C62_rotate_rfc are end to end: the signature is on the RFC 9380 hash of the message."
  },
  {
   "property": "C63",
   "status": "proved",
   "theorems": [
    "C63_signature_exact",
    "C63_one_signature",
    "C63_tx_signature",
    "C63_rotate_signature"
   ],
   "note": "Conditional on hash point and signature in G2, which the circuit does not check; which hash points are accepted is C07 and C32."
  },
  {
   "property": "C64",
   "status": "proved",
   "theorems": [
    "C64_subgroup_criterion",
    "C64_G2_cyclic",
    "C64_G1_cyclic",
    "C64_secret_keys"
   ],
   "note": "by counting: a second independent point of order r would give more points than the curve can have"
  },
  {
   "property": "C65",
   "status": "proved",
   "theorems": [
    "C65_count",
    "C65_exponent",
    "C65_cleared",
    "C65_kernel",
    "C65_ordinary"
   ],
   "note": "structure of the twist: explicit independent points of order 13, 13, 23, 23, 2713, 11953, 262069 and the large primes, and an upper bound on the number of points"
  },
  {
   "property": "C66",
   "status": "proved",
   "theorems": [
    "C66_flow_total",
    "C66_accepted",
    "C66_needs",
    "C66_nobody",
    "C66_no_signers_refuted",
    "C66_doubling_refuted"
   ],
   "note": "gnark-crypto through the contracts of HostSpec.v. The claim that every generated assignment is accepted is false: C66_no_signers_refuted, C66_doubling_refuted; C66_accepted is the exact condition. C66_run and C67_run carry one run of each flow through to acceptance, with SHA-256, the map to the curve, Poseidon and the Miller loop evaluated in the kernel."
  },
  {
   "property": "C67",
   "status": "proved",
   "theorems": [
    "C67_flow_total",
    "C67_accepted",
    "C67_needs",
    "C67_nobody",
    "C67_short_refuted"
   ],
   "note": "same contracts; C67_short_refuted is a generated input without an assignment."
  },
  {
   "property": "C69",
   "status": "proved",
   "theorems": [
    "C69_final_exponentiation",
    "C69_final_exponentiation_refuted",
    "C69_pair",
    "C69_pair_fixed",
    "C69_zero_scalar_refuted",
    "C69_pair_many",
    "C69_check_many",
    "C69_nontrivial",
    "C69_product",
    "C69_multi_test",
    "C69_double_fixed_test",
    "C69_check_test",
    "C69_check_norms",
    "C69_check_other",
    "C69_safe",
    "C69_safe_test"
   ],
   "note": "The expected result of gnark-crypto is the value of C61. That every run of these tests passes is false: C69_zero_scalar_refuted, C69_final_exponentiation_refuted. C69_safe_test is the one test without random input, evaluated in the kernel."
  },
  {
   "property": "C68",
   "status": "proved",
   "theorems": [
    "C68_one_dimension",
    "C68_two_dimensions",
    "C68_every_table",
    "C68_exact",
    "C68_count",
    "C68_trailing_comma",
    "C68_tables",
    "C68_blanks_refuted"
   ],
   "note": "ASCII texts. That the two-dimensional parser reads every blank alike is false: C68_blanks_refuted. The text of strPOSEIDON_S is parsed in the kernel for the widths 2 and 3 only (C68_sparse_ex)."
  },
  {
   "property": "C70",
   "status": "proved",
   "theorems": [
    "C70_select",
    "C70_lookup",
    "C70_is_zero",
    "C70_small_inverse",
    "C70_mixS"
   ],
   "note": "added because an edit of E2_Lookup2 broke no property theorem"
  }
 ]
}