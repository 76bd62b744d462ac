{
 "claims": [
  {
   "property": "C01",
   "status": "proved",
   "theorems": [
    "C01_linear"
   ],
   "note": ""
  },
  {
   "property": "C02",
   "status": "proved",
   "theorems": [
    "C02_canonical"
   ],
   "note": "For every list of library calls (module Ops) and every back end; covers the registers and every operand of every emitted constraint."
  },
  {
   "property": "C03",
   "status": "proved",
   "theorems": [
    "C03_as_const_exact"
   ],
   "note": ""
  },
  {
   "property": "C04",
   "status": "proved",
   "theorems": [
    "C04_operand_order"
   ],
   "note": ""
  },
  {
   "property": "C05",
   "status": "proved",
   "theorems": [
    "C05_proving",
    "C05_setup",
    "C05_setup_runs",
    "C05_setup_hint_refuted"
   ],
   "note": "The proving half holds for every list of library calls. The setup half holds when the gadgets that allocate a hint (subgroup check, decompression, from_scalar, EdDSA) are not given constants; C05_setup_runs shows the guard changes nothing else. Without it the setup half is false of the code: C05_setup_hint_refuted."
  },
  {
   "property": "C06",
   "status": "proved",
   "theorems": [
    "C06_mul"
   ],
   "note": ""
  },
  {
   "property": "C07",
   "status": "proved",
   "theorems": [
    "C07_div"
   ],
   "note": ""
  },
  {
   "property": "C08",
   "status": "proved",
   "theorems": [
    "C08_div_const_actual",
    "C08_div_const_refuted"
   ],
   "note": "The property is false of the code: dividing a constant CNum by a CNum returns divisor / dividend. C08_div_const_refuted is the witness, C08_div_const_actual states what the code computes."
  },
  {
   "property": "C09",
   "status": "proved",
   "theorems": [
    "C09_is_zero",
    "C09_is_eq"
   ],
   "note": ""
  },
  {
   "property": "C10",
   "status": "proved",
   "theorems": [
    "C10_booleans",
    "C10_assertions"
   ],
   "note": ""
  },
  {
   "property": "C11",
   "status": "proved",
   "theorems": [
    "C11_if_else",
    "C11_switch"
   ],
   "note": ""
  },
  {
   "property": "C12",
   "status": "proved",
   "theorems": [
    "C12_same_system"
   ],
   "note": "For every list of library calls, every back end (a function naming variables from the calls seen) and every two witnesses."
  },
  {
   "property": "C13",
   "status": "proved",
   "theorems": [
    "C13_setup_total",
    "C13_limit_refuted"
   ],
   "note": "Precondition: bit lengths asked for fit the field. Without it the code panics in setup where proving works: C13_limit_refuted."
  },
  {
   "property": "C14",
   "status": "proved",
   "theorems": [
    "C14_get_value",
    "C14_bool_alloc_refuted",
    "C14_bool_assert"
   ],
   "note": "The property is false of the code: CBool::alloc adds no constraint. C14_bool_alloc_refuted is the witness; C14_bool_assert shows the explicit assertion does make it boolean."
  },
  {
   "property": "C15",
   "status": "proved",
   "theorems": [
    "C15_into_bits_sound",
    "C15_into_bits_complete",
    "C15_zero_bits"
   ],
   "note": ""
  },
  {
   "property": "C16",
   "status": "proved",
   "theorems": [
    "C16_into_bits_strict"
   ],
   "note": ""
  },
  {
   "property": "C17",
   "status": "proved",
   "theorems": [
    "C17_comp_constant"
   ],
   "note": ""
  },
  {
   "property": "C18",
   "status": "proved",
   "theorems": [
    "C18_comp_constant_actual",
    "C18_comp_constant_large_refuted"
   ],
   "note": "The property is false of the code for constants with bits above the compared width. C18_comp_constant_large_refuted is the witness, C18_comp_constant_actual states exactly what is compared."
  },
  {
   "property": "C19",
   "status": "proved",
   "theorems": [
    "C19_from_bits",
    "C19_from_into_bits"
   ],
   "note": ""
  },
  {
   "property": "C20",
   "status": "proved",
   "theorems": [
    "C20_mux3"
   ],
   "note": ""
  },
  {
   "property": "C21",
   "status": "proved",
   "theorems": [
    "C21_poseidon",
    "C21_poseidon_panics"
   ],
   "note": ""
  },
  {
   "property": "C22",
   "status": "proved",
   "theorems": [
    "C22_poseidon_with_salt"
   ],
   "note": ""
  },
  {
   "property": "C23",
   "status": "proved",
   "theorems": [
    "C23_zero_padding"
   ],
   "note": ""
  },
  {
   "property": "C24",
   "status": "proved",
   "theorems": [
    "C24_merkle_proof"
   ],
   "note": ""
  },
  {
   "property": "C25",
   "status": "proved",
   "theorems": [
    "C25_merkle_forge",
    "C25_merkle_binds_leaf_refuted"
   ],
   "note": "The property is false of the code: the path bits are never constrained. C25_merkle_binds_leaf_refuted is the witness; C25_merkle_forge shows that for any leaf every pair (a, b) with a + b <> 2 leaf can be hashed at the next level."
  },
  {
   "property": "C26",
   "status": "proved",
   "theorems": [
    "C26_tree_root_native",
    "C26_tree_root_circuit"
   ],
   "note": ""
  },
  {
   "property": "C27",
   "status": "proved",
   "theorems": [
    "C27_extended",
    "C27_in_curve_exact",
    "C27_affine",
    "C27_affine_zero"
   ],
   "note": ""
  },
  {
   "property": "C28",
   "status": "proved",
   "theorems": [
    "C28_group"
   ],
   "note": ""
  },
  {
   "property": "C29",
   "status": "proved",
   "theorems": [
    "C29_mul",
    "C29_mod_order"
   ],
   "note": ""
  },
  {
   "property": "C30",
   "status": "proved",
   "theorems": [
    "C30_to_montgomery",
    "C30_from_montgomery"
   ],
   "note": ""
  },
  {
   "property": "C31",
   "status": "proved",
   "theorems": [
    "C31_get_for_y",
    "C31_is_in_curve",
    "C31_rand"
   ],
   "note": ""
  },
  {
   "property": "C32",
   "status": "proved",
   "theorems": [
    "C32_decompress",
    "C32_both_curves"
   ],
   "note": ""
  },
  {
   "property": "C33",
   "status": "proved",
   "theorems": [
    "C33_cofactor",
    "C33_both_curves",
    "C33_subgroup"
   ],
   "note": ""
  },
  {
   "property": "C34",
   "status": "proved",
   "theorems": [
    "C34_from_scalar",
    "C34_unique",
    "C34_both_curves"
   ],
   "note": ""
  },
  {
   "property": "C35",
   "status": "proved",
   "theorems": [
    "C35_sign_verify",
    "C35_any_hash",
    "C35_both_curves",
    "C35_library"
   ],
   "note": ""
  },
  {
   "property": "C36",
   "status": "proved",
   "theorems": [
    "C36_verify_equation",
    "C36_any_hash",
    "C36_unique_scalar"
   ],
   "note": ""
  },
  {
   "property": "C37",
   "status": "proved",
   "theorems": [
    "C37_add",
    "C37_double",
    "C37_cofactor"
   ],
   "note": ""
  },
  {
   "property": "C38",
   "status": "proved",
   "theorems": [
    "C38_in_curve",
    "C38_in_subgroup",
    "C38_subgroup_meaning"
   ],
   "note": "assert_in_subgroup costs 20 constraints in the code; the README says 19, which is the cost of subgroup_decompress."
  },
  {
   "property": "C39",
   "status": "proved",
   "theorems": [
    "C39_decompress",
    "C39_unsatisfiable"
   ],
   "note": ""
  },
  {
   "property": "C40",
   "status": "proved",
   "theorems": [
    "C40_mul"
   ],
   "note": ""
  },
  {
   "property": "C41",
   "status": "proved",
   "theorems": [
    "C41_mul",
    "C41_number",
    "C41_one_bit_refuted"
   ],
   "note": "Proved for bit vectors of length at least 2 whose first window is free (linearly independent first bits). For one-bit scalars the property is false of the code: C41_one_bit_refuted."
  },
  {
   "property": "C42",
   "status": "proved",
   "theorems": [
    "C42_zero_base",
    "C42_const_bits_refuted",
    "C42_empty_panics"
   ],
   "note": "The property is false of the code: C42_const_bits_refuted is the witness, C42_empty_panics shows the panic, C42_zero_base the case that does work."
  },
  {
   "property": "C43",
   "status": "proved",
   "theorems": [
    "C43_from_scalar"
   ],
   "note": ""
  },
  {
   "property": "C44",
   "status": "proved",
   "theorems": [
    "C44_verify",
    "C44_every_input",
    "C44_library"
   ],
   "note": ""
  },
  {
   "property": "C45",
   "status": "proved",
   "theorems": [
    "C45_malleable",
    "C45_canonical_s_refuted"
   ],
   "note": "The property is false of the code: C45_canonical_s_refuted is the witness, C45_malleable states that s and s+l get the same verdict."
  },
  {
   "property": "C46",
   "status": "proved",
   "theorems": [
    "C46_unsigned",
    "C46_signed",
    "C46_minimum",
    "C46_big",
    "C46_bool",
    "C46_into_u64",
    "C46_biguint",
    "C46_str"
   ],
   "note": "i32::MIN and i64::MIN are covered by C46_minimum: panic with overflow checks; without them i32::MIN gives a wrong value. For fields whose byte size differs from the limb size the BigUint/BigInt conversions always panic (C46_big)."
  },
  {
   "property": "C47",
   "status": "proved",
   "theorems": [
    "C47_roundtrip",
    "C47_exact",
    "C47_injective"
   ],
   "note": ""
  },
  {
   "property": "C48",
   "status": "proved",
   "theorems": [
    "C48_roundtrip",
    "C48_exact",
    "C48_digits",
    "C48_not_injective",
    "C48_other_fields"
   ],
   "note": ""
  },
  {
   "property": "C49",
   "status": "proved",
   "theorems": [
    "C49_from_seed",
    "C49_roundtrip",
    "C49_from_bytes",
    "C49_panics",
    "C49_other"
   ],
   "note": ""
  },
  {
   "property": "C50",
   "status": "proved",
   "theorems": [
    "C50_iterators",
    "C50_iterbit_be"
   ],
   "note": ""
  },
  {
   "property": "C51",
   "status": "proved",
   "theorems": [
    "C51_coefficients",
    "C51_bn_roundtrip",
    "C51_bls_roundtrip",
    "C51_accepted",
    "C51_rejected",
    "C51_proof_and_key",
    "C51_infinity_record_refuted"
   ],
   "note": "Finite valid points come back as the same record, infinity comes back as infinity. As a record infinity differs, since the pairing crate's zero() is (0, 1, true): C51_infinity_record_refuted."
  },
  {
   "property": "C52",
   "status": "proved",
   "theorems": [
    "C52_bn_subgroup_refuted"
   ],
   "note": "The property is false of the code: C52_bn_subgroup_refuted exhibits data that is accepted and whose point P has r P <> 0. The multiplication is checked step by step from a certificate (tools/geng2.py)."
  },
  {
   "property": "C53",
   "status": "proved",
   "theorems": [
    "C53_verify",
    "C53_expanded",
    "C53_panic"
   ],
   "note": "For every engine whose Miller loop and final exponentiation compute a product of a map additive in its first argument; the pairing library itself is a parameter. C53_panic: unwrap of a missing final exponentiation."
  },
  {
   "property": "C54",
   "status": "proved",
   "theorems": [
    "C54_roundtrip",
    "C54_layout",
    "C54_exact",
    "C54_injective"
   ],
   "note": ""
  },
  {
   "property": "C55",
   "status": "proved",
   "theorems": [
    "C55_read_write",
    "C55_read_exact",
    "C55_short",
    "C55_truncate"
   ],
   "note": "For every point encoding of fixed size that decodes what it encodes (the pairing crate's into_compressed / into_affine are parameters)."
  },
  {
   "property": "C56",
   "status": "proved",
   "theorems": [
    "C56_linearize",
    "C56_inputs_bound",
    "C56_inputs_values"
   ],
   "note": "Circuits are sequences of the modelled operations with a constant-free start; composite signals reduce to them by C56_linearize, which shows that inputize on any composite type acts as inputizing its linearized numbers in order."
  },
  {
   "property": "C57",
   "status": "proved",
   "theorems": [
    "C57_if_else",
    "C57_derive",
    "C57_merkle",
    "C57_point",
    "C57_alloc",
    "C57_from_const",
    "C57_componentwise",
    "C57_is_eq",
    "C57_is_eq_empty_panics",
    "C57_get",
    "C57_get_none",
    "C57_get_vec_panics",
    "C57_get_value_refuted"
   ],
   "note": "All operations are component-wise, with two exceptions that are proved: get_value and as_const of a SizedVec panic instead of returning None when a component is missing (C57_get_value_refuted, C57_get_vec_panics), and is_eq on an empty vector panics (C57_is_eq_empty_panics)."
  },
  {
   "property": "C58",
   "status": "proved",
   "theorems": [
    "C58_from_iter",
    "C58_collect_option",
    "C58_deserialize_unchecked",
    "C58_deserialize_refuted"
   ],
   "note": "The second sentence is false of the code: C58_deserialize_refuted. C58_collect_option: collecting Options panics if one is missing."
  },
  {
   "property": "C59",
   "status": "proved",
   "theorems": [
    "C59_blocks",
    "C59_digests",
    "C59_stream",
    "C59_words",
    "C59_overflow",
    "C59_grouping",
    "C59_texts"
   ],
   "note": "With overflow checks the block counter panics after 2^64 blocks, without them it wraps (C59_overflow)."
  },
  {
   "property": "C60",
   "status": "proved",
   "theorems": [
    "C60_dimensions",
    "C60_no_panic",
    "C60_values",
    "C60_deterministic",
    "C60_hash_defined",
    "C60_library_parameters",
    "C60_salt"
   ],
   "note": "Field elements are drawn by rejection, so the draws are modelled with fuel: the statements are about runs in which the draws end; C60_library_parameters shows that they do for the parameters the library ships for BN256."
  },
  {
   "property": "C61",
   "status": "proved",
   "theorems": [
    "C61_ecmul_count",
    "C61_ecmul_const_count",
    "C61_eddsa_count",
    "C61_generators",
    "C61_library",
    "C61_poseidon_count",
    "C61_merkle_count",
    "C61_readme_hashes",
    "C61_bits_count"
   ],
   "note": "Counts for constant-base multiplication and the signature are exact when every window table is regular (an explicit hypothesis on the base point; without it the count is at most that). C61_generators and C61_library discharge it for the generators of both curves. The verifier for BN256 costs 3866, the README says 3860; assert_in_subgroup costs 20, the README says 19."
  },
  {
   "property": "C62",
   "status": "proved",
   "theorems": [
    "C62_groth16",
    "C62_same_system",
    "C62_keys_exist",
    "C62_testcs",
    "C62_test_accepts"
   ],
   "note": "bellman's assemblies are modelled from their documented behaviour (they are not in /repo); the transmutes are assumed to identify bellman's and this crate's variables and linear combinations. TestCS checks a constraint only if all three values are known."
  },
  {
   "property": "C63",
   "status": "proved",
   "theorems": [
    "C63_bn256",
    "C63_bls12_381",
    "C63_edwards_g",
    "C63_bls_generator",
    "C63_bn_generator_refuted"
   ],
   "note": "All parts are proved, including that 7 generates Fs* of BLS12-381 and the exact number of points 8 l. The last part is false for BN256: C63_bn_generator_refuted shows 7 does not generate Fs* there (it is a square)."
  },
  {
   "property": "C64",
   "status": "proved",
   "theorems": [
    "C64_text",
    "C64_no_placeholder",
    "C64_empty",
    "C64_decimal"
   ],
   "note": "With overflow checks an empty ic panics; without them the text is produced with input count 2^64 - 1 (C64_empty)."
  },
  {
   "property": "C65",
   "status": "proved",
   "theorems": [
    "C65_library",
    "C65_permutation",
    "C65_bijective",
    "C65_sbox"
   ],
   "note": ""
  },
  {
   "property": "C66",
   "status": "proved",
   "theorems": [
    "C66_proof_binding",
    "C66_tree_binding",
    "C66_membership",
    "C66_membership_circuit",
    "C66_length_refuted",
    "C66_library"
   ],
   "note": "Collision resistance is not assumed: the theorems conclude with an explicit collision. C66_length_refuted: the root does not bind the number of leaves."
  },
  {
   "property": "C67",
   "status": "proved",
   "theorems": [
    "C67_message",
    "C67_zero_key",
    "C67_zero_key_circuit",
    "C67_zero_key_object"
   ],
   "note": "A finding rather than a guarantee for the key 0: C67_zero_key and C67_zero_key_circuit. C67_zero_key_object says it of a whole circuit object with public key and message."
  },
  {
   "property": "C68",
   "status": "proved",
   "theorems": [
    "C68_signed_accepted",
    "C68_both_curves",
    "C68_signed_object",
    "C68_library"
   ],
   "note": "C68_signed_object is the consequence for a whole circuit object with public key and message."
  },
  {
   "property": "C69",
   "status": "proved",
   "theorems": [
    "C69_signature",
    "C69_nonce_reuse",
    "C69_key"
   ],
   "note": ""
  },
  {
   "property": "C70",
   "status": "proved",
   "theorems": [
    "C70_ring",
    "C70_division",
    "C70_parity",
    "C70_word",
    "C70_rand",
    "C70_uniform"
   ],
   "note": "Random draws are modelled from the ff and rand crates' documented behaviour; the system's bytes are an arbitrary function. C70_uniform states the counting fact, not a probability."
  },
  {
   "property": "C71",
   "status": "proved",
   "theorems": [
    "C71_add_actual",
    "C71_double_actual",
    "C71_const_refuted",
    "C71_from_scalar_refuted"
   ],
   "note": "The property is false of the code: C71_const_refuted, C71_from_scalar_refuted. C71_add_actual and C71_double_actual say what happens: each coordinate comes out inverted, and a zero coordinate panics. Consequence of C08_div_const_refuted."
  },
  {
   "property": "C72",
   "status": "proved",
   "theorems": [
    "C72_get_inputs",
    "C72_prover",
    "C72_bound",
    "C72_public_bool_refuted"
   ],
   "note": "The last sentence of the property is false: C72_public_bool_refuted. The rest is C72_get_inputs, C72_prover and C72_bound."
  },
  {
   "property": "C73",
   "status": "proved",
   "theorems": [
    "C73_base64_encode",
    "C73_base64_decode",
    "C73_vec_write",
    "C73_vec_read"
   ],
   "note": "base64 0.12 with its standard configuration is modelled from its documentation."
  },
  {
   "property": "C74",
   "status": "proved",
   "theorems": [
    "C74_roundtrip",
    "C74_exact",
    "C74_layout"
   ],
   "note": "At the level of JSON values; the text of JSON is serde_json's."
  },
  {
   "property": "C75",
   "status": "proved",
   "theorems": [
    "C75_end_to_end",
    "C75_verify",
    "C75_waves",
    "C75_waves_tail",
    "C75_near",
    "C75_near_tail",
    "C75_ethereum",
    "C75_generate_verifier",
    "C75_library"
   ],
   "note": "C75_end_to_end assumes, as explicit hypotheses: completeness of bellman's Groth16 (bellman_complete), that its parameters and the user's object file read back, that the key generator and the prover saw the same system and that the witness satisfies it; C75_library proves the former for every list of library calls that makes no public input of its own. C75_waves, C75_near and C75_ethereum prove the hypothesis on formats: for keys and proofs without points at infinity. The cases use a small pairing library for which the hypotheses are proved."
  },
  {
   "property": "C76",
   "status": "proved",
   "theorems": [
    "C76_counters",
    "C76_names"
   ],
   "note": ""
  },
  {
   "property": "C77",
   "status": "proved",
   "theorems": [
    "C77_bls_subgroup",
    "C77_order",
    "C77_group_law",
    "C77_curves"
   ],
   "note": ""
  },
  {
   "property": "C78",
   "status": "proved",
   "theorems": [
    "C78_contract",
    "C78_proofs",
    "C78_subgroup_refuted"
   ],
   "note": "C78_contract characterises every call of the contract; C78_proofs restates it for proofs held by the library; C78_subgroup_refuted exhibits that without the subgroup condition the two differ (the library accepts, the contract reverts). The pairing check is a parameter tied to the library's engine by bn_ok."
  },
  {
   "property": "C79",
   "status": "proved",
   "theorems": [
    "C79_into_montgomery",
    "C79_into_edwards",
    "C79_add",
    "C79_double",
    "C79_add_equal_refuted",
    "C79_order_two_refuted"
   ],
   "note": "C79_add_equal_refuted and C79_order_two_refuted show that the side conditions are needed: the scalar multiplication gadgets keep to them (C38-C42), other callers must."
  },
  {
   "property": "C80",
   "status": "proved",
   "theorems": [
    "C80_sound",
    "C80_complete",
    "C80_library"
   ],
   "note": "means and ready (CircuitClaims.v) state per call what holds of its results and when an honest prover can make it; constant arguments that the library treats specially (C08, C37, C40, C41) are excluded there by conditions on the registers."
  },
  {
   "property": "C81",
   "status": "proved",
   "theorems": [
    "C81_sound",
    "C81_complete",
    "C81_session",
    "C81_verified",
    "C81_preimage",
    "C81_member",
    "C81_signed"
   ],
   "note": "The calls draw no further witnesses and publish nothing themselves (the public value is what is published), as in C75. That a proof is accepted only if an assignment can be extracted is the knowledge assumption on the pairing-based scheme; it is not proved, C81_verified takes the assignment as given. C81_preimage, C81_member and C81_signed are equivalences."
  },
  {
   "property": "C82",
   "status": "proved",
   "theorems": [
    "C82_preimage",
    "C82_second",
    "C82_root",
    "C82_library"
   ],
   "note": "A finding about the code: nothing keeps callers from using all t elements. Callers with fewer inputs than t (Merkle with t = 3, EdDSA with t = 4) are not affected."
  },
  {
   "property": "C83",
   "status": "proved",
   "theorems": [
    "C83_library"
   ],
   "note": "Stated as the branch number (weight of a state plus weight of its image), which is equivalent to all minors being non-zero; decided by elimination on the drawn integers."
  },
  {
   "property": "C84",
   "status": "proved",
   "theorems": [
    "C84_open",
    "C84_open_tree",
    "C84_shown",
    "C84_shown_tree",
    "C84_line",
    "C84_any_leaf",
    "C84_any_tree",
    "C84_asserted",
    "C84_library"
   ],
   "note": "Generalises C25_merkle_forge to every depth. C84_any_tree excludes the midpoint of a leaf and its neighbour; a prover may choose the leaf. C84_asserted is about a caller that asserts the path signals, which the library does not do itself. C84_open and C84_shown say the same of whole circuit objects: they describe exactly the pairs of public root and public leaf for which the system made for the keys can be satisfied, without and with the assertions. C84_shown_tree allows for a collision of the hash and, like C66, for the zeros that fill up the last level."
  },
  {
   "property": "C85",
   "status": "proved",
   "theorems": [
    "C85_names",
    "C85_frame",
    "C85_runs",
    "C85_session",
    "C85_defaults",
    "C85_same_file",
    "C85_verifier",
    "C85_verify"
   ],
   "note": "clap's splitting of the argument vector is not modelled: an option is a name or absent. C85_session and C85_defaults have the assumptions of C75_end_to_end on bellman, serde_json and the format. C85_names states the default names literally."
  },
  {
   "property": "C86",
   "status": "proved",
   "theorems": [
    "C86_switch",
    "C86_switch_any",
    "C86_from_bits",
    "C86_mux3",
    "C86_mul_variable_refuted",
    "C86_mul_constant_refuted",
    "C86_mul_asserted"
   ],
   "note": "Complements C11, C19, C20, C41 and C42, whose statements assume Boolean values, and shows that the assumption is needed. The two refutations about scalar multiplication are over the toy curve of 73 elements (Toy.v). C86_mul_asserted is about a caller that asserts the signals, as c_into_bits_le does for the ones it makes."
  }
 ]
}