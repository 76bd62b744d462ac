{
 "C02": {
  "note": "For every list of library calls (module Ops) and every back end; covers the registers and every operand of every emitted constraint."
 },
 "C05": {
  "note": "The proving half holds for every list of library calls. The setup half holds when the gadgets that allocate a hint (subgroup check, decompression, from_scalar, EdDSA) are not given constants; C05_setup_runs shows the guard changes nothing else. Without it the setup half is false of the code: C05_setup_hint_refuted."
 },
 "C08": {
  "note": "The property is false of the code: dividing a constant CNum by a CNum returns divisor / dividend. C08_div_const_refuted is the witness, C08_div_const_actual states what the code computes."
 },
 "C12": {
  "note": "For every list of library calls, every back end (a function naming variables from the calls seen) and every two witnesses."
 },
 "C13": {
  "note": "Precondition: bit lengths asked for fit the field. Without it the code panics in setup where proving works: C13_limit_refuted."
 },
 "C14": {
  "note": "The property is false of the code: CBool::alloc adds no constraint. C14_bool_alloc_refuted is the witness; C14_bool_assert shows the explicit assertion does make it boolean."
 },
 "C18": {
  "note": "The property is false of the code for constants with bits above the compared width. C18_comp_constant_large_refuted is the witness, C18_comp_constant_actual states exactly what is compared."
 },
 "C25": {
  "note": "The property is false of the code: the path bits are never constrained. C25_merkle_binds_leaf_refuted is the witness; C25_merkle_forge shows that for any leaf every pair (a, b) with a + b <> 2 leaf can be hashed at the next level."
 },
 "C38": {
  "note": "assert_in_subgroup costs 20 constraints in the code; the README says 19, which is the cost of subgroup_decompress."
 },
 "C41": {
  "note": "Proved for bit vectors of length at least 2 whose first window is free (linearly independent first bits). For one-bit scalars the property is false of the code: C41_one_bit_refuted."
 },
 "C42": {
  "note": "The property is false of the code: C42_const_bits_refuted is the witness, C42_empty_panics shows the panic, C42_zero_base the case that does work."
 },
 "C45": {
  "note": "The property is false of the code: C45_canonical_s_refuted is the witness, C45_malleable states that s and s+l get the same verdict."
 },
 "C46": {
  "note": "i32::MIN and i64::MIN are covered by C46_minimum: panic with overflow checks; without them i32::MIN gives a wrong value. For fields whose byte size differs from the limb size the BigUint/BigInt conversions always panic (C46_big)."
 },
 "C51": {
  "note": "Finite valid points come back as the same record, infinity comes back as infinity. As a record infinity differs, since the pairing crate's zero() is (0, 1, true): C51_infinity_record_refuted."
 },
 "C52": {
  "note": "The property is false of the code: C52_bn_subgroup_refuted exhibits data that is accepted and whose point P has r P <> 0. The multiplication is checked step by step from a certificate (tools/geng2.py)."
 },
 "C53": {
  "note": "For every engine whose Miller loop and final exponentiation compute a product of a map additive in its first argument; the pairing library itself is a parameter. C53_panic: unwrap of a missing final exponentiation."
 },
 "C55": {
  "note": "For every point encoding of fixed size that decodes what it encodes (the pairing crate's into_compressed / into_affine are parameters)."
 },
 "C56": {
  "note": "Circuits are sequences of the modelled operations with a constant-free start; composite signals reduce to them by C56_linearize, which shows that inputize on any composite type acts as inputizing its linearized numbers in order."
 },
 "C57": {
  "note": "All operations are component-wise, with two exceptions that are proved: get_value and as_const of a SizedVec panic instead of returning None when a component is missing (C57_get_value_refuted, C57_get_vec_panics), and is_eq on an empty vector panics (C57_is_eq_empty_panics)."
 },
 "C58": {
  "note": "The second sentence is false of the code: C58_deserialize_refuted. C58_collect_option: collecting Options panics if one is missing."
 },
 "C59": {
  "note": "With overflow checks the block counter panics after 2^64 blocks, without them it wraps (C59_overflow)."
 },
 "C60": {
  "note": "Field elements are drawn by rejection, so the draws are modelled with fuel: the statements are about runs in which the draws end; C60_library_parameters shows that they do for the parameters the library ships for BN256."
 },
 "C61": {
  "note": "Counts for constant-base multiplication and the signature are exact when every window table is regular (an explicit hypothesis on the base point; without it the count is at most that). C61_generators and C61_library discharge it for the generators of both curves. The verifier for BN256 costs 3866, the README says 3860; assert_in_subgroup costs 20, the README says 19."
 },
 "C62": {
  "note": "bellman's assemblies are modelled from their documented behaviour (they are not in /repo); the transmutes are assumed to identify bellman's and this crate's variables and linear combinations. TestCS checks a constraint only if all three values are known."
 },
 "C63": {
  "note": "All parts are proved, including that 7 generates Fs* of BLS12-381 and the exact number of points 8 l. The last part is false for BN256: C63_bn_generator_refuted shows 7 does not generate Fs* there (it is a square)."
 },
 "C64": {
  "note": "With overflow checks an empty ic panics; without them the text is produced with input count 2^64 - 1 (C64_empty)."
 },
 "C66": {
  "note": "Collision resistance is not assumed: the theorems conclude with an explicit collision. C66_length_refuted: the root does not bind the number of leaves."
 },
 "C67": {
  "note": "A finding rather than a guarantee for the key 0: C67_zero_key and C67_zero_key_circuit. C67_zero_key_object says it of a whole circuit object with public key and message."
 },
 "C70": {
  "note": "Random draws are modelled from the ff and rand crates' documented behaviour; the system's bytes are an arbitrary function. C70_uniform states the counting fact, not a probability."
 },
 "C71": {
  "note": "The property is false of the code: C71_const_refuted, C71_from_scalar_refuted. C71_add_actual and C71_double_actual say what happens: each coordinate comes out inverted, and a zero coordinate panics. Consequence of C08_div_const_refuted."
 },
 "C72": {
  "note": "The last sentence of the property is false: C72_public_bool_refuted. The rest is C72_get_inputs, C72_prover and C72_bound."
 },
 "C73": {
  "note": "base64 0.12 with its standard configuration is modelled from its documentation."
 },
 "C74": {
  "note": "At the level of JSON values; the text of JSON is serde_json's."
 },
 "C75": {
  "note": "C75_end_to_end assumes, as explicit hypotheses: completeness of bellman's Groth16 (bellman_complete), that its parameters and the user's object file read back, that the key generator and the prover saw the same system and that the witness satisfies it; C75_library proves the former for every list of library calls that makes no public input of its own. C75_waves, C75_near and C75_ethereum prove the hypothesis on formats: for keys and proofs without points at infinity. The cases use a small pairing library for which the hypotheses are proved."
 },
 "C78": {
  "note": "C78_contract characterises every call of the contract; C78_proofs restates it for proofs held by the library; C78_subgroup_refuted exhibits that without the subgroup condition the two differ (the library accepts, the contract reverts). The pairing check is a parameter tied to the library's engine by bn_ok."
 },
 "C79": {
  "note": "C79_add_equal_refuted and C79_order_two_refuted show that the side conditions are needed: the scalar multiplication gadgets keep to them (C38-C42), other callers must."
 },
 "C80": {
  "note": "means and ready (CircuitClaims.v) state per call what holds of its results and when an honest prover can make it; constant arguments that the library treats specially (C08, C37, C40, C41) are excluded there by conditions on the registers."
 },
 "C81": {
  "note": "The calls draw no further witnesses and publish nothing themselves (the public value is what is published), as in C75. That a proof is accepted only if an assignment can be extracted is the knowledge assumption on the pairing-based scheme; it is not proved, C81_verified takes the assignment as given. C81_preimage, C81_member and C81_signed are equivalences."
 },
 "C82": {
  "note": "A finding about the code: nothing keeps callers from using all t elements. Callers with fewer inputs than t (Merkle with t = 3, EdDSA with t = 4) are not affected."
 },
 "C83": {
  "note": "Stated as the branch number (weight of a state plus weight of its image), which is equivalent to all minors being non-zero; decided by elimination on the drawn integers."
 },
 "C84": {
  "note": "Generalises C25_merkle_forge to every depth. C84_any_tree excludes the midpoint of a leaf and its neighbour; a prover may choose the leaf. C84_asserted is about a caller that asserts the path signals, which the library does not do itself. C84_open and C84_shown say the same of whole circuit objects: they describe exactly the pairs of public root and public leaf for which the system made for the keys can be satisfied, without and with the assertions. C84_shown_tree allows for a collision of the hash and, like C66, for the zeros that fill up the last level."
 },
 "C68": {
  "note": "C68_signed_object is the consequence for a whole circuit object with public key and message."
 },
 "C85": {
  "note": "clap's splitting of the argument vector is not modelled: an option is a name or absent. C85_session and C85_defaults have the assumptions of C75_end_to_end on bellman, serde_json and the format. C85_names states the default names literally."
 },
 "C86": {
  "note": "Complements C11, C19, C20, C41 and C42, whose statements assume Boolean values, and shows that the assumption is needed. The two refutations about scalar multiplication are over the toy curve of 73 elements (Toy.v). C86_mul_asserted is about a caller that asserts the signals, as c_into_bits_le does for the ones it makes."
 }
}
