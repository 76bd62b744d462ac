{"id": "C01", "title": "Linear operators on CNum evaluate correctly", "statement": "For CNums a,b and field constants c, the linear combination of a+b, a-b, -a, a+c, a-c, c-a, a*c (and a/c for c≠0) evaluates, under every assignment of the variables with the constant-one variable set to 1, to the corresponding field expression of the evaluations of a and b; the cached value, when present on the operands, is that expression of the cached values. No constraint or variable is added.", "quantifier": "all linear combinations (any length, any variable order pattern), all constants, all variable assignments, all primes", "why_tests_cant": "tests check one random assignment of two-term combinations; the cursor merge has to be right for every interleaving of keys", "anchors": ["src/circuit/num.rs: AddAssign, SubAssign, Neg, MulAssign<Num>, DivAssign<Num>, ll_lookup", "src/macros.rs: forward_* operator wrappers"]}
{"id": "C02", "title": "CNum linear combinations stay canonical", "statement": "Every CNum obtained by any history of library operations has its terms in strictly increasing variable order, without duplicate variables, and with no zero coefficient except possibly on the constant-one variable.", "quantifier": "all sequences of allocation, constant creation and operators", "why_tests_cant": "an invariant over unbounded operation histories", "anchors": ["src/circuit/num.rs: add_assign, sub_assign, mul_assign, div_assign, from_const, alloc"]}
{"id": "C03", "title": "as_const is exact", "statement": "as_const returns Some v exactly when the number evaluates to v under every variable assignment, and None exactly when it depends on some variable.", "quantifier": "all CNums reachable by library operations, all assignments", "why_tests_cant": "quantifies over all assignments and histories; a false None or Some silently changes which constraints are emitted", "anchors": ["src/circuit/num.rs: as_const"]}
{"id": "C04", "title": "Operand order and by-value/by-reference forms of + and * are unobservable", "statement": "The operator macros swap operands by term count; nevertheless a+b and b+a (all four value/reference forms) return the same linear combination and the same cached value.", "quantifier": "all CNums reachable by library operations", "why_tests_cant": "the swap depends on lengths; tests exercise one length pattern", "anchors": ["src/macros.rs: forward_all_binop_to_val_ref_commutative_ex, swap_commutative", "src/circuit/num.rs: Add"]}
{"id": "C05", "title": "Cached values agree with the assignment the prover supplies", "statement": "In a proving run, after any straight-line sequence of library operations on CNums, every CNum's cached value is its linear combination evaluated at the witness values handed to the constraint system; in a setup run (no witness) every non-constant CNum has no cached value.", "quantifier": "all programs built from the library operations, all witnesses", "why_tests_cant": "an invariant over unbounded histories", "anchors": ["src/circuit/num.rs: CNum.value", "src/core/cs.rs: ConstraintSystem"]}
{"id": "C06", "title": "Multiplication gadget is sound, complete and counts one constraint", "statement": "If the emitted constraints are satisfied, the result of a*b evaluates to the product; with witness values the emitted constraint is satisfied by the values supplied; exactly one variable and one constraint are added when both operands are non-constant and none otherwise.", "quantifier": "all operands, all satisfying assignments, all witnesses", "why_tests_cant": "soundness quantifies over adversarial assignments that no honest test produces", "anchors": ["src/circuit/num.rs: MulAssign<&CNum>, square"]}
{"id": "C07", "title": "Division by a CNum with non-constant numerator is sound and complete", "statement": "For a non-constant numerator a: in any satisfying assignment result*b = a, hence result = a/b whenever b≠0; with witness values and b≠0 the run does not panic and the constraint is satisfied.", "quantifier": "all non-constant numerators, all denominators, all satisfying assignments", "why_tests_cant": "adversarial assignments; b = 0 corner", "anchors": ["src/circuit/num.rs: DivAssign<&CNum>"]}
{"id": "C08", "title": "Division with a constant numerator computes a/b", "statement": "For constant a and any b, a/b evaluates to the quotient a/b. (False of the code: the branch returns b/a.)", "quantifier": "all constant numerators, all denominators", "why_tests_cant": "no test divides a constant signal; the wrong branch is type-correct and silent", "anchors": ["src/circuit/num.rs: DivAssign<&CNum> lines 498-501"]}
{"id": "C09", "title": "is_zero and is_eq decide equality", "statement": "In every satisfying assignment is_zero(a) is 1 if a evaluates to 0 and 0 otherwise, and is_eq(a,b) is 1 iff a and b evaluate to the same field element; with witness values the constraints are satisfied for every input.", "quantifier": "all inputs, all satisfying assignments (including adversarial inverse witnesses)", "why_tests_cant": "adversarial choice of the auxiliary inverse cannot be sampled", "anchors": ["src/circuit/num.rs: is_zero, is_eq, assert_nonzero"]}
{"id": "C10", "title": "Assertion gadgets hold exactly when their claim holds", "statement": "assert_zero, assert_const, assert_eq, assert_nonzero, assert_bit are satisfiable iff respectively a=0, a=c, a=b, a≠0, a∈{0,1}; with witness values that violate the claim the test constraint system rejects, and with values that satisfy it no panic occurs.", "quantifier": "all inputs, constant and non-constant, all satisfying assignments", "why_tests_cant": "both directions over the whole field", "anchors": ["src/circuit/num.rs: assert_const, assert_zero, assert_eq, assert_nonzero, assert_bit"]}
{"id": "C11", "title": "switch / if_else selects", "statement": "For a selector that evaluates to 1 (resp. 0) the result of switch evaluates to the first (resp. second) branch, whichever internal formula the term counts select; a constant selector emits no constraint.", "quantifier": "all branches, all selectors in {0,1}, all satisfying assignments", "why_tests_cant": "two formulas chosen by term counts; all combinations", "anchors": ["src/circuit/num.rs: switch", "src/circuit/bool.rs: if_else, switch"]}
{"id": "C12", "title": "Setup and prove emit the same constraint system", "statement": "For every gadget in the library, running it without witness values and with arbitrary witness values, if neither run panics, performs the same sequence of allocations and emits identical linear combinations, so keys generated for the circuit fit the proof.", "quantifier": "all gadgets, all witnesses, all constraint-system back ends", "why_tests_cant": "depends on all pairs of runs; tests never compare the two structures", "anchors": ["src/circuit/num.rs", "src/circuit/*.rs", "src/helpers/groth16/prover.rs: generate_keys, prove"]}
{"id": "C13", "title": "Setup never panics where proving succeeds", "statement": "A circuit built from the gadgets within their documented preconditions does not panic when synthesized without witness values.", "quantifier": "all circuits composed of the gadgets, all parameters within preconditions", "why_tests_cant": "over all circuits", "anchors": ["src/circuit/num.rs", "src/circuit/bitify.rs", "src/circuit/ecc.rs"]}
{"id": "C14", "title": "Allocated CBool is boolean", "statement": "A freshly allocated CBool is constrained to be 0 or 1. (False of the code: CBool::alloc emits no constraint.)", "quantifier": "all satisfying assignments", "why_tests_cant": "an honest test always supplies a bool", "anchors": ["src/circuit/bool.rs: alloc"]}
{"id": "C15", "title": "Little-endian bit decomposition is sound and complete", "statement": "In every satisfying assignment the bits returned by c_into_bits_le(x,n) are in {0,1} and Σ bit_i·2^i = x in the field; when 2^n ≤ p the bits are the unique binary expansion of x and satisfiability is equivalent to x < 2^n. With a witness x < 2^n no panic occurs and constraints are satisfied. Exactly n constraints and n-1 variables are added for non-constant x and n≥1.", "quantifier": "all x, all n, all satisfying assignments", "why_tests_cant": "uniqueness over adversarial bit assignments", "anchors": ["src/circuit/bitify.rs: c_into_bits_le"]}
{"id": "C16", "title": "Strict bit decomposition is canonical", "statement": "In every satisfying assignment c_into_bits_le_strict(x) returns exactly the binary expansion of the canonical representative of x in [0,p); it is satisfiable for every x.", "quantifier": "all x, all satisfying assignments, all odd primes", "why_tests_cant": "the aliasing assignment x+p must be excluded for every x", "anchors": ["src/circuit/bitify.rs: c_into_bits_le_strict"]}
{"id": "C17", "title": "Comparison with a constant", "statement": "For boolean bits encoding s and a constant ct < 2^(2·ceil(n/2)), c_comp_constant returns 1 iff s > ct, in every satisfying assignment.", "quantifier": "all bit vectors of any length (within the field capacity), all such constants", "why_tests_cant": "2-bit windowed trick must be right for every length parity and constant", "anchors": ["src/circuit/bitify.rs: c_comp_constant"]}
{"id": "C18", "title": "Comparison with a constant larger than the bit vector", "statement": "c_comp_constant(bits, ct) returns 1 iff the number encoded by bits is greater than ct for every ct. (False of the code when ct needs more bits than the vector supplies: the high bits of ct are ignored.)", "quantifier": "all constants", "why_tests_cant": "only full-width use is exercised in tests", "anchors": ["src/circuit/bitify.rs: c_comp_constant"]}
{"id": "C19", "title": "Bits recompose", "statement": "c_from_bits_le evaluates to Σ bit_i·2^i and therefore inverts both decompositions; an empty slice panics.", "quantifier": "all bit vectors", "why_tests_cant": "all lengths", "anchors": ["src/circuit/bitify.rs: c_from_bits_le"]}
{"id": "C20", "title": "3-bit multiplexer selects the table entry", "statement": "For boolean selectors s0,s1,s2, c_mux3 evaluates for each table column to entry s0+2·s1+4·s2; wrong table or selector sizes panic.", "quantifier": "all tables of any number of columns, all selector values, all satisfying assignments", "why_tests_cant": "all tables", "anchors": ["src/circuit/mux.rs: c_mux3"]}
{"id": "C21", "title": "Circuit Poseidon equals native Poseidon", "statement": "For all round parameters with matching dimensions and all inputs of length 1..t, the circuit hash evaluates in every satisfying assignment to the native hash of the input evaluations, and with a witness it never panics; length 0 or > t panics in both.", "quantifier": "all parameters (t,f,p,constants,matrix), all inputs, all satisfying assignments", "why_tests_cant": "tests compare one random input for one parameter set", "anchors": ["src/circuit/poseidon.rs: c_poseidon", "src/native/poseidon.rs: poseidon"]}
{"id": "C22", "title": "Salted Poseidon agrees", "statement": "The salted circuit hash evaluates to the salted native hash for all inputs of length 1..t-1, and panics otherwise, in both.", "quantifier": "all inputs, salts, parameters", "why_tests_cant": "all inputs", "anchors": ["src/circuit/poseidon.rs: c_poseidon_with_salt", "src/native/poseidon.rs: poseidon_with_salt"]}
{"id": "C23", "title": "Poseidon with shorter input collides with zero-padded input", "statement": "The hash of an input list equals the hash of the same list extended by zeros up to length t; so the hash is not injective across lengths (no domain separation).", "quantifier": "all inputs and parameters", "why_tests_cant": "a universally quantified identity", "anchors": ["src/native/poseidon.rs: poseidon"]}
{"id": "C24", "title": "Circuit Merkle root equals native when the path bits are boolean", "statement": "For every proof length, if path signals evaluate to 0/1 then the circuit Merkle root evaluates in every satisfying assignment to the native root of the evaluated leaf and proof.", "quantifier": "all proof lengths, leaves, siblings, paths, satisfying assignments", "why_tests_cant": "all lengths and adversarial assignments", "anchors": ["src/circuit/poseidon.rs: c_poseidon_merkle_proof_root", "src/native/poseidon.rs: poseidon_merkle_proof_root"]}
{"id": "C25", "title": "Merkle proof gadget binds the leaf", "statement": "A satisfying assignment of the Merkle-proof gadget with an allocated proof exhibits a boolean path. (False of the code: path bits are unconstrained, so for any leaf, any pair (a,b) can be presented to the hash.)", "quantifier": "all leaves and roots", "why_tests_cant": "adversarial assignment", "anchors": ["src/circuit/poseidon.rs: c_poseidon_merkle_proof_root", "src/circuit/bool.rs: alloc"]}
{"id": "C26", "title": "Merkle tree root agrees with proofs and with the circuit", "statement": "The native tree root of n leaves equals the proof root of each leaf with its siblings in the zero-padded tree and path = bits of the leaf index; the circuit tree root evaluates to the native one.", "quantifier": "all leaf counts and leaves, all indices", "why_tests_cant": "all sizes", "anchors": ["src/native/poseidon.rs: poseidon_merkle_tree_root, poseidon_merkle_proof_root", "src/circuit/poseidon.rs: c_poseidon_merkle_tree_root"]}
{"id": "C27", "title": "Extended-coordinate arithmetic implements the affine curve law", "statement": "For points on the curve, add/double/negate/mul_by_cofactor on extended coordinates keep the representation invariant (Z≠0, ZT=XY, on curve) and convert to the affine twisted Edwards sum; conversion to affine never panics; extended equality is affine equality.", "quantifier": "all curve points in all extended representations, every d non-square with -1 square", "why_tests_cant": "exceptional cases (zero denominators) are measure-zero and never hit by random tests", "anchors": ["src/native/ecc.rs: EdwardsPointEx::{add,double,negate,into_affine,is_zero,eq,mul_by_cofactor}"]}
{"id": "C28", "title": "Curve points form a commutative group", "statement": "Point addition on curve points is closed, associative, commutative, with zero() as identity and negate as inverse.", "quantifier": "all points on the curve", "why_tests_cant": "an algebraic law over all triples of points", "anchors": ["src/native/ecc.rs: add, negate, zero"]}
{"id": "C29", "title": "Scalar multiplication is n-fold addition", "statement": "mul by a scalar returns n·P for the canonical representative n of the scalar (double-and-add over any limb count), hence is a homomorphism in the scalar; for points of the prime-order subgroup it depends only on the scalar mod the group order.", "quantifier": "all scalars, all points", "why_tests_cant": "all scalars", "anchors": ["src/native/ecc.rs: mul, mul_raw"]}
{"id": "C30", "title": "Edwards/Montgomery conversion is a bijection", "statement": "into_montgomery is None only for the zero point; otherwise it yields a point of the Montgomery curve and converting back gives the original point; no panic on curve points.", "quantifier": "all curve points", "why_tests_cant": "exceptional points (x=0, y=1, Montgomery x=-1)", "anchors": ["src/native/ecc.rs: into_montgomery, MontgomeryPoint::into_affine"]}
{"id": "C31", "title": "Point from y coordinate and sign", "statement": "get_for_y returns Some iff some curve point has that y, the point returned is on the curve, has that y, and its x parity equals the sign unless x=0; it never panics.", "quantifier": "all y, both signs, any square-root function", "why_tests_cant": "all field elements", "anchors": ["src/native/ecc.rs: get_for_y"]}
{"id": "C32", "title": "Subgroup decompression is exact", "statement": "subgroup_decompress(x) returns Some P iff there is a point of the prime-order subgroup with that x coordinate, and then P is that point and it is unique; never panics.", "quantifier": "all x, both supported curves", "why_tests_cant": "tests try random subgroup points only", "anchors": ["src/native/ecc.rs: subgroup_decompress"]}
{"id": "C33", "title": "Cofactor clearing lands in the prime-order subgroup", "statement": "For both supported curves and every curve point P, mul_by_cofactor(P) is killed by the subgroup order, i.e. is_in_subgroup is true; the subgroup order is prime.", "quantifier": "all points of both curves", "why_tests_cant": "a statement about about 2^254 points", "anchors": ["src/native/ecc.rs: mul_by_cofactor, is_in_subgroup", "src/native/bn256.rs", "src/native/bls12_381.rs"]}
{"id": "C34", "title": "from_scalar is total and lands in the subgroup", "statement": "For every t ≠ -1 from_scalar does not panic and returns a point of the prime-order subgroup; for t = -1 it panics.", "quantifier": "all field elements t, both curves", "why_tests_cant": "existence of a square root in one of two branches for every t", "anchors": ["src/native/ecc.rs: from_scalar, from_scalar_raw"]}
{"id": "C35", "title": "Signatures verify", "statement": "For every secret key, message and parameters with t≥4, the signature returned by eddsaposeidon_sign is accepted by eddsaposeidon_verify under the public key x-coordinate of sk·G, and no step panics.", "quantifier": "all keys, messages, hash behaviours", "why_tests_cant": "all keys including zero key and zero nonce", "anchors": ["src/native/eddsaposeidon.rs: eddsaposeidon_sign, eddsaposeidon_verify"]}
{"id": "C36", "title": "Native verification is the EdDSA equation", "statement": "eddsaposeidon_verify returns true iff a and r are x coordinates of subgroup points A and R and s·G = h·A + R with h the canonical hash value; never panics.", "quantifier": "all s, r, a, m", "why_tests_cant": "all inputs, including invalid points", "anchors": ["src/native/eddsaposeidon.rs: eddsaposeidon_verify"]}
{"id": "C37", "title": "Circuit Edwards add/double/cofactor equal the curve law", "statement": "For curve points with the numerators and denominators non-constant, the circuit add/double/mul_by_cofactor outputs evaluate in every satisfying assignment to the native sum, and with a witness they never panic.", "quantifier": "all curve points, all satisfying assignments", "why_tests_cant": "adversarial assignments, exceptional denominators", "anchors": ["src/circuit/ecc.rs: CEdwardsPoint::{add,double,mul_by_cofactor}"]}
{"id": "C38", "title": "Circuit membership assertions are exact", "statement": "assert_in_curve is satisfied iff the coordinates satisfy the curve equation; assert_in_subgroup is satisfiable iff the point is in the prime-order subgroup.", "quantifier": "all coordinate pairs, all satisfying assignments", "why_tests_cant": "adversarial preimages", "anchors": ["src/circuit/ecc.rs: assert_in_curve, assert_in_subgroup"]}
{"id": "C39", "title": "Circuit decompression is exact", "statement": "The circuit subgroup_decompress(x) is satisfiable iff x is the x coordinate of a subgroup point, and then its output evaluates to that unique point.", "quantifier": "all x, all satisfying assignments", "why_tests_cant": "adversarial preimages", "anchors": ["src/circuit/ecc.rs: CEdwardsPoint::subgroup_decompress"]}
{"id": "C40", "title": "Circuit scalar multiplication, variable base", "statement": "For a non-constant subgroup point and non-empty boolean bits (not all constant), the output of mul evaluates in every satisfying assignment to n·P with n the encoded number, and with a witness it never panics.", "quantifier": "all subgroup points including zero, all bit vectors (any length), all satisfying assignments", "why_tests_cant": "incomplete Montgomery formulas: exceptional cases must be shown unreachable for every scalar", "anchors": ["src/circuit/ecc.rs: CEdwardsPoint::mul"]}
{"id": "C41", "title": "Circuit scalar multiplication, constant base", "statement": "For a constant subgroup point and non-constant boolean bits the windowed multiplication evaluates in every satisfying assignment to n·P.", "quantifier": "all subgroup points, bit vectors and satisfying assignments", "why_tests_cant": "incomplete formulas and window tables", "anchors": ["src/circuit/ecc.rs: CEdwardsPoint::mul, gen_table"]}
{"id": "C42", "title": "Circuit scalar multiplication with constant bits", "statement": "mul with constant base and constant bits computes n·P. (False of the code, through constant division; and an empty bit slice panics.)", "quantifier": "all constant scalars", "why_tests_cant": "tests always allocate the scalar", "anchors": ["src/circuit/ecc.rs: CEdwardsPoint::mul", "src/circuit/num.rs: DivAssign<&CNum>"]}
{"id": "C43", "title": "Circuit from_scalar equals native", "statement": "For non-constant t ≠ -1 the circuit from_scalar evaluates in every satisfying assignment to the native from_scalar of t, and with a witness it is satisfiable.", "quantifier": "all t, all satisfying assignments", "why_tests_cant": "adversarial choice of square roots", "anchors": ["src/circuit/ecc.rs: CEdwardsPoint::from_scalar", "src/native/ecc.rs: from_scalar"]}
{"id": "C44", "title": "Circuit signature verification equals native verification", "statement": "For a and r that decompress, the circuit verifier's output evaluates in every satisfying assignment to 1 iff native verification of (s mod l, r, a, m) returns true; the circuit is unsatisfiable if a or r does not decompress.", "quantifier": "all s,r,a,m non-constant, all satisfying assignments", "why_tests_cant": "adversarial assignments", "anchors": ["src/circuit/eddsaposeidon.rs: c_eddsaposeidon_verify", "src/native/eddsaposeidon.rs"]}
{"id": "C45", "title": "Circuit verification accepts only canonical s", "statement": "The circuit verifier accepts a signature scalar only if it is the canonical representative mod the subgroup order. (False of the code: s and s+l are both accepted when s+l fits the bit length.)", "quantifier": "all s", "why_tests_cant": "malleability is invisible to round-trip tests", "anchors": ["src/circuit/eddsaposeidon.rs: c_into_bits_le(&s, J::Fs::NUM_BITS)"]}
{"id": "C46", "title": "Integer conversions", "statement": "Num from u32/u64/i64/i32/bool/BigUint/BigInt is the integer modulo p, for every value except i32::MIN / i64::MIN (absolute-value overflow) and integers ≥ p for single-limb fields (panic); Into<u64> inverts From<u64> and panics on larger numbers.", "quantifier": "all machine integers and big integers, all fields", "why_tests_cant": "boundary values", "anchors": ["src/native/num.rs: From impls, Into<u64>, Into<BigUint>"]}
{"id": "C47", "title": "Borsh encoding of Num round-trips and is canonical", "statement": "Deserializing the serialization of x followed by any bytes gives x and leaves those bytes; deserialization accepts exactly encodings of integers below p, so each field element has exactly one encoding; shorter buffers are errors, never panics.", "quantifier": "all field elements, all byte strings", "why_tests_cant": "all byte strings", "anchors": ["src/native/num.rs: BorshSerialize, BorshDeserialize"]}
{"id": "C48", "title": "Decimal (serde) encoding of Num", "statement": "Deserialize(Serialize x) = x; deserialization accepts exactly strings that parse to an integer below p and never reduces silently; non-canonical spellings of the same integer are accepted (not injective).", "quantifier": "all field elements and strings", "why_tests_cant": "all strings", "anchors": ["src/native/num.rs: Serialize, Deserialize, to_string"]}
{"id": "C49", "title": "Big-endian binary conversions", "statement": "from_binary_be(into_binary_be x) = x for every field whose byte size equals its limb size; from_binary_be of any bytes is the integer mod p; into_other/from_other is the canonical integer mod the other prime; panics for fields where the sizes differ.", "quantifier": "all fields, all elements, all byte strings", "why_tests_cant": "all lengths", "anchors": ["src/native/num.rs: into_binary_be, from_binary_be, into_other, from_other, num_bytes"]}
{"id": "C50", "title": "Bit iterators enumerate the canonical representative", "statement": "iterbit_le yields exactly 64·limbs bits, bit i being bit i of the canonical representative; iterbit_be yields them reversed.", "quantifier": "all elements, all fields", "why_tests_cant": "all positions", "anchors": ["src/native/num.rs: iterbit_le, iterbit_be, BitIteratorLE::next"]}
{"id": "C51", "title": "Point data round-trips and rejects off-curve points", "statement": "Converting G1/G2 points to data and back is the identity for valid points including infinity (BN256 and BLS12-381); converting data never yields a point off the curve (panic instead); the hard-coded B coefficients are the curve coefficients.", "quantifier": "all points, all coordinate data", "why_tests_cant": "all coordinates", "anchors": ["src/helpers/groth16/mod.rs: From/Into G1PointData, G2PointData, is_on_curve, *_B_COEFF*"]}
{"id": "C52", "title": "BN256 G2 data conversion checks the subgroup", "statement": "Data accepted as a BN256 G2 point lies in the prime-order subgroup. (False of the code: only BLS12-381 checks.)", "quantifier": "all coordinate data", "why_tests_cant": "a random on-curve point is needed", "anchors": ["src/helpers/groth16/mod.rs: Into<bn256::G2Affine>"]}
{"id": "C53", "title": "Groth16 verify checks the verification equation", "statement": "verify returns Ok true iff e(A,B) = e(alpha,beta)·e(ic0+Σ x_i·ic_i, gamma)·e(C,delta), and an error iff the number of public inputs + 1 differs from the number of ic points, for every bilinear pairing.", "quantifier": "all keys, proofs, inputs", "why_tests_cant": "all inputs; algebraic identity", "anchors": ["src/helpers/groth16/verifier.rs: verify"]}
{"id": "C54", "title": "Borsh encodings of points, proofs and verifying keys round-trip", "statement": "For G1/G2 data, ProofData and TruncatedVerifyingKeyData, deserialize(serialize v ++ rest) = (v, rest); malformed or short input is an error, never a panic; encoding is injective.", "quantifier": "all values and byte strings", "why_tests_cant": "all lengths of ic", "anchors": ["src/helpers/groth16/near.rs"]}
{"id": "C55", "title": "Compressed verifying key write/read", "statement": "read(write vk) = vk for keys without points at infinity; keys containing infinity are rejected by read; a trailing partial point is silently ignored.", "quantifier": "all keys and byte streams", "why_tests_cant": "all lengths", "anchors": ["src/helpers/groth16/verifier.rs: write, read"]}
{"id": "C56", "title": "Public inputs are the inputized values in order", "statement": "The public-input assignment produced by a proving run is the list of values of the inputized signals in call order, and in any satisfying assignment each public variable equals the signal inputized; linearize lists the same signals in the same order for every composite signal type.", "quantifier": "all circuits, all composite types", "why_tests_cant": "all compositions", "anchors": ["src/circuit/num.rs: inputize", "src/core/signal.rs: inputize, linearize", "fawkes-crypto_derive/src/signal.rs"]}
{"id": "C57", "title": "Composite signals (vectors, tuples, derived structs) act component-wise", "statement": "alloc, from_const, get_value, as_const, switch, assert_const, assert_eq, is_eq on SizedVec, tuples and derived structs are the component-wise operations; is_eq is 1 iff all components are equal in every satisfying assignment.", "quantifier": "all nesting of vectors, tuples and structs", "why_tests_cant": "unbounded nesting", "anchors": ["src/core/signal.rs", "fawkes-crypto_derive/src/signal.rs"]}
{"id": "C58", "title": "SizedVec has its declared length", "statement": "A SizedVec collected from an iterator has exactly L elements (panic otherwise). Deserialized SizedVecs have L elements (False of the code: deserialization does not check).", "quantifier": "all lengths and inputs", "why_tests_cant": "all lengths", "anchors": ["src/core/sizedvec.rs: from_iter, Deserialize"]}
{"id": "C59", "title": "Seedbox output stream is a fixed function of salt and position", "statement": "The k-th u32 drawn from the seedbox is little-endian word k mod 8 of Blake2s(le64(k/8) ‖ salt), independent of how draws are grouped.", "quantifier": "all salts, all positions", "why_tests_cant": "unbounded stream positions", "anchors": ["src/core/seedbox.rs: next_u32"]}
{"id": "C60", "title": "Poseidon parameters have the declared dimensions", "statement": "PoseidonParams::new(t,f,p) yields f+p round constants and a t×t matrix, all canonical field elements, deterministically; hence hashing 1..t inputs never panics on an index.", "quantifier": "all t,f,p", "why_tests_cant": "all sizes", "anchors": ["src/native/poseidon.rs: PoseidonParams::new"]}
{"id": "C61", "title": "Constraint counts", "statement": "The number of constraints emitted by Poseidon, Merkle proof, bit decomposition and scalar multiplication on non-constant inputs is a fixed function of the parameters, matching the figures published in the README.", "quantifier": "all parameters", "why_tests_cant": "all parameter values", "anchors": ["README.md", "src/circuit/*.rs"]}
{"id": "C62", "title": "Groth16 back end transmits the circuit faithfully", "statement": "Running a circuit through the Groth16 back end gives the bellman system the same constraints (as linear combinations over input/aux variables) as the generic execution; a missing value in a proving run panics; the test back end accepts a witness iff the constraints hold for it.", "quantifier": "all circuits and witnesses", "why_tests_cant": "all circuits", "anchors": ["src/helpers/groth16/mod.rs: Groth16CS", "src/core/cs.rs: TestCS"]}
{"id": "C63", "title": "Curve parameter constants are right", "statement": "For both curves: -1 is a square, d and the Elligator constant u are non-squares, the Montgomery coefficients are 2(1-d)/(1+d) and -4/(1+d), the field moduli and subgroup orders are prime, the cofactor is 8, and the declared multiplicative generator of the scalar field generates. (The last is false for BN256 Fs: 7 is a square.)", "quantifier": "the two parameter sets; statements over all field elements", "why_tests_cant": "primality, non-residuosity and group order cannot be sampled", "anchors": ["src/native/bn256.rs", "src/native/bls12_381.rs"]}
{"id": "C64", "title": "Solidity verifier data", "statement": "generate_sol_data substitutes every key coordinate and the input count (ic length − 1) into the template in the documented order and leaves no placeholder; an empty ic panics.", "quantifier": "all keys", "why_tests_cant": "all lengths", "anchors": ["src/helpers/groth16/ethereum.rs: generate_sol_data"]}
{"id": "C65", "title": "Poseidon is the textbook permutation", "statement": "The native poseidon of up to t numbers is the first element of: state = inputs padded with zeros; f/2 full rounds, p partial rounds, f - f/2 full rounds, where a round adds its constant to every element, raises all elements (full) or the first one (partial) to the fifth power, and multiplies by the matrix. This permutation is a bijection of the states whenever the matrix is invertible and 5 does not divide p - 1, and sigma is a bijection of both scalar fields.", "quantifier": "all parameters of matching shape, all inputs, all primes p; sigma on all elements of the two fields", "why_tests_cant": "the loop is compared with an independent definition for all round counts and widths; bijectivity ranges over all states", "anchors": ["src/native/poseidon.rs: ark, sigma, mix, poseidon"]}
{"id": "C66", "title": "Merkle roots bind leaves up to a hash collision", "statement": "Two proofs with the same path and root have the same leaf and siblings, two equally long leaf lists with the same tree root are equal, and a proof for index i of a tree proves the leaf at i, or else two different pairs with the same Poseidon hash are exhibited; the same for the circuit when the path signals are the bits of i. The root does not bind the number of leaves: trailing zeros, and a root taken as a single leaf, give the same root.", "quantifier": "all depths, leaves, siblings, paths, parameters", "why_tests_cant": "a forged proof is not found by sampling", "anchors": ["src/native/poseidon.rs: poseidon_merkle_proof_root, poseidon_merkle_tree_root", "src/circuit/poseidon.rs: c_poseidon_merkle_proof_root"]}
{"id": "C67", "title": "What an EdDSA signature binds", "statement": "If (s, r, a) is accepted for m and a is not 0, it is accepted for m' exactly when the Poseidon hashes of (r, a, m) and (r, a, m') agree modulo the subgroup order. For a = 0 the message is not looked at: (s, r, 0) is accepted for every message exactly when r is the x coordinate of s G, natively and in the circuit, so anyone can sign for the key 0.", "quantifier": "all scalars, points, messages, parameter sets meeting the conditions of the library", "why_tests_cant": "both directions range over all messages", "anchors": ["src/native/eddsaposeidon.rs: eddsaposeidon_verify", "src/circuit/eddsaposeidon.rs: c_eddsaposeidon_verify"]}
{"id": "C68", "title": "Native signatures satisfy the circuit", "statement": "For every secret key and message the output of eddsaposeidon_sign together with the key's x coordinate, given to c_eddsaposeidon_verify as inputs, leads to a run without panic whose values satisfy all constraints and whose output is 1.", "quantifier": "all keys and messages, both curves, all Poseidon parameters of width at least 4 with non-zero first matrix column", "why_tests_cant": "the code base tests one random key", "anchors": ["src/native/eddsaposeidon.rs: eddsaposeidon_sign", "src/circuit/eddsaposeidon.rs: c_eddsaposeidon_verify"]}
{"id": "C69", "title": "What signing computes, and what a repeated nonce reveals", "statement": "eddsaposeidon_sign returns s = rho + h sk and r = x(rho G), with rho the big-endian BLAKE2s hash of sk and m reduced modulo the subgroup order and h the Poseidon hash of (r, x(sk G), m, salt). It is deterministic and never panics. Two signatures accepted for the same key and the same r with hashes that differ modulo the order give the secret key as (s - s') / (h - h'). Secret keys correspond one to one to the points of the subgroup, by the x coordinate.", "quantifier": "all secret keys, messages, signatures, curves and parameter sets meeting the conditions of the library", "why_tests_cant": "key extraction and injectivity range over all pairs", "anchors": ["src/native/eddsaposeidon.rs: hash_r, eddsaposeidon_sign, eddsaposeidon_verify"]}
{"id": "C70", "title": "Field arithmetic and random field elements", "statement": "The operators of Num compute the residue of the integer operation; inverse and division panic exactly on zero and otherwise give the unique solution; is_odd is the parity of the canonical representative. OsRng reads four big-endian bytes per word and panics if the system call fails; Num::rand takes the first attempt whose low bits are below the modulus, and every field element is hit by equally many limb strings.", "quantifier": "all moduli, elements, and answers of the system", "why_tests_cant": "tests draw a few elements", "anchors": ["src/native/num.rs: Num", "src/core/osrng.rs: OsRng"]}
{"id": "C71", "title": "Point operations on constant points agree with the native ones", "statement": "CEdwardsPoint::add, double, mul_by_cofactor and from_scalar on constant points (or a constant scalar) give the constants that the native operations give.", "quantifier": "all points on the curve, both curves", "why_tests_cant": "the tests allocate their points", "anchors": ["src/circuit/ecc.rs: CEdwardsPoint", "src/circuit/num.rs: Div"]}
{"id": "C72", "title": "Public inputs of a circuit object", "statement": "get_inputs gives the leaves of the public value in declaration order (a panic for a vector of the wrong length; None without a value, unless there are no leaves). If the circuit makes nothing public itself, the prover's public inputs are one followed by exactly these, the key has one plus that many inputs, and in every satisfying assignment the public variables equal the public signals the circuit ran on. Public Booleans are 0 or 1.", "quantifier": "all signal types, values, circuits and satisfying assignments", "why_tests_cant": "all types and assignments", "anchors": ["src/macros.rs: CircuitObject::synthesize, get_inputs"]}
{"id": "C73", "title": "Text and vector encodings of the waves bindings", "statement": "base64 decoding accepts exactly the encodings, with padding optional, and inverts encoding; num_vec_to_buf writes the big-endian values one after the other and read_num_vec accepts exactly these buffers.", "quantifier": "all byte strings, all lists of numbers, all fields", "why_tests_cant": "all lengths and bytes", "anchors": ["src/macros.rs: read_num_vec, num_vec_to_buf"]}
{"id": "C74", "title": "JSON of proofs, keys and inputs", "statement": "The derived serde implementations read back what they write, and accept exactly: decimal strings below the modulus, arrays of two, and objects (or arrays) with every field exactly once.", "quantifier": "all JSON values, proofs, keys and inputs", "why_tests_cant": "all JSON values", "anchors": ["src/helpers/groth16/mod.rs: G1PointData, G2PointData", "src/helpers/groth16/prover.rs: ProofData", "src/helpers/groth16/verifier.rs: TruncatedVerifyingKeyData", "src/native/num.rs: Serialize, Deserialize"]}
{"id": "C75", "title": "The commands setup, prove and verify work together", "statement": "After setup, generate_test_data and prove on files with different names, verify prints true, for a pairing library that is complete, in each of the formats. verify prints true exactly if the three files decode and the pairing equation holds, prints false for a wrong number of inputs, and panics on missing or malformed files. generate_verifier writes the contract of the key, completely only if the one write takes all bytes.", "quantifier": "all circuits, values, keys, proofs and file systems", "why_tests_cant": "the repository has no test of the commands", "anchors": ["src/macros.rs: groth16_ethereum_bindings, groth16_waves_bindings, groth16_waves_bindings_bn256, groth16_near_bindings", "src/helpers/groth16/prover.rs: generate_keys, prove"]}
{"id": "C76", "title": "Groth16CS names and counters", "statement": "Groth16CS gives every variable and constraint of a circuit a different name: i[k] or a[k], where k counts the variables of both kinds from 1, and c[k] for constraints from 0. Its field ninputs is one more than the number of all variables, naux stays 0, ncons is the number of constraints. Names and counters do not change the system handed to bellman.", "quantifier": "all circuits and bellman constraint systems", "why_tests_cant": "all circuits; the names are never looked at", "anchors": ["src/helpers/groth16/mod.rs: Groth16CS::{new,alloc,alloc_input,enforce}"]}
{"id": "C77", "title": "The subgroup check of BLS12-381 points tests the group order", "statement": "The addition used by the subgroup check is the chord-and-tangent group law of the curve (commutative, associative, with inverses), its multiplication is repeated addition, and the data accepted as BLS12-381 G1 and G2 points are those of points whose sum of r copies is infinity; sums and negatives of accepted points are accepted.", "quantifier": "all points, all coordinate data", "why_tests_cant": "all triples of points over 254- and 381-bit fields", "anchors": ["src/helpers/groth16/mod.rs: Into<bls12_381::G1Affine>, Into<bls12_381::G2Affine>"]}
{"id": "C78", "title": "The generated Solidity verifier accepts exactly what the library's verifier accepts", "statement": "For every key whose points are on the BN256 curves (and whose second-group points are in the subgroup), the contract that ethereum.rs prints returns true or false on a proof and inputs exactly when the eight words are below q, the inputs below r, the words are the data of a proof the library reads, its second point is in the subgroup, and verify returns that verdict; otherwise it reverts. In particular the contract never disagrees with verify on proofs in the subgroup, and always reverts on those outside.", "quantifier": "all verifying keys, all 256-bit words, any number of inputs, any contents of memory", "why_tests_cant": "unbounded number of inputs, all words and keys", "anchors": ["src/helpers/groth16/ethereum.rs: VERIFIER template", "src/helpers/groth16/verifier.rs: verify"]}
{"id": "C79", "title": "The Montgomery-point gadgets compute the native Montgomery operations", "statement": "In a circuit, converting a curve point with non-zero first coordinate to Montgomery form, converting a Montgomery point back, adding two Montgomery points with different first coordinates and doubling one that is not (0, 0) give in every satisfying assignment the point that the native conversion and the Edwards addition give; honest runs finish and satisfy their constraints; the gadgets cost 2, 5, 3 and 4 variables and constraints. Outside these conditions the constraints do not bind the result: adding a point to itself leaves the slope free, and converting (0, -1) leaves the second coordinate free.", "quantifier": "all parameter sets, all input signals, all satisfying assignments and honest runs", "why_tests_cant": "all field elements and all assignments a dishonest prover may choose", "anchors": ["src/circuit/ecc.rs: CEdwardsPoint::into_montgomery", "src/circuit/ecc.rs: CMontgomeryPoint::{double, add, into_edwards}"]}
{"id": "C80", "title": "Whole circuits compute the native functions", "statement": "Take any list of library calls, the arguments of each being results of earlier calls. In every satisfying assignment of the circuit it builds, the values of the results of every call are those of the native function applied to the values of its arguments (hash, Merkle root, curve operation, bit decomposition, comparison, signature check, field operation), and every assertion holds of its arguments, under the side conditions of the single gadgets. Conversely, if every call is in its domain whenever the calls before it did what they say, no run panics, and the values handed to the back end satisfy every constraint.", "quantifier": "all lists of library calls of any length, all witnesses, all satisfying assignments, all parameter sets meeting the listed conditions (shown to include the library's own)", "why_tests_cant": "all circuits, all field elements and all assignments a dishonest prover may choose", "anchors": ["src/circuit/num.rs", "src/circuit/bool.rs", "src/circuit/bitify.rs", "src/circuit/mux.rs", "src/circuit/poseidon.rs", "src/circuit/ecc.rs", "src/circuit/eddsaposeidon.rs"]}
{"id": "C81", "title": "What a verified proof says: the key's constraint system is the native statement", "statement": "Take an application whose circuit is a list of library calls on the public and the secret value. Every assignment satisfying the constraint system the keys are generated for is a run of the native functions on its public inputs and some secret numbers; and on values the native functions accept, the prover runs, its public inputs are the public value and its assignment satisfies the system, so that setup, prove and verify end in true. In particular, the public inputs for which the system can be satisfied are exactly: the Poseidon hashes (preimage circuit); the roots of Merkle trees of depth n having a leaf with a path (membership circuit, any n); the pairs of key and message with a signature accepted by the native verifier (signature circuit). If cli_verify says true with the key file that setup wrote, then every assignment that can be extracted for the proof makes the native statement true of the inputs in the file.", "quantifier": "all lists of library calls, all signal types, all satisfying assignments, all values, all depths, all parameter sets meeting the listed conditions (shown to include the library's own), all file systems", "why_tests_cant": "all applications, all assignments a dishonest prover may choose and all public inputs", "anchors": ["src/helpers/groth16/mod.rs", "src/helpers/groth16/prover.rs", "src/macros.rs", "src/circuit/poseidon.rs", "src/circuit/eddsaposeidon.rs"]}
{"id": "C82", "title": "Hashing as many numbers as the state is wide can be run backwards", "statement": "poseidon accepts up to t inputs, so that with t inputs no element of the state is fixed. For every number h and any t-1 further numbers, running the rounds backwards gives t inputs whose hash is h, and all inputs of full width with hash h arise this way; so second preimages are computed at the cost of one permutation. With parameters of width 2, every number is the Merkle root of a proof along every path. This applies to the parameter sets of the repository.", "quantifier": "all parameter sets with an invertible matrix and fifth roots, all hashes, all inputs, all path lengths", "why_tests_cant": "all field elements and all paths of any length", "anchors": ["src/native/poseidon.rs: poseidon", "src/native/poseidon.rs: poseidon_merkle_proof_root"]}
{"id": "C83", "title": "The Poseidon matrices of the repository are MDS", "statement": "PoseidonParams::new draws the matrix without testing it. For the parameter sets used in the repository every square submatrix of the drawn matrix is invertible: a state that is not zero and its image under mix have together more than t elements that are not zero.", "quantifier": "all states, for each of the three parameter sets", "why_tests_cant": "all vectors over a 254-bit field", "anchors": ["src/native/poseidon.rs: PoseidonParams::new", "src/native/poseidon.rs: mix"]}
{"id": "C84", "title": "With free path signals a Merkle proof proves any leaf against any tree", "statement": "c_poseidon_merkle_proof_root never constrains the path signals (CBool::alloc does not either). For path signals that are not constants the gadget computes exactly the root in which, at each level, the numbers hashed are x = cur + b (sib - cur) and cur + sib - x, whatever number b is. So from a true proof of depth at least one for a, a prover can prove every number v against the same root, unless 2v is the sum of a and its sibling: every tree of two or more leaves 'contains' every such number, with the repository's parameters too. If assert is called on every path signal first, the root is the native root along some bits, and the leaf is bound as in C66. For a circuit object with public root and leaf and secret proof: without the assertions the constraint system of the keys can be satisfied for every tree root with every such v; with them it can be satisfied exactly for the pairs with a native proof, so that the leaf is in the tree or the hash has a collision.", "quantifier": "all trees, depths, leaves, parameters and satisfying assignments", "why_tests_cant": "adversarial assignments of any depth", "anchors": ["src/circuit/poseidon.rs: c_poseidon_merkle_proof_root", "src/circuit/bool.rs: alloc, assert", "src/circuit/num.rs: switch"]}
{"id": "C85", "title": "The command line works with its default file names, and touches no other file", "statement": "In each of the four bindings the default names of the files are pairwise different and the same name is used by the command that writes a file and the one that reads it, so that setup, generate-test-data, prove and verify without any option print true under the conditions of C75; so they do with any options that name the five files differently. A command changes only the files it names as outputs, and what it does depends only on the files it names as inputs. With one name for two outputs the second write wins: setup leaves the key in the binding for ethereum and the parameters in the others, and prove leaves the inputs.", "quantifier": "all bindings, circuits, values, options, directories and sequences of commands", "why_tests_cant": "the property ranges over every option and every state of the directory", "anchors": ["src/macros.rs: Opts, SubCommand and the structs of options in the four bindings", "src/macros.rs: cli_main"]}
{"id": "C86", "title": "What the gadgets that take Booleans compute on other numbers", "statement": "The library does not constrain a Boolean it is given (CBool::alloc adds no constraint). On any signal that is not constant, switch gives the point with that parameter on the line through its two operands, and so, between different operands, any number for exactly one value of the signal; c_from_bits_le gives the sum of the signals weighted by powers of two; c_mux3 gives the trilinear interpolation of the table. In each case the constraints are satisfiable whatever the values. Scalar multiplication of a subgroup point by signals that are not Boolean can leave the curve, for a constant and for an allocated point. When every signal is asserted first, the product is a multiple of the point by the number with those bits, in every satisfying assignment.", "quantifier": "all fields, operands, tables, values of the signals and satisfying assignments; the two statements about leaving the curve are existence statements", "why_tests_cant": "honest witnesses have Boolean values only", "anchors": ["src/circuit/num.rs: switch", "src/circuit/bitify.rs: c_from_bits_le", "src/circuit/mux.rs: c_mux3", "src/circuit/ecc.rs: CEdwardsPoint::mul"]}
