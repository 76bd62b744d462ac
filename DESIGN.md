# Formal model of fawkes-crypto in Rocq (Coq 8.16.1)

Source: `/repo` (read as text, never built).  Model and proofs: `rocq/theories`.
Properties: `properties.jsonl` (C01…); theorem names per property: `MANIFEST.json`.

## How the code is modelled

* **Field elements** (`Num<T: Field>`): `Num p` for a modulus `p : positive`, an integer
  with a boolean proof of `0 <= z < p`; Leibniz equality is field equality.  Ring laws hold for every
  `p`, field laws take the hypothesis `prime (Zpos p)` explicitly.  Theorems about
  a concrete curve discharge it with a primality certificate checked by the kernel.
* **Panics** are explicit: `res A := Ok a | Panic`.
* **Circuits**: the gadgets are generic over the trait `ConstraintSystem`, so they are modelled as
  terms of the free monad `prog` over the three trait methods (`Alloc`, `AllocInput`,
  `Enforce`) plus `Panic`.  Every back end is an interpreter of `prog`:
  `TestCS` (src/core/cs.rs), the Groth16 back end in setup and proving mode
  (src/helpers/groth16/mod.rs), and a nondeterministic one, `exec`, which hands out any fresh
  index; property theorems about gadgets quantify over `exec`, and lemmas show the concrete
  back ends are instances.
* **Adversary**: soundness theorems quantify over every assignment `σ : Index -> F` with
  `σ (Input 0) = 1` that satisfies the emitted constraints - not only the honest one.
* **Square roots**: `sqrt` of the ff crate is a parameter with the specification
  "returns a root iff one exists"; which of the two roots is returned is unspecified.
* **Blake2s** is modelled in full (`Blake2s.v`, RFC 7693). The pairing engine and the compressed
  point codecs are fields of a record `Engine`, so theorems hold for every engine; what they need
  from it is written as hypotheses, never axioms.
* **Circuits as data** (`Ops.v`): a circuit is a list of library calls on a register file. The
  statements "for every circuit" (C02, C05, C12, C13, C56, C62) quantify over these lists, over the
  witness function and over the back end. A circuit that branches on native data is the list it
  reaches; a circuit that builds a `CNum` by hand (public fields) is not covered.
* **Composite signals** (`Signal.v`): a universe `sty` of types (number, bit, vector of length L,
  product) stands for SizedVec, tuples and `#[derive(Signal)]` structs, nested arbitrarily.

## Per property: what is modelled and how it is proved

| id | model | proof |
|----|-------|-------|
| C01-C05 | zipper merge on lists of (Index, coefficient), operator wrappers, as_const | induction on term lists; invariant (sorted, nonzero) over an inductive closure of operations |
| C06-C11 | gadgets of num.rs/bool.rs as `prog` terms | weakest-precondition calculus for all assignments (soundness) and for honest runs (completeness) |
| C12, C13 | relational predicate on two `prog` terms | compositional, per gadget; adequacy lemma to the back ends |
| C14 | CBool::alloc | refutation by an assignment |
| C15-C19 | bitify.rs | induction on bit count, arithmetic on integers below p |
| C20 | mux.rs | case analysis on selectors + ring |
| C21-C23 | poseidon (native and circuit) | induction over rounds |
| C24-C26 | Merkle proofs and trees | induction over path / levels; refutation for unconstrained bits |
| C27-C29 | native/ecc.rs extended coordinates | field identities, completeness of the law (d nonsquare), associativity by explicit cofactors |
| C30-C34 | Montgomery maps, decompression, from_scalar | field identities; square-class counting; group order by a permutation argument |
| C35, C36 | native EdDSA | from C29, C32 |
| C37-C45 | circuit/ecc.rs, circuit/eddsaposeidon.rs | wp calculus + group theory |
| C46-C50 | native/num.rs conversions | positional notation, induction on byte/limb lists |
| C51-C55 | helpers/groth16 data | case analysis, codec induction, abstract pairing |
| C56-C57 | inputize, signal.rs, derive macro | induction on a universe of signal types |
| C58-C60 | sizedvec, seedbox, PoseidonParams | induction over draws |
| C61 | constraint counts | counting interpreter |
| C62 | back ends | induction on `prog` |
| C63 | constants | kernel computation: Pocklington/Lucas certificates, Euler criterion |
| C64 | ethereum.rs string substitution | list induction on strings |
| C65 | native poseidon against its textbook form | folds over the constants; inverse of each layer; for the library's parameters an inverse matrix (`PoseidonInv.v`) checked on the drawn integers |
| C66 | Merkle proofs and trees | induction over levels; the other case is a collision, not an assumption |
| C67, C68 | EdDSA, native and circuit | group theory on C36 and C44; composition of C35 and C44 |
| C69 | EdDSA signing, native | unfolding with the codec lemmas; linear algebra modulo l on C36 |
| C70 | Num arithmetic, OsRng, Num::rand | integers modulo p; induction over attempts |
| C71 | circuit/ecc.rs on constants | symbolic evaluation of the gadgets on constants |
| C72 | CircuitObject of the bindings | equivalence of signal allocation with a list of allocations; induction over traces |
| C73, C74 | base64, vectors of numbers, derived serde | exact characterisation of the decoders, by induction |
| C75 | commands of the bindings | composition of C72-C74, C51, C54, C55; hypotheses on bellman explicit; for lists of library calls the key generator is shown to see the prover's system (`EndClaims.v`, from `Shape.v`) |
| C76 | Groth16CS with counters and names, over any bellman system | induction on `prog` |
| C77 | group law and subgroup check of the pairing curves | field identities by chords and tangents; associativity by cases (`WeierAssoc.v`); primality certificate of the BLS12-381 base field |
| C78 | the Solidity contract against verify | refinement, function by function, on the group law of C77; the pairing is any test of lists of points that the library's engine agrees with |
| C79 | Montgomery gadgets | weakest preconditions of the four gadgets; chord and tangent formulas against the Edwards law; runs with a free slope for the refutations |
| C80 | whole circuits | induction over the list of calls: the gadget theorems give one step, freshness of variables carries earlier steps along; instance: the library's BN256 parameters |
| C81 | key system = native statement | C80 carried through C62's numbering and C72's public inputs to the assemblies of the back end; equivalences for the preimage, membership (every depth) and signature circuits; with C75 the whole session |
| C82 | Poseidon of full width | the rounds undone one by one from an inverse matrix and a fifth root; induction on the Merkle path |
| C83 | MDS matrices | elimination decides every square submatrix; masks of non-zero columns and zero rows give the branch number |
| C84 | Merkle proofs with free path signals | the root along numbers in place of bits, by induction on the proof; a true proof gives the forged first level; carried to circuit objects by the lemmas of C81 (`FreeClaims.v`) |
| C85 | the command line | literal default names; one case per command for the files read and written; C75 for the session |
| C86 | gadgets on signals that are not Boolean | weakest preconditions without the Boolean hypothesis; two runs that leave the curve (`LooseClaims.v`) |

## Files

Model files contain definitions only; each definition cites the lines of `/repo` it renders.

| model file | code |
|------------|------|
| Res, Zp | panics; `Num<T>` arithmetic (native/num.rs) |
| Circuit | circuit/num.rs, circuit/bool.rs, trait ConstraintSystem (core/cs.rs) |
| NumBits, Bitify | limbs and bits; circuit/bitify.rs, circuit/mux.rs |
| Bytes, Blake2s, NumCodec | readers and writers, the hash, conversions and codecs of native/num.rs |
| Poseidon | native/poseidon.rs, circuit/poseidon.rs |
| Seedbox, OsRng | core/seedbox.rs, core/osrng.rs, PoseidonParams::new, Num::rand |
| Ecc, Curves, Eddsa | native/ecc.rs, native/bn256.rs, native/bls12_381.rs, native/eddsaposeidon.rs |
| CEcc | circuit/ecc.rs, circuit/eddsaposeidon.rs |
| PointData, Verifier, Solidity | helpers/groth16/{mod,prover,verifier,near,ethereum}.rs |
| Contract | the contract that helpers/groth16/ethereum.rs:7-196 prints, as a program over 256-bit words |
| SizedVec, Signal | core/sizedvec.rs, core/signal.rs, fawkes-crypto_derive/src/signal.rs |
| Ops | sequences of library calls |
| Backends | TestCS (core/cs.rs), Groth16CS, the two bellman assemblies |
| Groth16 | Groth16CS again, with its counters and annotation strings, over any bellman system |
| Bindings | the four bindings macros (macros.rs:224-1157), generate_keys and prove, JSON of proofs and keys |
| CmdLine | the options of the bindings with their default file names, cli_main, several runs in one directory |

Proof files: `FieldTheory, Primality, Generator, LCTheory, Sem, NumSpec, BitsTheory, BitifySpec,
PoseidonSpec, PoseidonCount, PoseidonMeta, Group, Edwards, EccSpec, MontSpec, CurveOrder, CurveCard,
CurveCert, JubJub, CodecSpec, SeedSpec, CEcc{Spec,Mul,Var,Const,From,Meta}, CEddsaSpec, Always,
Shape, OpsSpec, NoInput, SignalSpec, G2Cert, Window, WeierLaw, WeierAssoc, Claims, Run`. Generated certificates: `Certs`, `CertBls`, `CertBnq` (primes),
`CurveBN`, `CurveBLS` (point orders), `PoseidonInv` (drawn and inverse matrices), `BnG2` (a multiplication on the BN256 twist),
`BlsGen` (the order of the BLS12-381 G1 generator),
`WindowBN`, `WindowBLS` (multiples of the generators, for the constraint counts). `Toy.v` has two small
parameter sets used in examples.

`XClaims.v` states the properties and proves them from the lemmas; beside each claim `claim_Cxx_…` there is a
`case_Cxx_…` that exhibits a concrete, non-trivial instance of the hypotheses. `tools/genprops.py`
copies the statements into `PropsX.v` as `Theorem Cxx_…` / `Example Cxx_…_case` with `Print Assumptions`. The cases that were added
later are in `PropsCase.v`. Theorems without a case are the refutations, the ones without hypotheses, those about the listed
parameter sets of the library, and `C84_any_leaf`, whose case is that of `C84_any_tree`.

`ParamClaims.v` restates the main properties for the parameters the library itself creates, with no
hypothesis left on them except that `sqrt` returns square roots.

## Vocabulary of the circuit properties (Sem.v, Claims.v)

* `exec U m tr o` - a back end in which the variables `U` are in use may run `m` with the calls `tr`;
  the outcome is `Some result`, or `None` for a panic. Allocation may return any unused index.
* `sat s tr` - the assignment `s` satisfies every constraint of the run; `honest s tr` - `s` is the
  assignment handed to the back end.
* `sound_for U m P` - in every run that ends, every satisfying assignment with `s I0 = 1` has `P s result`.
* `complete_for U m Pre P` - if the inputs satisfy `Pre`, no run panics, the honest assignment
  satisfies the constraints, and `P` holds.
* `synth_for U m P` - no run panics; `P` gets the numbers of variables and constraints added.

## Properties that are false of the code

These have a `_refuted` theorem with a concrete witness, and further theorems that say what the code does instead:

| Property | What fails |
|---|---|
| C05 | the hint gadgets leave a cached value in setup when given a constant (`C05_setup_hint_refuted`) |
| C08 | a constant divided by a CNum gives the inverse quotient (`C08_div_const_refuted`) |
| C13 | c_into_bits_le with a limit above the bit length of the field runs with a witness and panics in setup (`C13_limit_refuted`) |
| C14 | CBool::alloc adds no booleanity constraint (`C14_bool_alloc_refuted`) |
| C18 | c_comp_constant ignores constant bits above the signal (`C18_comp_constant_large_refuted`) |
| C25 | Merkle path bits are not constrained to 0 and 1 (`C25_merkle_binds_leaf_refuted`) |
| C41, C42 | one-bit scalars with a constant base; constant bits (`C41_one_bit_refuted`, `C42_const_bits_refuted`) |
| C45 | s and s + l are both accepted (`C45_canonical_s_refuted`) |
| C51, C52 | the point at infinity comes back with another y coordinate in its record; no subgroup check on BN256 G2 (`C51_infinity_record_refuted`, `C52_bn_subgroup_refuted`) |
| C57, C58 | SizedVec get_value and as_const panic instead of None; deserialize does not check the length (`C57_get_value_refuted`, `C58_deserialize_refuted`) |
| C66 | the tree root does not bind the number of leaves (`C66_length_refuted`) |
| C82 | a finding: full-width inputs of the hash can be computed from any hash (`C82_preimage`) |
| C84 | a finding: a prover with free path signals proves any number against any tree (`C84_any_tree`; for a whole circuit object `C84_open_tree`) |
| C86 | a finding: with signals that are not Boolean a scalar product can leave the curve (`C86_mul_variable_refuted`, `C86_mul_constant_refuted`) |
| C67 | not a false property but a finding: with the key 0 every message is accepted (`C67_zero_key`, `C67_zero_key_circuit`) |
| C71 | sums and doubles of constant points have inverted coordinates or panic (`C71_const_refuted`, `C71_from_scalar_refuted`) |
| C72 | public Booleans are not constrained to 0 and 1 (`C72_public_bool_refuted`) |
| C63 | 7 is not a generator for the BN256 subgroup order (`C63_bn_generator_refuted`) |

The panics a property allows or forgets are the theorems `*_panics` (C21, C42, C49, C57). The notes in
`MANIFEST.json` say which theorem is which.

## Testing against edited definitions (seeded/LOG.jsonl)

Each line is one attempt: a definition was edited in a scratch copy and the files named by the property were rebuilt.

* A theorem counts as failed when its own proof, or the proof of a lemma it depends on, no longer goes through. Broken proofs are
  replaced by `Admitted` in the scratch copy and `Print Assumptions` finds the dependents. So a failed theorem is one that is no
  longer proved; this does not by itself show that its statement is false.
* Every definition of the model files occurs in the statement of some property theorem or in a definition
  such a statement uses (checked with `Print All Dependencies` on the statements).
* Only the `Props` files chosen for the edit were rebuilt, so the list of failed theorems need not be complete.
* An edit that no theorem noticed has an empty list. Where that led to a new or tightened theorem, the edit was tried again and has a second line.
* A field `note` marks attempts that did not run normally: an edit that did not parse, a prover that did not terminate, a result
  entered by hand.
* The last lines are edits chosen by a program (changed constants, swapped branches). They stop at the first broken proof, which is what is
  listed. Of 166 tried, 51 were ill-typed and are left out; 3 of the other 115 were not noticed and cannot be observed. A further
  134 were generated and not run.

## Trusted base

1. Coq 8.16.1's kernel, including `vm_compute` (`coqchk` re-checks everything without it).
2. `Print Assumptions` says "Closed under the global context" for every theorem in `PropsX.v`: no axioms,
   neither our own nor the standard library's. (`coqchk -o` on the whole development lists seven constants
   `Coq.ssr.ssrunder.*`; they belong to a standard library file that is loaded, and no theorem uses them.)
3. The reading of the Rust source into the model, definition by definition. Nothing was built or run.
4. What is assumed of the dependencies, which are not in `/repo`:
   * `ff`/`ff_ce`: fields are integers mod p; `into_repr`, `from_repr`, `NUM_BITS`, `CAPACITY` as documented;
     `inverse` fails exactly on zero; `sqrt` returns some root iff there is one (a parameter, no choice of
     root assumed); `Rand` for fields draws limbs with `next_u64`, masks the top, and retries.
   * `rand` 0.4: `next_u64` is high word first from two `next_u32`.
   * `blake2_rfc`: BLAKE2s of RFC 7693 with the personalization parameter, for digests of 1 to 32 bytes. The crate refuses
     other lengths; the model does not, so nothing is claimed of `from_seed` for fields of more than 32 bytes.
   * `byteorder`, `borsh`, `num-bigint`, `base64` 0.12: their documented encodings.
   * `serde_json`: an arbitrary printer and parser of JSON values (`SerdeJson`); theorems that need it assume that it reads back
     the values printed here (`json_ok`). The derived serde impls are modelled on JSON values.
   * `pairing`: affine points as (x, y, infinity), `mul` as double and add on the group law (C77 proves that it is one), tower field Fq2 = Fq[u]/(u^2+1);
     compressed codecs and the pairing itself only through the record `Engine`.
   * `bellman`: the key assembly numbers variables and records linear combinations without calling value
     closures; the prover's assembly calls them and fails on a missing value; both reserve Input 0 for one.
     The `transmute`s in groth16/mod.rs are assumed to identify the two crates' variable and term types, which Rust
     does not guarantee. Key generation, proving and the parameter file are arbitrary functions (`Bellman`); C75_end_to_end
     assumes completeness of the proof system as a hypothesis. Its soundness is not assumed or claimed anywhere.
   * Solidity 0.6 and the EVM, for C78: functions of the contract are read as functions of words, a failed `require` or
     precompile call reverts; precompiles 6, 7, 8 follow EIP-196 and EIP-197. Memory read past the end of an array (`plus` passes 6 words
     of 4, `scalar_mul` 4 of 3) is arbitrary. Gas is left out, and so is compilation: a key without public inputs gives the type `uint256[0]`,
     which the compiler rejects. The model is of the template's functions, transcribed by hand; C64 is about the printed text.
   * `linked-list`: cursors as zippers.

## Not modelled

* The system call behind `core/osrng.rs` is an arbitrary function from call number to bytes. `generate_keys` and `prove` are
  modelled up to the constraint system and assignment they hand to bellman; the Groth16 proof itself is not.
* `Debug` impls, the text of JSON, serde of the user's own types (object files).
* In the bindings: splitting the argument vector into options (`clap`), messages, and failures of the file system other than a missing
  file; writes succeed, except that `generate_verifier`'s single `write` may be short.
* `forward_*` in `macros.rs` is covered through the operator impls it expands to; the test modules are not modelled.
* usize and Vec capacities are unbounded (`nat`); memory exhaustion and time are out of scope. Machine overflow is
  modelled where the code computes with machine integers (C46).
* Side channels.
