# Formal model of paritytech/libsecp256k1 in Rocq (Coq 8.16.1)

## 1. Approach

`rocq/theories` holds three layers.

* **Spec** (`Spec.v`, plus the small definitions stated next to the theorems in `Api*.v`): the mathematics a user relies on, written over plain `Z` and byte lists, with no reference
  to the model: `p`, `n`, affine points of y^2 = x^3 + 7, chord-tangent addition, `k*P` as repeated addition,
  textbook ECDSA, big-endian byte strings, the DER grammar.
* **Model** (`M*.v`): the Rust code function by function, at limb level. Machine integers are `Z` values together
  with explicit wrap-around / overflow checks. Every definition cites `file:lines` of `/repo`.
* **Proofs** (all other files; `Api*.v` hold the final lemmas `Cnn_…_pf`) and **Properties** (`PropApi*.v`): theorems linking model to spec. The `PropApi*.v` files contain only
  property theorems (`exact lemma.` + `Print Assumptions`) and the non-vacuity `Example`s beside them.

### Modelling conventions

* A Rust function that can panic returns `option`; `None` is a panic. `Result` is data (`result A := Ok | Err`).
* All code is parameterised by `dbg : bool`. `dbg = true` is a debug build: `+ - *` overflow and `debug_assert!` panic. The two kinds of checks can be set independently in a Cargo profile (`debug-assertions`, `overflow-checks`); `X*.v` repeat the model of `core/` and `src/lib.rs` with a flag for each (C94).
  `dbg = false` is a release build: arithmetic wraps, `debug_assert!` is absent. Index-out-of-range, `assert!` and
  `copy_from_slice` length mismatches panic in both. Theorems quantify over `dbg`, so "returns `Some v`" also says that
  neither build panics and that both builds agree.
* `&mut self` becomes "returns the new value". Loops become structural recursion / folds.
* `usize` is 64 bits, except in `MWidth.v`, which has the DER readers for any pointer size (C93).
* External code is a parameter: HMAC-DRBG is an arbitrary stream of 32-byte blocks determined by key and message, the
  RNG an arbitrary stream of blocks, the ECDH digest an arbitrary function on byte lists, base64 an arbitrary
  codec with `decode (encode b) = Some b`.

## 2. Plan per property

| id | modelled | proof |
|----|----------|-------|
| C01,C02,C08-C10,C39 | scalar byte codec, 8x32-bit limbs, overflow check and reduction | limb value lemma, `set_b32` = mod n, flag iff >= n |
| C03-C07,C42 | field codec, `is_valid_var`, `sqrt`, `==` on 10x26-bit limbs | field refinement (C44-C46) + Euler criterion from primality of p |
| C11 | recovery ids | case analysis |
| C12-C16 | `serialize_der`, decoder state machine | DER grammar in the spec; induction on leading zeros / lengths; refutations by `vm_compute` witness |
| C17 | all parsers incl. panics | totality lemma per decoder step |
| C18-C20,C41 | hex format, `is_high`, `normalize_s`, `TryFrom<Scalar>` | refutations by witness + exact characterisation |
| C21-C28,C31,C57 | `ecmult_gen`, `ecmult`, `sign_raw`, `verify_raw`, `recover_raw` | refinement to spec points; every point is a multiple of G (C56), then algebra mod n |
| C29,C30 | signing loop with fuel over an arbitrary stream | induction on the stream prefix |
| C32-C38,C43 | tweaks, combine, ECDH, serde | corollaries of C44-C56 |
| C40 | inductive set of reachable keys | induction over histories |
| C44-C46 | `field.rs` | straight-line symbolic execution with interval side conditions, ring identities mod p |
| C47,C48 | `scalar.rs` | same, 96-bit accumulator abstraction for `muladd` etc. |
| C49,C50,C58 | `group.rs` | Jacobian formulas checked with `field`, with an explicit shared-Z representation relation |
| C51-C55 | `ecmult.rs` | wNAF invariants, loop invariants over digits, context invariant + proof that `new_boxed` establishes it |
| C56 | - | Pocklington certificates checked in Coq; associativity by the ideal-class argument; order by counting |
| C61,C62 | remaining `group.rs` entry points | as C49/C50 |
| C63-C65 | compositions of public functions | corollaries of C01-C56 |
| C66 | every function, both builds | refinement order on `option` (`ref`), one lemma per function (`Mono.v`) |
| C67 | `build.rs`, `gen/*` text, a lexer/evaluator for the included text | text round trip by induction on the table |
| C68 | the API on scalars with n <= value < 2^256 | exact effect of the scalar operations (`Unred.v`), of the two recodings, then as for reduced scalars |
| C69 | `sign_with_context` composed with a model of the DRBG crate (`MDrbg.v`) | RFC 6979 as an inductive relation; induction on the number of refused candidates; nonce points of published vectors by certified chains; SHA-256 and HMAC against FIPS 180-4 and RFC 2104 stated in bits and relations, with the constants defined from the roots of primes |
| C70 | both DER parsers | the accepted strings as relations written from the outside (`ApiGrammar.v`), equivalence in both directions |
| C71 | `Decoder` (array and position), `SignatureArray`, all their methods (`MDecoder.v`) | simulation with the model on suffixes, method by method |
| C72 | predicates, constructors, conditional moves, `clear`, error texts of the core types (`MCore.v`) | limb arithmetic, case analysis |
| C73 | serde of public keys with a model of the base64 crate (`MBase64.v`) | decoder/encoder inverse to each other on canonical texts, then as C01-C06 |
| C74 | both context constructors over a block of uninitialised cells (`MHeap.v`) | loop invariants on the set of written cells, simulation with the pure constructors |
| C75 | `PartialEq`/`Ord` of all public types (`MEq.v`) | injectivity of the encodings |
| C76,C77 | parse - operate - serialize compositions (`MWire.v`) | corollaries of C01-C58, stated on byte strings only |
| C78 | sequences of calls (`MMachine.v`) against a machine on integers, points and bytes | forward simulation, determinism and completeness by induction on the program |
| C79 | `verify`, `recover`, `normalize_s` | uniqueness of s through discrete logarithms of the nonce point; inverting the parity bit of the id negates the nonce point |
| C80 | `combine`, tweaks, `SharedSecret::new`, `sign` together | every key is a multiple of G, so each law is an identity of integers modulo n |
| C81 | derived `Debug` of the public types | read the decimal numbers back out of the text (independent scanner `numbers`); for the two encodings of a key, follow the magnitude flag through `set_xo_var` |
| C82 | `sign_raw`, `sign` | equation k*s = z + r*d modulo n up to sign; for nonce 0, the z coordinate of an infinite result of `add_ge` is 0 |
| C83 | `double_var_in_place`, `double_nonzero_in_place`, `add_var_in_place`, `add_ge_var_in_place`, `add_zinv_var_in_place` | the point sum, and for the ratio an equation of z coordinates modulo p; the receiver is any value |
| C84 | `clear` followed by every other function; the table, `ecmult` and `ecmult_const` on coordinates (0, 0) | residues of the coordinates modulo p, bytes and error values; the curve equation for the combined key |
| C85 | sequences of calls with `clear`, conversions and public fields (`MClient.v`) against a machine with a zero key and keys at (0, 0) | the machine of C78 for calls on valid values, through a frame lemma (a call reads and changes only its arguments); the facts of C84 for the others |
| C86 | every function in the release build, on values without any validity condition; programs of `MClient.v` | `exists r, f = Some r` for each function (structural for fields and points; digit and table bounds for the multiplications), and an invariant (8 limbs of 32 bits, byte strings) for programs |
| C87 | `PublicKey::parse*`, `from_secret_key`, `serialize*`, `SecretKey::random`, `verify`, `sign_raw` | `smul d G` and the ECDSA equations `r = x(tG) mod n`, `s = t^-1 (z + r d) mod n`; the curve is cyclic of order n (C56) |
| C88 | `ECMultContext::new_from_raw`, `inspect_raw` and the same of `ECMultGenContext` (`MRaw.v`) on tables of arbitrary curve points | points of the table entries (`stored_at`); the recoding of an odd number below 2^15 has one digit; two scalars that differ in one hexadecimal digit isolate one entry of the signing table |
| C89 | `ecmult_gen`, `sign_raw`, `sign_with_context`, `ecdh_raw`, `SecretKey::random`, each returning also the final values of its named local variables (`MResidue.v`), with dead plain stores executed or removed | erasure to the model; the values as integers, bytes and points: the key d, the nonce k, kG, the top four bits of (k + b) mod n |
| C90 | the multiplications, `verify_raw`, `recover_raw`, `sign_raw`, `sign_with_context`, `ecdh_raw`, `from_secret_key`, the public tweaks and `combine`, each returning also the numbers of point doublings, point additions, field inversions, square roots and scalar inversions it calls (`MCost.v`) | erasure to the model; the numbers as integers: exact in the recodings for the double multiplication, fixed for functions on secrets, the number of in-range nonces tried for signing; upper bounds with inputs that reach them |
| C91 | `SecretKey::random`, `sign_with_context`, the tweaks, `inv`, `SharedSecret::new`, `Message::parse` | a self-inverse rearrangement of the 32-byte blocks exchanging any two results, over whole streams; unique preimages in [1, n) and among curve points; the one or two integers below 2^256 congruent to z |
| C92 | `verify`, the public tweaks, `serialize_compressed`, `Message::parse`, `Signature::parse_overflowing` | integers modulo n and points: the pairs (u, v) with r = x(uG + vQ), unique for each accepted signature; equality of verdicts under related keys |
| C93 | `parse_der`, `parse_der_lax` with the pointer size as a parameter (`MWidth.v`) | equality of results with the 64-bit parsers; a byte pattern (`huge_field`) for the exception |
| C94 | the functions of `core/` and `src/lib.rs` with one flag for debug assertions and one for overflow checks (`X*.v`, written by `tools/gen_builds.py` from `M*.v`) | `every_build`, `every_outcome`: what one call does in the four builds, in terms of returning and panicking only |
| C95 | programs (`run_calls`) with one flag for debug assertions and one for overflow checks (`XMachine.v`, `XClient.v`) | `mild`: reduced scalars, coordinates of magnitude at most 6, byte strings, recovery ids below 4; `every_outcome` |
| C96 | straight-line programs of field and scalar operators in all their forms (`MOps.v`) | `fsay`, `ssay`: what each statement does to integers modulo p and n; `fmag`: the magnitudes computed from the text; the contract of C44 (normalization at magnitude 32 in `FieldMag32.v`) |
| C97 | straight-line programs of point operations on Jacobian and affine variables (`MPointOps.v`) | `psay`: what each statement does to points, defined or not; `lsay`: the same on multipliers of G modulo n |
| C59 | which branches and array indices depend on the secret: the functions on secrets run with a trace (`MTrace.v`), erasure to the model, exact dependence | `PropApiTrace.v` |
| C60 | threads sharing the two lazily initialised contexts as a transition system (`MConc.v`): sequential answers, single initialisation, no deadlock | `PropApiConc.v` |

## 3. Trusted base

* Coq 8.16.1's kernel (including its virtual machine, used by `vm_compute`; `coqchk` re-checks everything without it).
* The reading of the Rust source recorded in the citation on every model definition, and the conventions of section 1.
* **Axioms: none.** `Print Assumptions` under every theorem in `PropApi*.v` prints
  `Closed under the global context`. No axiom, `Parameter`, section-less `Variable`/`Hypothesis` or `Admitted` is used.
* One file, `GroupLaw.v` (associativity of the chord-tangent law by the ideal-class argument), imports mathcomp
  (ssreflect/algebra: polynomials, matrices/determinants over a field). mathcomp seals some definitions behind module types
  (`Finite.EnumDef.enum`, `BigOp.bigop`, `FinfunDef.finfun`, …, and `Coq.ssr.ssrunder`); `coqchk -o` lists these sealed
  module fields although they have implementations. They are not axioms of any theorem here
  (`Print Assumptions` does not report them) and none is stated by this development.

### What is modelled

All of it is modelled limb by limb, in debug and release semantics (`dbg`), with panics.

| source | model | coverage |
|--------|-------|----------|
| `core/src/field.rs` | `MField.v` | every method; the operator wrappers (`Add for &Field` etc.) are the functions they call |
| `core/src/scalar.rs` | `MScalar.v` | every method, including `reduce_512`, `mul_512`, `sqr_512` with the 96-bit accumulator macros, and `LowerHex` |
| `core/src/group.rs` | `MGroup.v` | every arithmetic method, table conversion, storage; `==` on points (derived `PartialEq`) |
| `core/src/ecmult.rs` | `MEcmult.v` | contexts (`new_boxed`), tables, wNAF, `ecmult`, `ecmult_const`, `ecmult_gen` |
| `core/src/ecdsa.rs`, `ecdh.rs` | `MEcdsa.v` | all |
| `core/src/error.rs`, `clear`, `new` of the core types | `MCore.v` | all |
| `core/src/der.rs` | `MDer.v`, `MDecoder.v`, `MWidth.v` | all; in `MDer.v` a decoder is its unread suffix, in `MDecoder.v` an array and a position (C71 relates the two); `MWidth.v` has the readers that compute a length in `usize` again, for any pointer size |
| `src/lib.rs` | `MApi.v` | all public functions and conversions, serde with an abstract base64 codec |
| `core/` and `src/lib.rs`, once more | `XField.v`, `XScalar.v`, `XGroup.v`, `XEcmult.v`, `XEcdsa.v`, `XDer.v`, `XApi.v`, `XMachine.v`, `XClient.v` | every function of the seven models above, and the client programs, that depends on the build, with separate flags for debug assertions and overflow checks; `Builds.v` proves each equal to the original when the flags are equal |
| `new_boxed`, `odd_multiples_table*`, `inv_all_var`, `set_all_gej_var`, `set_table_gej_var`, `globalz_set_table_gej`, once more | `MHeap.v` | with arrays overwritten in place, index arithmetic and bounds checks, and the uninitialised block of the allocator (C74 relates them to the lists of `MEcmult.v`) |
| `==` and `Ord` of every type (derived or written out) | `MEq.v` | all; `PublicKey`/`Affine`/`Field` equality is in `MGroup.v`, `MField.v` |
| `Debug` of every public type and of the core types inside them (derived) | `MDebug.v` | the text written by `{:?}` |
| the same, alternate form | `MPretty.v` | the tree of builder calls of each derived implementation, and what the builders of the standard library write for `{:?}` and `{:#?}` (from its source; outside /repo) |
| the in-place additions and doublings with an arbitrary receiver | `MInPlace.v` | every assignment to a field of `self`; `MGroup.v` has the same functions with the default receiver |
| client programs composed of API calls | `MWire.v` | parse, one operation, serialize; used to state C76 and C77 on byte strings only |
| any client program | `MMachine.v` | a list of commands over numbered results, one command for each call of the API on parsed values; `clear`, the conversions from core types and the public fields of `Signature` are not commands here but are in the next row; a call on a value of another type or on an error is skipped |
| any client program that also clears keys and moves scalars | `MClient.v` | the commands of `MMachine.v` and `clear`, `is_zero`, `Into<Scalar>`, `TryFrom<Scalar>`, `Into<Affine>` then `TryFrom<Affine>`, the public fields of `Message` and `Signature`; scalars and points computed by the client with the core crate are not values of this language (C41, C42, C46-C61) |
| any formula of field or scalar operators | `MOps.v` | every `Add`, `AddAssign`, `Mul`, `MulAssign` and `Neg` form of `Field` and `Scalar` (`core/src/field.rs:1674-1747`, `core/src/scalar.rs:935-1021`), `from_int`, and the statements listed in C96; not square roots, byte codecs, comparisons and bit access, which have claims of their own |
| any program of point operations | `MPointOps.v` | the statements listed in C97, each a call of a function of `MGroup.v` or `MEcmult.v`; not the forms that also return a ratio of z coordinates, `add_zinv_var`, comparisons and building a point from coordinates, which have claims of their own |
| contexts from raw tables | `MRaw.v` | `new_from_raw`, `inspect_raw` of both contexts; the array lengths fixed by the types are hypotheses (`raw_table`, `raw_rows`) |
| local variables at return | `MResidue.v` | `ecmult_gen`, `sign_raw`, `sign_with_context`, `ecdh_raw`, `SecretKey::random` with the final values of their named locals; a flag says whether stores nothing reads are executed; compiler copies, registers, the frames of field and scalar operations and the state of the nonce generator are left out |
| numbers of operations | `MCost.v` | the functions on points once more, counting calls of five operations (point doubling, point addition, field inversion, square root, scalar inversion); the work inside one call, recodings, table look-ups, hashing and encoding are not counted, so this is not a model of time |
| crate `base64` (external, from RFC 4648) | `MBase64.v` | `BASE64_STANDARD` `encode` and `decode`, as used at `src/lib.rs:341,364` |
| the functions on secrets in `group.rs`, `ecmult.rs`, `ecdsa.rs`, `ecdh.rs`, once more | `MTrace.v` | `add_ge`, `double_nonzero`, `ecmult_gen`, `ecmult_const`, `ecmult_wnaf_const`, `table_get_ge_const`, `sign_raw`, the loop of `sign_with_context`, `ecdh_raw`, `from_secret_key` with the branches and indices recorded |
| crates `hmac-drbg`, `hmac`, `sha2` (outside /repo) | `MDrbg.v` | as called by `sign_with_context`, from the standards |
| the `lazy_static`s of `src/lib.rs` | `MConc.v` | the calls that use them, on any number of threads; the contract of `lazy_static` is assumed |
| `gen/*/src/lib.rs`, `build.rs`, `new_from_raw` | `MGenSrc.v` | the text written for the static tables; the fragment of Rust it is written in (array literals, calls of the two constructors, decimal literals) is lexed and evaluated |

### What is not modelled

* HMAC-DRBG (`hmac-drbg`), SHA-256, base64, `rand`: arbitrary parameters (streams of blocks, functions on bytes). For C69 the DRBG, HMAC and SHA-256 are written in `MDrbg.v` from the standards these crates implement; that the crates conform is assumed. For C73 the base64 engine is written in `MBase64.v` from RFC 4648, with the same assumption.
* The memory effect of `clear`/`Drop` beyond the value left in the cleared variable. `MResidue.v` (C89) models which named local variables of five functions hold what when they return; copies made by the compiler and the reuse of memory are not modelled.
* Time and caches. Branches and array indices of the functions on secrets are modelled by `MTrace.v`, whose header says what counts as an event; what a compiler makes of `if c { v } else { w }` on plain values is not modelled. `MCost.v` (C90) counts calls of the expensive operations only.
* `subtle::Choice` is a boolean.
* Allocation (`Box`, `Vec`) always succeeds, except in `MHeap.v`, where the explicit `alloc` of `new_boxed` may return null. `usize` is 64-bit (in `MWidth.v`: any size). `const` evaluation equals run-time evaluation.
* `derive`d `Clone`, `Copy` implementations; width and precision flags of formatting; the `expecting` messages of the two serde visitors (src/lib.rs:355-358, 383-387); `#[cfg(test)]` code.

## 4. Findings (code vs. expected property)

Each is a kernel-checked `_refuted` theorem with a witness, next to the strongest statement that does hold.

| # | finding | theorem | true version |
|---|---------|---------|--------------|
| 1 | `Scalar::is_high` treats (n-1)/2 as high, so `normalize_s` moves it to (n+1)/2, and is not idempotent there | `C19_normalize_low_refuted`, `C20_normalize_idempotent_refuted` | `C19_normalize_low`, `C20_normalize_idempotent` |
| 2 | consequently `sign` can return the high value s = (n+1)/2; in release builds it can return r = 0 | `C28_low_s_refuted`, `C28_nonzero_r_refuted` | `C28_low_s` |
| 3 | strict DER: when an INTEGER overflows, its content is not skipped and is parsed again as the next element | `C14_der_strict_refuted`, `C15_der_tiles_refuted` | `C14_der_strict`, `C15_der_tiles` |
| 4 | DER of a signature with s = 0 is refused by both parsers (`peek_slice(0)` at the end of input) | `C13_parse_serialize_der_refuted` | `C13_parse_serialize_der` |
| 5 | `{:x}` of a secret key prints words least significant first | `C18_lower_hex_refuted` | `C18_lower_hex_exact` |
| 6 | `SecretKey::try_from(Scalar)` accepts the limbs of n (a key congruent to 0) | `C41_try_from_refuted` | `C41_try_from_canonical` |
| 7 | `sign_raw` panics in debug builds iff the nonce point has x >= n, so the builds disagree | `C31_builds_agree_refuted` | `C31_debug_release` |
| 8 | `sign` with a cleared key and the zero message loops forever | - | `C30_zero_key_diverges` |
| 9 | a cleared secret key gives the point at infinity as public key; serializing it panics in debug builds | - | `C06_infinity_panics` |
| 10 | the limbs of `GEN_INITIAL` exceed the bound `Field::verify` uses for their flagged magnitude (harmless: no use site checks it before renormalising) | - | `C54_gen_initial` |
| 11 | `ecmult_wnaf` with w = 31 overflows an `i32` in debug builds | `C55_wnaf_31_refuted` | `C55_wnaf` |
| 12 | `add_ge` with an infinite affine operand: panic in debug, wrong sum in release (documented precondition) | `C49_add_ge_infinity_refuted` | `C49_add_ge` |
| 13 | `add_ge` evaluates `m.normalizes_to_zero() && rr.normalizes_to_zero()` with a short-circuit, so Diffie-Hellman branches on the secret: for exactly three secret scalars, whatever the peer's point, its control flow differs from that of all others | `C59_ecdh_refuted` | `C59_ecdh`, `C59_generator` |
| 14 | `SecretKey::try_from` (and the public scalar fields) let unreduced scalars in: the key n has the point at infinity as public key | `C68_finite_key_refuted` | `C68_from_secret_key` |
| 15 | `verify` accepts s + n in place of s (a second encoding of the same signature), and for r >= p panics in debug builds but compares r mod p in release builds; `recover` likewise | `C68_canonical_refuted`, `C68_builds_agree_refuted` | `C68_verify`, `C68_verify_residues`, `C68_verify_r_ge_p`, `C68_recover_r_ge_p`, `C68_recover_release` |
| 16 | Diffie-Hellman with an unreduced secret d: panic in debug, the multiple d - 2^256 in release, so the two sides disagree; 2^256 - 2 and 2^256 - 1 give the multiples 29 and 30 (a digit misses the table and a stale entry is added) | `C68_ecdh_symmetric_refuted` | `C68_ecdh_debug`, `C68_ecdh_release`, `C68_ecdh_edge` |
| 17 | adding two unreduced scalars can lose 2^256 (the single conditional subtraction of n) | `C68_tweak_add_refuted` | `C68_tweak_add` |
| 18 | tweaking by n succeeds and leaves the zero secret key / the public key at infinity; other unreduced tweaks of a public key panic in debug, are right in release | `C68_tweak_mul_finite_refuted` | `C68_tweak_mul`, `C68_public_tweak_mul`, `C68_public_tweak_add` |
| 19 | `normalize_s` of s > n gives a high s of another residue | - | `C68_normalize_s` |
| 20 | `Decoder::skip` with an argument near 2^64 wraps around in release builds and moves backwards (debug builds panic) | `C71_decoder_calls_refuted` | `C71_decoder_calls` |
| 21 | `Field::set_int` with an argument of 2^26 or more: panic in debug, in release an element flagged normalized whose encoding loses bits (never called so by the library) | `C72_field_int_refuted` | `C72_field_int` |
| 22 | `new_boxed` of both contexts does not check the pointer returned by `alloc`: when memory is exhausted it builds a `Box` from null (undefined behaviour) | `C74_contexts_refuted` | `C74_contexts` |
| 23 | `set_table_gej_var` of empty slices computes `r.len() - 1`: panic in debug, no effect in release | `C74_empty_table_refuted` | `C74_tables` |
| 24 | `Ord` and `PartialEq` of `Field` disagree on elements that are not normalized: in release builds 0 == p but 0 < p (debug builds panic in `cmp`) | `C75_field_order_refuted` | `C75_field_order` |
| 25 | derived equality of `Affine` compares the unused coordinates of points at infinity: two infinities can be unequal | `C75_infinity_refuted` | `C07_equality` (finite points) |
| 26 | `normalize_s` takes no recovery id: after it changes a signature, the id returned by `sign`-like callers recovers another key or nothing | - | `C79_normalize_id`, `C79_recover_flip` |
| 27 | `{:?}` of a `SecretKey` writes the whole key | `C81_secret` (the key is rebuilt from the text) | - |
| 28 | equal public keys can have different `{:?}` texts (the compressed parser leaves y negated and unnormalised) | `C81_public_refuted` | `C81_forms` (the texts agree iff y is a square) |
| 29 | a nonce and its negative give different signatures when s is next to n/2 (the bound used by `is_high` is off by one) | `C82_negated_nonce_refuted` | `C82_negated_nonce` |
| 30 | `double_nonzero_in_place` asserts that its receiver, not its argument, is finite: an infinite argument passes, and a finite one panics in debug builds when the receiver is infinity | `C83_double_nonzero_refuted` | `C83_double_nonzero` |
| 31 | a cleared secret key is accepted by `PublicKey::from_secret_key`; in release builds the key returned accepts every signature with nonzero r and s on every message, and tweaks, key agreement and `combine` with it return Ok with constants or points off the curve | `C84_verify_sound_refuted` | `C84_verify`, `C84_tweak_add`, `C84_tweak_mul`, `C84_ecdh`, `C84_combine`, `C84_combine_with`, `C84_debug_panics` |
| 32 | debug builds panic on values reachable through the API (assertions on infinity and magnitudes), release builds on none | `C86_debug_total_refuted` | `C86_release_total`, `C86_library` |
| 33 | `ECMultGenContext::new_from_raw` takes the table only and sets the blinding and the initial point to constants: the table of a right context (one whose row offsets do not cancel) can give a wrong context | `C88_raw_gen_refuted` | `C88_raw_gen` |
| 34 | `sign_with_context` assigns a default to `nonce` before it returns (a plain store nothing reads) but leaves the encoded secret key in `seckey_b32` and the nonce in `generated`; `ecmult_gen` clears its scalar by a volatile write but leaves `adds`, the last table entry, which tells the top four bits of the blinded nonce (the blinding is a public constant); `ecdh_raw` and `SecretKey::random` clear nothing | `C89_sign_clean_refuted`, `C89_multiplication_clean_refuted` | `C89_sign`, `C89_sign_raw`, `C89_multiplication`, `C89_four_bits`, `C89_ecdh`, `C89_random` |
| 35 | `PublicKey::tweak_add_assign` and `tweak_mul_assign` use the variable-time double multiplication: the number of point operations depends on the tweak, which callers may hold secret (its type is `SecretKey`) | `C90_fixed_tweak_work_refuted` | `C90_public_tweaks`, `C90_double_multiplication` |
| 36 | With uniformly random nonces a signature with s = (n-1)/2 or (n+1)/2 is half as likely as any other (the off-by-one of finding 1 keeps both instead of joining them) | `C91_all_signatures_refuted` | `C91_nonce` |
| 37 | (inherent to ECDSA, and reachable because `Message::parse` takes any 32 bytes) For every key anyone can compute accepted signatures of message values they cannot choose freely, 32 zero bytes among them | `C92_signer_needed_refuted` | `C92_forgery`, `C92_all_forgeries`, `C92_zero_message` |
| 38 | On 32-bit targets in debug builds `Signature::parse_der` panics on inputs above 16 MiB with a length field `84 FF FF FF FF` (`ret + lenleft` at core/src/der.rs:126 overflows; the release build wraps, and refuses the input later); `parse_der_lax` refuses length fields of four or more significant bytes there, which 64-bit targets accept | C93_no_panic_32_refuted, C93_lax_same_refuted; C93_strict, C93_lax and C93_small say exactly what holds |
| 39 | an overflow inside or before a `debug_assert!` can make the assertion pass: with `debug-assertions` but without `overflow-checks`, `Scalar::bits(10, 2^64 - 5)` and a `Field` addition whose lowest word wraps return normally (the build with overflow checks only panics; conversely for serializing the point at infinity) | `C94_kinds_agree_refuted` | `C94_arithmetic`, `C94_reachable` |
| 40 | a key holding coordinate words near 2^32 (which no sequence of calls produces) makes the build with overflow checks panic in `serialize` where the build with assertions only does not | `C95_any_values_refuted` | `C95_overflow_checks`, `C95_programs` |
| 41 | `==` of `Field` negates by the recorded magnitude: `Field::new_raw` records magnitude 1 for any words, so that elements of equal value can compare unequal in a release build (and panic with overflow checks) | `C95_equality_bookkeeping_refuted` | `C95_bookkeeping`, C44 |
| 42 | the limits on magnitudes are checked by debug assertions only: a release build of a program that doubles a field variable seven times ends silently with a wrong residue | `C96_release_silent_refuted` | `C96_field_programs`, `C96_debug_is_right` |
| 43 | that the operand of `add_ge`, `ecmult`, `ecmult_const` and of the conversion to `AffineStorage` is finite is checked by debug assertions only; for `add_ge` it is proved that a release build goes on silently with a wrong point (as in C49, here for programs); what a release build does with infinity in the other three is not stated | `C97_release_silent_refuted` | `C97_point_programs`, `C97_debug_exact` |

## 5. Model validation

* The examples beside the theorems run the model on concrete data (known public keys, DER strings, carries at limb limits).
* `seeded/LOG.jsonl` records mutations of the model (wrong programs) and the theorems that stopped compiling.
* One transcription error in the model (a digit of the constant `SECP256K1_N_H_3`) was found by a failing proof and corrected.

## 6. Build

`cd rocq && coq_makefile -f _CoqProject -o Makefile && make -j4`. `tools/` holds the generators: `gen_primes.py`
(Pocklington certificates), `gen_order.py` and `gen_gentable.py` (point chains used as certificates; the generated `.v`
files are committed), `gen_props.py` (writes `PropApi*.v` from `Api*.v`), `gen_manifest.py`.
