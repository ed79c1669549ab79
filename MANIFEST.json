{
 "claims": [
  {
   "property": "C01",
   "status": "proved",
   "theorems": [
    "C01_seckey_parse",
    "C01_seckey_parse_slice"
   ],
   "note": "Secret key parsing accepts exactly the valid range: proved for all inputs as stated."
  },
  {
   "property": "C02",
   "status": "proved",
   "theorems": [
    "C02_seckey_roundtrip",
    "C02_seckey_parse_serialize",
    "C02_seckey_injective"
   ],
   "note": "Secret key serialization round-trips: proved for all inputs as stated."
  },
  {
   "property": "C03",
   "status": "proved",
   "theorems": [
    "C03_pubkey_parse"
   ],
   "note": "Uncompressed public key parsing accepts exactly curve points: proved for all inputs as stated."
  },
  {
   "property": "C04",
   "status": "proved",
   "theorems": [
    "C04_pubkey_parse_compressed"
   ],
   "note": "Compressed public key parsing decompresses uniquely: proved for all inputs as stated."
  },
  {
   "property": "C05",
   "status": "proved",
   "theorems": [
    "C05_parse_slice"
   ],
   "note": "Public key parse_slice dispatches on length and format: proved for all inputs as stated."
  },
  {
   "property": "C06",
   "status": "proved",
   "theorems": [
    "C06_serialize",
    "C06_roundtrip",
    "C06_parse_serialize",
    "C06_infinity_panics"
   ],
   "note": "Public key serialization round-trips: proved for all inputs as stated."
  },
  {
   "property": "C07",
   "status": "proved",
   "theorems": [
    "C07_equality"
   ],
   "note": "Public key equality means same point: proved for all inputs as stated."
  },
  {
   "property": "C08",
   "status": "proved",
   "theorems": [
    "C08_sig_parse_standard",
    "C08_sig_roundtrip",
    "C08_sig_parse_serialize",
    "C08_sig_slices"
   ],
   "note": "Standard signature parsing accepts exactly r,s < n and round-trips: proved for all inputs as stated."
  },
  {
   "property": "C09",
   "status": "proved",
   "theorems": [
    "C09_sig_parse_overflowing",
    "C09_overflowing_extends_standard"
   ],
   "note": "Overflowing signature parsing reduces modulo n: proved for all inputs as stated."
  },
  {
   "property": "C10",
   "status": "proved",
   "theorems": [
    "C10_message_parse",
    "C10_message_collision",
    "C10_message_slice"
   ],
   "note": "Message parsing reduces modulo n: proved for all inputs as stated."
  },
  {
   "property": "C11",
   "status": "proved",
   "theorems": [
    "C11_recovery_id"
   ],
   "note": "Recovery id parsing: proved for all inputs as stated."
  },
  {
   "property": "C12",
   "status": "proved",
   "theorems": [
    "C12_serialize_der"
   ],
   "note": "DER serialization is the canonical DER encoding: proved for all inputs as stated."
  },
  {
   "property": "C13",
   "status": "proved",
   "theorems": [
    "C13_parse_serialize_der",
    "C13_parse_serialize_der_refuted"
   ],
   "note": "False of the code for s = 0 (refuted with a witness); proved for every signature with s != 0."
  },
  {
   "property": "C14",
   "status": "proved",
   "theorems": [
    "C14_der_strict",
    "C14_der_strict_refuted"
   ],
   "note": "False of the code in general (refuted with a witness: parser confusion on INTEGER overflow); proved whenever r and s are non-zero."
  },
  {
   "property": "C15",
   "status": "proved",
   "theorems": [
    "C15_der_tiles",
    "C15_der_tiles_refuted"
   ],
   "note": "False of the code (refuted: content octets of an overflowing INTEGER are not skipped); proved for accepted inputs with non-zero r and s."
  },
  {
   "property": "C16",
   "status": "proved",
   "theorems": [
    "C16_lax_parses_canonical",
    "C16_lax_agrees"
   ],
   "note": "Lax DER agrees with strict DER: proved for all inputs as stated."
  },
  {
   "property": "C17",
   "status": "proved",
   "theorems": [
    "C17_der_total",
    "C17_pubkey_total"
   ],
   "note": "The 32/33/64/65-byte parsers and the slice parsers return a result by the exact characterisations of C01, C03-C05, C08-C11; C17 adds totality of the DER decoders on any input and of the public key parsers."
  },
  {
   "property": "C18",
   "status": "proved",
   "theorems": [
    "C18_lower_hex_refuted",
    "C18_lower_hex_exact"
   ],
   "note": "False of the code (refuted); the actual output is characterised for every key."
  },
  {
   "property": "C19",
   "status": "proved",
   "theorems": [
    "C19_normalize_low",
    "C19_normalize_low_refuted"
   ],
   "note": "False of the code exactly at s = (n-1)/2 (refuted); proved for every other s."
  },
  {
   "property": "C20",
   "status": "proved",
   "theorems": [
    "C20_normalize_idempotent",
    "C20_normalize_idempotent_refuted"
   ],
   "note": "False of the code exactly at s = (n-1)/2 and (n+1)/2 (refuted); proved for every other s."
  },
  {
   "property": "C21",
   "status": "proved",
   "theorems": [
    "C21_from_secret_key",
    "C21_injective"
   ],
   "note": "Public key derivation is scalar multiplication of the generator: proved for all inputs as stated."
  },
  {
   "property": "C22",
   "status": "proved",
   "theorems": [
    "C22_verify"
   ],
   "note": "verify implements textbook ECDSA verification: proved for all inputs as stated."
  },
  {
   "property": "C23",
   "status": "proved",
   "theorems": [
    "C23_sign_verify",
    "C23_r_zero"
   ],
   "note": "Signatures verify: proved for all inputs as stated."
  },
  {
   "property": "C24",
   "status": "proved",
   "theorems": [
    "C24_sign_recover"
   ],
   "note": "Recovery returns the signer: proved for all inputs as stated."
  },
  {
   "property": "C25",
   "status": "proved",
   "theorems": [
    "C25_recover_exact",
    "C25_recovered_verifies"
   ],
   "note": "Recovered keys verify: proved for all inputs as stated."
  },
  {
   "property": "C26",
   "status": "proved",
   "theorems": [
    "C26_recovery_complete",
    "C26_distinct_ids"
   ],
   "note": "Recovery is complete: proved for all inputs as stated."
  },
  {
   "property": "C27",
   "status": "proved",
   "theorems": [
    "C27_malleability"
   ],
   "note": "S-malleability: proved for all inputs as stated."
  },
  {
   "property": "C28",
   "status": "proved",
   "theorems": [
    "C28_low_s",
    "C28_low_s_refuted",
    "C28_nonzero_r_refuted"
   ],
   "note": "The headline statement is false of the code (two refutations with witnesses); proved: s is in [1, (n+1)/2]."
  },
  {
   "property": "C29",
   "status": "proved",
   "theorems": [
    "C29_first_usable",
    "C29_only_first_usable",
    "C29_deterministic"
   ],
   "note": "Signing is deterministic and uses the first usable nonce: proved for all inputs as stated."
  },
  {
   "property": "C30",
   "status": "proved",
   "theorems": [
    "C30_terminates",
    "C30_usable_exists",
    "C30_zero_key_diverges"
   ],
   "note": "Signing terminates when it should: proved for all inputs as stated."
  },
  {
   "property": "C31",
   "status": "proved",
   "theorems": [
    "C31_debug_release",
    "C31_wrapping_nonces_exist",
    "C31_builds_agree_refuted"
   ],
   "note": "Builds disagree exactly when the nonce point has x >= n; such nonces exist (refutation of unconditional agreement)."
  },
  {
   "property": "C32",
   "status": "proved",
   "theorems": [
    "C32_secret_tweak_add"
   ],
   "note": "Secret tweak-add: proved for all inputs as stated."
  },
  {
   "property": "C33",
   "status": "proved",
   "theorems": [
    "C33_secret_tweak_mul",
    "C33_secret_tweak_mul_zero",
    "C33_secret_inv",
    "C33_secret_tweak_mul_undo"
   ],
   "note": "Secret tweak-mul and inverse: proved for all inputs as stated."
  },
  {
   "property": "C34",
   "status": "proved",
   "theorems": [
    "C34_public_tweak_add",
    "C34_commutes"
   ],
   "note": "Public tweak-add matches secret tweak-add: proved for all inputs as stated."
  },
  {
   "property": "C35",
   "status": "proved",
   "theorems": [
    "C35_public_tweak_mul",
    "C35_commutes"
   ],
   "note": "Public tweak-mul matches secret tweak-mul: proved for all inputs as stated."
  },
  {
   "property": "C36",
   "status": "proved",
   "theorems": [
    "C36_combine",
    "C36_order",
    "C36_grouping",
    "C36_cancel"
   ],
   "note": "combine is the group sum: proved for all inputs as stated."
  },
  {
   "property": "C37",
   "status": "proved",
   "theorems": [
    "C37_ecdh"
   ],
   "note": "ECDH computes the hash of the shared point: proved for all inputs as stated."
  },
  {
   "property": "C38",
   "status": "proved",
   "theorems": [
    "C38_ecdh_symmetric"
   ],
   "note": "ECDH is symmetric: proved for all inputs as stated."
  },
  {
   "property": "C39",
   "status": "proved",
   "theorems": [
    "C39_default",
    "C39_random",
    "C39_random_valid",
    "C39_clear"
   ],
   "note": "Default, random and clear: proved for all inputs as stated."
  },
  {
   "property": "C40",
   "status": "proved",
   "theorems": [
    "C40_reachable_valid",
    "C40_no_panic"
   ],
   "note": "Every reachable key is valid: proved for all inputs as stated."
  },
  {
   "property": "C41",
   "status": "proved",
   "theorems": [
    "C41_try_from_refuted",
    "C41_try_from_canonical"
   ],
   "note": "False of the code (refuted with the limbs of n); proved for canonical scalars."
  },
  {
   "property": "C42",
   "status": "proved",
   "theorems": [
    "C42_try_from_affine",
    "C42_is_valid_var"
   ],
   "note": "TryFrom<Affine> accepts exactly finite curve points: proved for all inputs as stated."
  },
  {
   "property": "C43",
   "status": "proved",
   "theorems": [
    "C43_serde",
    "C43_deserialize_valid"
   ],
   "note": "Serde round trip: proved for all inputs as stated."
  },
  {
   "property": "C44",
   "status": "proved",
   "theorems": [
    "C44_contract",
    "C44_add",
    "C44_neg",
    "C44_mul_int",
    "C44_mul",
    "C44_sqr",
    "C44_normalize",
    "C44_canonical",
    "C44_zero_test",
    "C44_equality",
    "C44_limits"
   ],
   "note": "Field arithmetic is arithmetic modulo p: proved for all inputs as stated."
  },
  {
   "property": "C45",
   "status": "proved",
   "theorems": [
    "C45_inv",
    "C45_sqrt"
   ],
   "note": "Field inversion and square root: proved for all inputs as stated."
  },
  {
   "property": "C46",
   "status": "proved",
   "theorems": [
    "C46_set_b32",
    "C46_b32",
    "C46_storage",
    "C46_compare"
   ],
   "note": "Field byte and storage codecs: proved for all inputs as stated."
  },
  {
   "property": "C47",
   "status": "proved",
   "theorems": [
    "C47_representation",
    "C47_ring",
    "C47_mul_any",
    "C47_inv",
    "C47_codec"
   ],
   "note": "Scalar arithmetic is arithmetic modulo n: proved for all inputs as stated."
  },
  {
   "property": "C48",
   "status": "proved",
   "theorems": [
    "C48_bits",
    "C48_shr_int",
    "C48_cadd_bit"
   ],
   "note": "Scalar bit access: proved for all inputs as stated."
  },
  {
   "property": "C49",
   "status": "proved",
   "theorems": [
    "C49_double",
    "C49_add",
    "C49_add_ge_var",
    "C49_add_ge",
    "C49_add_ge_infinity_refuted",
    "C49_add_zinv_var"
   ],
   "note": "add_ge with an infinite second operand (excluded by its documentation) is shown to misbehave."
  },
  {
   "property": "C50",
   "status": "proved",
   "theorems": [
    "C50_set_gej",
    "C50_set_gej_var",
    "C50_set_gej_zinv",
    "C50_set_all_gej_var",
    "C50_inv_all_var",
    "C50_set_table_gej_var",
    "C50_globalz_set_table_gej"
   ],
   "note": "Coordinate conversion: proved for all inputs as stated."
  },
  {
   "property": "C51",
   "status": "proved",
   "theorems": [
    "C51_ecmult"
   ],
   "note": "Double-scalar multiplication: proved for all inputs as stated."
  },
  {
   "property": "C52",
   "status": "proved",
   "theorems": [
    "C52_ecmult_const"
   ],
   "note": "Constant-time scalar multiplication: proved for all inputs as stated."
  },
  {
   "property": "C53",
   "status": "proved",
   "theorems": [
    "C53_ecmult_gen",
    "C53_reblind"
   ],
   "note": "Generator multiplication is independent of blinding: proved for all inputs as stated."
  },
  {
   "property": "C54",
   "status": "proved",
   "theorems": [
    "C54_contexts",
    "C54_gen_initial",
    "C54_odd_multiples"
   ],
   "note": "Context construction: proved for all inputs as stated."
  },
  {
   "property": "C55",
   "status": "proved",
   "theorems": [
    "C55_wnaf",
    "C55_wnaf_31_refuted",
    "C55_wnaf_const"
   ],
   "note": "Width 31 overflows in debug builds (refuted); proved for widths 2..30 in both builds and width 31 in release builds, and for the constant-time recoding."
  },
  {
   "property": "C56",
   "status": "proved",
   "theorems": [
    "C56_primes",
    "C56_abelian_group",
    "C56_cyclic",
    "C56_scalar_action"
   ],
   "note": "secp256k1 is a group of prime order n: proved for all inputs as stated."
  },
  {
   "property": "C57",
   "status": "proved",
   "theorems": [
    "C57_message_binding",
    "C57_key_binding"
   ],
   "note": "Signature is bound to message and key: proved for all inputs as stated."
  },
  {
   "property": "C58",
   "status": "proved",
   "theorems": [
    "C58_affine_neg",
    "C58_jacobian_neg",
    "C58_storage"
   ],
   "note": "Affine negation and storage: proved for all inputs as stated."
  },
  {
   "property": "C59",
   "status": "proved",
   "theorems": [
    "C59_erasure",
    "C59_ecdh",
    "C59_ecdh_refuted",
    "C59_generator",
    "C59_sign"
   ],
   "note": "About branches and array indices recorded by the trace model (MTrace.v), not time. The absolute version is refuted; the exact dependence is proved."
  },
  {
   "property": "C60",
   "status": "proved",
   "theorems": [
    "C60_sequential",
    "C60_alone",
    "C60_once",
    "C60_no_deadlock"
   ],
   "note": "About the transition system of MConc.v, which takes the contract of lazy_static (external code) as given."
  },
  {
   "property": "C61",
   "status": "proved",
   "theorems": [
    "C61_set_xquad",
    "C61_set_xo_var"
   ],
   "note": "Lifting an x coordinate: proved for all inputs as stated."
  },
  {
   "property": "C62",
   "status": "proved",
   "theorems": [
    "C62_eq_x_var",
    "C62_has_quad_y_var",
    "C62_rescale",
    "C62_double_nonzero"
   ],
   "note": "Projective predicates do not depend on the representative: proved for all inputs as stated."
  },
  {
   "property": "C63",
   "status": "proved",
   "theorems": [
    "C63_equal_keys"
   ],
   "note": "Equal keys are interchangeable: proved for all inputs as stated."
  },
  {
   "property": "C64",
   "status": "proved",
   "theorems": [
    "C64_add_add",
    "C64_mul_mul",
    "C64_undo"
   ],
   "note": "Tweaks compose and can be undone: proved for all inputs as stated."
  },
  {
   "property": "C65",
   "status": "proved",
   "theorems": [
    "C65_pipeline"
   ],
   "note": "End-to-end signing over the wire: proved for all inputs as stated."
  },
  {
   "property": "C66",
   "status": "proved",
   "theorems": [
    "C66_public_key",
    "C66_secret_key",
    "C66_signature",
    "C66_points",
    "C66_arithmetic"
   ],
   "note": "Whatever a debug build returns, a release build returns: proved for all inputs as stated."
  },
  {
   "property": "C67",
   "status": "proved",
   "theorems": [
    "C67_static_verify_context",
    "C67_static_gen_context",
    "C67_text_round_trip"
   ],
   "note": "Compiled-in tables equal the run-time tables: proved for all inputs as stated."
  },
  {
   "property": "C68",
   "status": "proved",
   "theorems": [
    "C68_ecdh_edge",
    "C68_recover_release",
    "C68_from_secret_key",
    "C68_finite_key_refuted",
    "C68_sign",
    "C68_verify",
    "C68_verify_residues",
    "C68_canonical_refuted",
    "C68_verify_r_ge_p",
    "C68_builds_agree_refuted",
    "C68_recover",
    "C68_recover_r_ge_p",
    "C68_ecdh_debug",
    "C68_ecdh_release",
    "C68_ecdh_symmetric_refuted",
    "C68_tweak_add",
    "C68_tweak_add_refuted",
    "C68_tweak_mul",
    "C68_normalize_s",
    "C68_public_tweak_add",
    "C68_public_tweak_mul",
    "C68_tweak_mul_finite_refuted"
   ],
   "note": "Exact effect on every integer below 2^256. Refutations record where residues are not respected."
  },
  {
   "property": "C69",
   "status": "proved",
   "theorems": [
    "C69_candidates",
    "C69_sign_rfc6979",
    "C69_rfc6979_signs",
    "C69_hmac_sha256",
    "C69_vectors",
    "C69_sha256_fips",
    "C69_hmac_rfc2104"
   ],
   "note": "The generator crate is outside /repo and is modelled from the standards it implements (MDrbg.v); the theorems hold for every keyed hash with 32-byte output."
  },
  {
   "property": "C70",
   "status": "proved",
   "theorems": [
    "C70_lax_grammar",
    "C70_strict_grammar",
    "C70_strict_is_lax",
    "C70_lax_trailing",
    "C70_refused"
   ],
   "note": "The two DER parsers accept exactly known sets of byte strings: proved for all inputs as stated."
  },
  {
   "property": "C71",
   "status": "proved",
   "theorems": [
    "C71_decoder_calls",
    "C71_decoder_calls_refuted",
    "C71_parse_der",
    "C71_parse_der_lax",
    "C71_signature_array",
    "C71_array_size"
   ],
   "note": "Arrays shorter than 2^55 bytes (more than a machine can address), arguments up to isize::MAX; a refutation records the wrap-around beyond."
  },
  {
   "property": "C72",
   "status": "proved",
   "theorems": [
    "C72_scalar_predicates",
    "C72_cadd_bit",
    "C72_scalar_int",
    "C72_field_int",
    "C72_field_int_refuted",
    "C72_field_words",
    "C72_point_new",
    "C72_cmov",
    "C72_clear",
    "C72_infinity",
    "C72_error_texts"
   ],
   "note": "Predicates, constructors, conditional moves and clearing of the core types: proved for all inputs as stated."
  },
  {
   "property": "C73",
   "status": "proved",
   "theorems": [
    "C73_base64",
    "C73_one_to_one",
    "C73_serialize",
    "C73_deserialize_text",
    "C73_text_errors",
    "C73_deserialize_binary",
    "C73_four_strings"
   ],
   "note": "Serialized public keys: exactly which texts and byte strings stand for which point: proved for all inputs as stated."
  },
  {
   "property": "C74",
   "status": "proved",
   "theorems": [
    "C74_contexts",
    "C74_contexts_refuted",
    "C74_odd_multiples",
    "C74_uninitialised",
    "C74_batch",
    "C74_tables",
    "C74_empty_table_refuted"
   ],
   "note": "The null pointer of a failed allocation is not checked (refuted); proved for every successful allocation. Empty slices: the builds disagree (refuted)."
  },
  {
   "property": "C75",
   "status": "proved",
   "theorems": [
    "C75_secret_message",
    "C75_signature",
    "C75_parsed",
    "C75_public_secret",
    "C75_field_order",
    "C75_field_order_refuted",
    "C75_infinity_refuted",
    "C75_stored"
   ],
   "note": "Proved for every type; refutations record unnormalized field elements and points at infinity."
  },
  {
   "property": "C76",
   "status": "proved",
   "theorems": [
    "C76_verify",
    "C76_verify_der",
    "C76_recover",
    "C76_public",
    "C76_ecdh",
    "C76_public_tweaks",
    "C76_secret_tweaks",
    "C76_combine"
   ],
   "note": "The library as functions on byte strings: proved for all inputs as stated."
  },
  {
   "property": "C77",
   "status": "proved",
   "theorems": [
    "C77_derive",
    "C77_formats",
    "C77_agreement",
    "C77_sign_verify"
   ],
   "note": "Laws between parties who exchange byte strings: proved for all inputs as stated."
  },
  {
   "property": "C78",
   "status": "proved",
   "theorems": [
    "C78_simulation",
    "C78_determined",
    "C78_complete",
    "C78_same_observations",
    "C78_debug",
    "C78_library"
   ],
   "note": "Whole programs: the API refines a machine on integers and points: proved for all inputs as stated."
  },
  {
   "property": "C79",
   "status": "proved",
   "theorems": [
    "C79_s_unique",
    "C79_low_s_unique",
    "C79_recover_flip",
    "C79_normalize_id"
   ],
   "note": "What else is accepted once a signature is, and which recovery id goes with it: proved for all inputs as stated."
  },
  {
   "property": "C80",
   "status": "proved",
   "theorems": [
    "C80_combine_secrets",
    "C80_tweak_combine",
    "C80_combine_copies",
    "C80_ecdh_factor",
    "C80_ecdh_unblind",
    "C80_distributes",
    "C80_derived_signature"
   ],
   "note": "Laws between tweaking, combining, Diffie-Hellman and signing: proved for all inputs as stated."
  },
  {
   "property": "C81",
   "status": "proved",
   "theorems": [
    "C81_secret",
    "C81_text_equal",
    "C81_public",
    "C81_forms",
    "C81_public_refuted",
    "C81_shape",
    "C81_numbers",
    "C81_decimal",
    "C81_alternate_trees",
    "C81_alternate",
    "C81_alternate_numbers",
    "C81_alternate_secret",
    "C81_alternate_layout"
   ],
   "note": "What the {:?} text of a value discloses, and when two texts are equal: proved for all inputs as stated."
  },
  {
   "property": "C82",
   "status": "proved",
   "theorems": [
    "C82_any_integers",
    "C82_negated_nonce",
    "C82_negated_nonce_refuted",
    "C82_key_or_nonce",
    "C82_same_r",
    "C82_reused_nonce"
   ],
   "note": "Signing with a given nonce: what is accepted, and what a signature discloses: proved for all inputs as stated."
  },
  {
   "property": "C83",
   "status": "proved",
   "theorems": [
    "C83_double",
    "C83_add_var",
    "C83_add_ge_var",
    "C83_add_zinv_var",
    "C83_valid",
    "C83_ratio_infinite",
    "C83_double_nonzero",
    "C83_double_nonzero_refuted"
   ],
   "note": "In-place point operations: what the old receiver leaves behind, and the ratio handed back: proved for all inputs as stated."
  },
  {
   "property": "C84",
   "status": "proved",
   "theorems": [
    "C84_secret",
    "C84_secret_ecdh",
    "C84_public",
    "C84_recover",
    "C84_debug_panics",
    "C84_verify",
    "C84_verify_sound_refuted",
    "C84_tweak_add",
    "C84_tweak_mul",
    "C84_ecdh",
    "C84_serialize",
    "C84_combine",
    "C84_combine_with"
   ],
   "note": "Use after clear: the zero secret key, and the public key at infinity derived from it, in every API function: proved for all inputs as stated."
  },
  {
   "property": "C85",
   "status": "proved",
   "theorems": [
    "C85_simulation",
    "C85_determined",
    "C85_complete",
    "C85_same_observations",
    "C85_debug",
    "C85_without_clear",
    "C85_forgets",
    "C85_library"
   ],
   "note": "Whole programs that clear keys and use the conversions and public fields: proved for all inputs as stated."
  },
  {
   "property": "C86",
   "status": "proved",
   "theorems": [
    "C86_release_total",
    "C86_debug_total_refuted",
    "C86_library",
    "C86_multiplication",
    "C86_field",
    "C86_group"
   ],
   "note": "Release builds never panic, whatever the values: proved for all inputs as stated."
  },
  {
   "property": "C87",
   "status": "proved",
   "theorems": [
    "C87_every_key",
    "C87_compressed",
    "C87_full",
    "C87_accepted",
    "C87_reached",
    "C87_some_hash",
    "C87_random"
   ],
   "note": "Every key comes from one secret, every accepted signature from one nonce: proved for all inputs as stated."
  },
  {
   "property": "C88",
   "status": "proved",
   "theorems": [
    "C88_tweak_entry",
    "C88_verify_detect",
    "C88_verify_table",
    "C88_gen_value",
    "C88_gen_table",
    "C88_raw_verify",
    "C88_raw_gen",
    "C88_raw_gen_refuted",
    "C88_other_generator",
    "C88_scaled_table"
   ],
   "note": "A precomputed table is right exactly when the keys computed with it are: proved for all inputs as stated."
  },
  {
   "property": "C89",
   "status": "proved",
   "theorems": [
    "C89_same_results",
    "C89_multiplication",
    "C89_four_bits",
    "C89_multiplication_clean_refuted",
    "C89_sign_raw",
    "C89_sign_raw_clean",
    "C89_sign",
    "C89_sign_clean_refuted",
    "C89_ecdh",
    "C89_random"
   ],
   "note": "What signing and key agreement leave in their local variables: proved for all inputs as stated."
  },
  {
   "property": "C90",
   "status": "proved",
   "theorems": [
    "C90_same_results",
    "C90_double_multiplication",
    "C90_verify",
    "C90_recover",
    "C90_public_tweaks",
    "C90_combine",
    "C90_secrets",
    "C90_sign",
    "C90_attained",
    "C90_fixed_tweak_work_refuted"
   ],
   "note": "Bounded work, and fixed work where secrets are involved: proved for all inputs as stated."
  },
  {
   "property": "C91",
   "status": "proved",
   "theorems": [
    "C91_random",
    "C91_nonce",
    "C91_all_signatures_refuted",
    "C91_message",
    "C91_secret_tweaks",
    "C91_public_tweaks",
    "C91_shared"
   ],
   "note": "Uniform randomness in, uniform keys, nonces and secrets out: proved for all inputs as stated."
  },
  {
   "property": "C92",
   "status": "proved",
   "theorems": [
    "C92_forgery",
    "C92_all_forgeries",
    "C92_signer_needed_refuted",
    "C92_zero_message",
    "C92_added_tweak",
    "C92_multiplied_tweak"
   ],
   "note": "What an accepted signature does not prove, and signatures under related keys: proved for all inputs as stated."
  },
  {
   "property": "C93",
   "status": "proved",
   "theorems": [
    "C93_width_64",
    "C93_strict",
    "C93_strict_panics",
    "C93_no_panic_32_refuted",
    "C93_lax",
    "C93_lax_same_refuted",
    "C93_small"
   ],
   "note": "Same results on 32-bit and 64-bit targets: proved for all inputs as stated."
  },
  {
   "property": "C94",
   "status": "proved",
   "theorems": [
    "C94_public_key",
    "C94_secret_key",
    "C94_signature",
    "C94_points",
    "C94_arithmetic",
    "C94_kinds_agree_refuted",
    "C94_sign_raw",
    "C94_sign",
    "C94_reachable"
   ],
   "note": "All four build configurations: proved for all inputs as stated."
  },
  {
   "property": "C95",
   "status": "proved",
   "theorems": [
    "C95_programs",
    "C95_overflow_checks",
    "C95_any_values_refuted",
    "C95_library",
    "C95_multiplication",
    "C95_bookkeeping",
    "C95_equality_bookkeeping_refuted"
   ],
   "note": "Overflow checks never change a program: proved for all inputs as stated."
  },
  {
   "property": "C96",
   "status": "proved",
   "theorems": [
    "C96_field_programs",
    "C96_debug_is_right",
    "C96_release_silent_refuted",
    "C96_same_bytes",
    "C96_scalar_programs"
   ],
   "note": "Programs of field and scalar operators: proved for all inputs as stated."
  },
  {
   "property": "C97",
   "status": "proved",
   "theorems": [
    "C97_point_programs",
    "C97_unconditional",
    "C97_multipliers",
    "C97_debug_exact",
    "C97_release_silent_refuted",
    "C97_same_bytes",
    "C97_own_code"
   ],
   "note": "Programs of point operations: proved for all inputs as stated."
  }
 ]
}