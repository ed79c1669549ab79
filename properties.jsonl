{"id": "C01", "title": "Secret key parsing accepts exactly the valid range", "statement": "SecretKey::parse on 32 bytes returns Ok iff the big-endian integer d they encode satisfies 1 <= d <= n-1, and then the key denotes exactly d; otherwise it returns Err(InvalidSecretKey). parse_slice returns Err(InvalidInputLength) iff the length is not 32 and otherwise agrees with parse.", "quantifier": "every byte string of every length", "why_tests_cant": "2^256 inputs; the boundary cases around n and the carry chains of the 8-limb comparison cannot be enumerated", "anchors": ["src/lib.rs: SecretKey::parse, SecretKey::parse_slice", "core/src/scalar.rs: Scalar::set_b32, check_overflow, reduce"]}
{"id": "C02", "title": "Secret key serialization round-trips", "statement": "For every valid secret key k, SecretKey::parse(&k.serialize()) is Ok(k); and for every 32-byte b with parse(b)=Ok(k), k.serialize()=b. Hence serialization is injective.", "quantifier": "every secret key and every accepted byte string", "why_tests_cant": "ranges over ~2^256 keys", "anchors": ["src/lib.rs: SecretKey::serialize, SecretKey::parse", "core/src/scalar.rs: Scalar::fill_b32, b32"]}
{"id": "C03", "title": "Uncompressed public key parsing accepts exactly curve points", "statement": "PublicKey::parse on 65 bytes returns Ok iff the tag is 4, 6 or 7, both coordinates are < p, y^2 = x^3+7 (mod p), and for tags 6/7 the parity of y is even/odd respectively; the key then denotes the point (x,y). Otherwise Err(InvalidPublicKey).", "quantifier": "every 65-byte string", "why_tests_cant": "invalid-curve acceptance for even one of 2^520 inputs would be an attack; tests sample", "anchors": ["src/lib.rs: PublicKey::parse", "core/src/group.rs: Affine::is_valid_var", "core/src/field.rs: Field::set_b32, eq_var"]}
{"id": "C04", "title": "Compressed public key parsing decompresses uniquely", "statement": "PublicKey::parse_compressed on 33 bytes returns Ok iff the tag is 2 or 3, x < p, and x^3+7 is a square mod p; the key then denotes the unique curve point with that x whose y is even (tag 2) / odd (tag 3). Otherwise Err(InvalidPublicKey).", "quantifier": "every 33-byte string", "why_tests_cant": "needs the square-root addition chain to be right for every residue and non-residue", "anchors": ["src/lib.rs: PublicKey::parse_compressed", "core/src/group.rs: set_xo_var, set_xquad", "core/src/field.rs: sqrt"]}
{"id": "C05", "title": "Public key parse_slice dispatches on length and format", "statement": "parse_slice with format None accepts 33, 64 and 65 byte inputs as compressed, raw, full; with an explicit format it accepts only the matching length; every other combination is Err(InvalidInputLength); a raw 64-byte input behaves as the same input with tag 4 prepended.", "quantifier": "every byte string and every format argument", "why_tests_cant": "all lengths and contents", "anchors": ["src/lib.rs: PublicKey::parse_slice"]}
{"id": "C06", "title": "Public key serialization round-trips", "statement": "For every valid public key K (however obtained, whatever its internal representation): parse(serialize(K)) is Ok of a key equal to K, parse_compressed(serialize_compressed(K)) likewise; serialize never fails; serialize(parse(b)) = b for tag 4, and serialize_compressed(parse_compressed(b)) = b whenever accepted.", "quantifier": "every valid key in every internal representation (limb carries, magnitudes)", "why_tests_cant": "internal representations are not canonical: 2^500+ representations of each key", "anchors": ["src/lib.rs: PublicKey::serialize, serialize_compressed, parse, parse_compressed", "core/src/field.rs: normalize_var, fill_b32"]}
{"id": "C07", "title": "Public key equality means same point", "statement": "K1 == K2 holds iff the two keys denote the same curve point, iff their serializations coincide, independent of how the keys were produced.", "quantifier": "all pairs of valid keys in all internal representations", "why_tests_cant": "representation-independent equality over redundant limb encodings", "anchors": ["src/lib.rs: PublicKey (derive PartialEq)", "core/src/field.rs: PartialEq for Field, normalizes_to_zero"]}
{"id": "C08", "title": "Standard signature parsing accepts exactly r,s < n and round-trips", "statement": "parse_standard on 64 bytes is Ok iff both halves are < n, with r and s exactly those integers; then serialize gives the input back. Conversely parse_standard(serialize(sig)) = Ok(sig). parse_standard_slice is Err(InvalidInputLength) iff length != 64.", "quantifier": "every byte string; every signature", "why_tests_cant": "2^512 inputs", "anchors": ["src/lib.rs: Signature::parse_standard, parse_standard_slice, serialize"]}
{"id": "C09", "title": "Overflowing signature parsing reduces modulo n", "statement": "parse_overflowing on 64 bytes always succeeds with r and s equal to the halves reduced mod n; it agrees with parse_standard whenever the latter accepts.", "quantifier": "every 64-byte string", "why_tests_cant": "2^512 inputs", "anchors": ["src/lib.rs: Signature::parse_overflowing, parse_overflowing_slice"]}
{"id": "C10", "title": "Message parsing reduces modulo n", "statement": "Message::parse always succeeds and denotes the big-endian integer mod n; serialize gives back that residue; two 32-byte strings parse to the same message iff they are congruent mod n.", "quantifier": "every 32-byte string", "why_tests_cant": "2^256 inputs", "anchors": ["src/lib.rs: Message::parse, parse_slice, serialize"]}
{"id": "C11", "title": "Recovery id parsing", "statement": "RecoveryId::parse accepts exactly 0..3, parse_rpc accepts exactly 27..30 and equals parse(p-27); serialize inverts parse; no input panics.", "quantifier": "every u8", "why_tests_cant": "finite, but stated together with the no-panic claim in both build modes", "anchors": ["src/lib.rs: RecoveryId::parse, parse_rpc, serialize"]}
{"id": "C12", "title": "DER serialization is the canonical DER encoding", "statement": "serialize_der(sig) is 30 L 02 |r| r 02 |s| s with r and s minimal-length big-endian two's complement non-negative integers, total length between 8 and 72 bytes, and never panics.", "quantifier": "every signature", "why_tests_cant": "all 2^512 signatures; lengths vary with leading zeros and top bits", "anchors": ["src/lib.rs: Signature::serialize_der", "core/src/der.rs: SignatureArray"]}
{"id": "C13", "title": "parse_der inverts serialize_der", "statement": "For every signature sig, parse_der(serialize_der(sig)) = Ok(sig). (False of the code when s = 0: peek_slice(0) at end of input errors; proved for s != 0 and refuted for s = 0.)", "quantifier": "every signature", "why_tests_cant": "the failing case is a single value of s among 2^256", "anchors": ["src/lib.rs: parse_der, serialize_der", "core/src/der.rs: Decoder::peek_slice, skip, read_integer"]}
{"id": "C14", "title": "Strict DER is non-malleable", "statement": "If parse_der(b) = Ok(sig) then b = serialize_der(sig). (False of the code: parser confusion when an INTEGER overflows, and non-canonical zero cases; proved whenever r and s are both non-zero.)", "quantifier": "every byte string", "why_tests_cant": "needs a claim about all accepted byte strings", "anchors": ["src/lib.rs: parse_der", "core/src/der.rs: read_integer, read_len"]}
{"id": "C15", "title": "Strict DER never misreads where an INTEGER ends", "statement": "If parse_der accepts b then b is a SEQUENCE of exactly two INTEGERs whose content spans tile the sequence. (False of the code: on overflow the decoder does not skip the content octets; refuted with a witness.)", "quantifier": "every byte string", "why_tests_cant": "adversarial encodings not in the test corpus", "anchors": ["core/src/der.rs: Decoder::read_integer"]}
{"id": "C16", "title": "Lax DER agrees with strict DER", "statement": "Whenever parse_der(b) = Ok(sig) with r and s non-zero, parse_der_lax(b) = Ok(sig) as well; parse_der_lax(serialize_der(sig)) = Ok(sig) for every sig with s != 0.", "quantifier": "every byte string", "why_tests_cant": "two independent parsers over all inputs", "anchors": ["src/lib.rs: parse_der, parse_der_lax", "core/src/der.rs: read_integer_lax, read_len_lax, read_seq_len_lax"]}
{"id": "C17", "title": "Parsers are total", "statement": "No parsing function (secret key, public key, signature standard/overflowing/DER/lax DER, message, recovery id) panics on any input of any length (< 2^55 bytes on a 64-bit target), in debug or release builds; each returns Ok or Err.", "quantifier": "every byte string, both build modes", "why_tests_cant": "absence of panics over unbounded inputs", "anchors": ["src/lib.rs: all parse functions", "core/src/der.rs: Decoder"]}
{"id": "C18", "title": "Hex formatting of a secret key", "statement": "format!(\"{:x}\", sk) is the hexadecimal form of sk.serialize(). (False of the code: the limbs are printed least significant first; refuted, and the actual output characterised.)", "quantifier": "every secret key", "why_tests_cant": "palindromic test keys hide it", "anchors": ["core/src/scalar.rs: LowerHex for Scalar", "src/lib.rs: LowerHex for SecretKey"]}
{"id": "C19", "title": "normalize_s produces a low S", "statement": "After normalize_s the s value is <= (n-1)/2 and is either the old s or n - s. (False of the code at exactly s = (n-1)/2, which is moved to (n+1)/2; refuted there, proved for every other s.)", "quantifier": "every signature", "why_tests_cant": "one failing value in 2^256", "anchors": ["src/lib.rs: Signature::normalize_s", "core/src/scalar.rs: Scalar::is_high"]}
{"id": "C20", "title": "normalize_s is idempotent", "statement": "normalize_s applied twice equals normalize_s applied once. (False of the code exactly for s = (n-1)/2 and s = (n+1)/2.)", "quantifier": "every signature", "why_tests_cant": "two failing values in 2^256", "anchors": ["src/lib.rs: Signature::normalize_s", "core/src/scalar.rs: Scalar::is_high"]}
{"id": "C21", "title": "Public key derivation is scalar multiplication of the generator", "statement": "PublicKey::from_secret_key(d) denotes d*G for every valid secret key d, with any correct generator context; it is injective on valid secret keys and never the point at infinity.", "quantifier": "every secret key, every correct context (any blinding)", "why_tests_cant": "2^256 keys; exceptional cases of addition formulas are unreachable by sampling", "anchors": ["src/lib.rs: PublicKey::from_secret_key_with_context", "core/src/ecmult.rs: ecmult_gen", "core/src/group.rs: add_ge_in_place, set_gej"]}
{"id": "C22", "title": "verify implements textbook ECDSA verification", "statement": "verify(m,(r,s),Q) is true iff r,s are in [1,n-1], R = (m/s)G + (r/s)Q is not infinity, and x(R) mod n = r.", "quantifier": "every message, signature and public key", "why_tests_cant": "includes wrap-around case x(R) in [n,p) which has probability 2^-128", "anchors": ["src/lib.rs: verify", "core/src/ecdsa.rs: verify_raw", "core/src/ecmult.rs: ecmult", "core/src/group.rs: eq_x_var"]}
{"id": "C23", "title": "Signatures verify", "statement": "For every secret key d and message m, any signature returned by sign(m,d) is accepted by verify(m, sig, from_secret_key(d)) whenever its r is non-zero; sign returns r = 0 only if the nonce point has x = n.", "quantifier": "every key, every message, every nonce generator output stream", "why_tests_cant": "all keys/messages/nonces", "anchors": ["src/lib.rs: sign_with_context, verify", "core/src/ecdsa.rs: sign_raw, verify_raw"]}
{"id": "C24", "title": "Recovery returns the signer", "statement": "For (sig, recid) = sign(m,d) with r non-zero, recover(m,sig,recid) = Ok(from_secret_key(d)).", "quantifier": "every key, message and nonce stream", "why_tests_cant": "recid combines y parity, x overflow and s negation: 2^-128 branches", "anchors": ["src/lib.rs: recover, sign_with_context", "core/src/ecdsa.rs: recover_raw, sign_raw"]}
{"id": "C25", "title": "Recovered keys verify", "statement": "If recover(m,sig,id) = Ok(Q) then Q is a valid public key and verify(m,sig,Q) = true.", "quantifier": "every message, signature and recovery id", "why_tests_cant": "soundness over all inputs", "anchors": ["core/src/ecdsa.rs: recover_raw, verify_raw"]}
{"id": "C26", "title": "Recovery is complete", "statement": "If verify(m,sig,Q) = true then exactly one recovery id in 0..3 makes recover(m,sig,id) return a key equal to Q.", "quantifier": "every message, signature and valid public key", "why_tests_cant": "completeness over all inputs", "anchors": ["core/src/ecdsa.rs: recover_raw, verify_raw"]}
{"id": "C27", "title": "S-malleability", "statement": "verify(m,(r,s),Q) = verify(m,(r,n-s),Q); in particular normalize_s never changes the verdict.", "quantifier": "every message, signature and public key", "why_tests_cant": "all inputs", "anchors": ["core/src/ecdsa.rs: verify_raw", "src/lib.rs: normalize_s"]}
{"id": "C28", "title": "Produced signatures are low-S with non-zero s", "statement": "sign always returns 1 <= r < n and 1 <= s <= (n-1)/2. (False of the code: some nonce gives s = (n+1)/2, and some nonce gives r = 0 in release builds; proved that s is in [1,(n+1)/2].)", "quantifier": "every key, message and nonce", "why_tests_cant": "the failing nonces are sparse", "anchors": ["core/src/ecdsa.rs: sign_raw", "core/src/scalar.rs: is_high"]}
{"id": "C29", "title": "Signing is deterministic and uses the first usable nonce", "statement": "sign depends only on (key, message) through the DRBG stream: it uses the first 32-byte block that is in [1,n-1] and gives s != 0; earlier rejected blocks do not influence the result.", "quantifier": "every key, message and DRBG stream", "why_tests_cant": "unbounded rejection histories", "anchors": ["src/lib.rs: sign_with_context"]}
{"id": "C30", "title": "Signing terminates when it should", "statement": "For every DRBG stream containing one usable nonce sign returns. A cleared (zero) secret key with the zero message never yields a signature, whatever the stream (sign diverges).", "quantifier": "every DRBG stream", "why_tests_cant": "non-termination cannot be tested", "anchors": ["src/lib.rs: sign_with_context", "core/src/ecdsa.rs: sign_raw"]}
{"id": "C31", "title": "Debug and release builds agree", "statement": "sign_raw in a debug build panics exactly when the nonce point has x >= n; otherwise both builds return the same value. Such nonces exist.", "quantifier": "every key, message, nonce; both build modes", "why_tests_cant": "such nonces are known to exist but cannot be found by search", "anchors": ["core/src/ecdsa.rs: sign_raw debug_assert"]}
{"id": "C32", "title": "Secret tweak-add", "statement": "SecretKey::tweak_add_assign(t): if d + t = 0 (mod n) it returns Err(TweakOutOfRange) and leaves the key unchanged; otherwise the key becomes (d + t) mod n, a valid key.", "quantifier": "all keys and tweaks", "why_tests_cant": "2^512 pairs; error at exactly one tweak per key", "anchors": ["src/lib.rs: SecretKey::tweak_add_assign"]}
{"id": "C33", "title": "Secret tweak-mul and inverse", "statement": "SecretKey::tweak_mul_assign(t) makes the key d*t mod n, a valid key; inv gives d^-1 mod n; inv is an involution and tweak_mul by inv undoes tweak_mul.", "quantifier": "all keys and tweaks", "why_tests_cant": "256-step addition chain over all inputs", "anchors": ["src/lib.rs: SecretKey::tweak_mul_assign, inv", "core/src/scalar.rs: inv_in_place, mul_512, reduce_512"]}
{"id": "C34", "title": "Public tweak-add matches secret tweak-add", "statement": "PublicKey::tweak_add_assign(t) turns P into P + tG, or returns Err(TweakOutOfRange) leaving P unchanged iff P + tG is infinity; it commutes with from_secret_key including the error case.", "quantifier": "all keys and tweaks", "why_tests_cant": "exceptional cases P = +-tG", "anchors": ["src/lib.rs: PublicKey::tweak_add_assign_with_context", "core/src/ecmult.rs: ecmult"]}
{"id": "C35", "title": "Public tweak-mul matches secret tweak-mul", "statement": "PublicKey::tweak_mul_assign(t) turns P into tP and commutes with from_secret_key; the result is a valid key; zero tweak is rejected with the key unchanged.", "quantifier": "all keys and tweaks", "why_tests_cant": "all inputs", "anchors": ["src/lib.rs: PublicKey::tweak_mul_assign_with_context", "core/src/ecmult.rs: ecmult"]}
{"id": "C36", "title": "combine is the group sum", "statement": "PublicKey::combine(keys) denotes the sum of the points; Err(InvalidPublicKey) iff the sum is infinity (in particular for the empty list); the result does not depend on the order or grouping of the keys; a key and its negation anywhere in the list cancel.", "quantifier": "every list of valid keys of every length and order", "why_tests_cant": "unbounded lists; intermediate infinity", "anchors": ["src/lib.rs: PublicKey::combine", "core/src/group.rs: add_ge_in_place"]}
{"id": "C37", "title": "ECDH computes the hash of the shared point", "statement": "SharedSecret::new(P,d) = Ok(digest(compressed encoding of d*P)) for every valid P and d; Err(InvalidSecretKey) iff d is zero.", "quantifier": "all keys, any digest", "why_tests_cant": "constant-time ladder with skew corrections over all scalars", "anchors": ["core/src/ecdh.rs: ecdh_raw", "core/src/ecmult.rs: ecmult_const, ecmult_wnaf_const"]}
{"id": "C38", "title": "ECDH is symmetric", "statement": "SharedSecret::new(from_secret_key(a), b) = SharedSecret::new(from_secret_key(b), a) for all valid secret keys a, b, and equals both sides' digest of abG.", "quantifier": "all pairs of keys, any digest", "why_tests_cant": "all pairs", "anchors": ["core/src/ecdh.rs: ecdh_raw", "src/lib.rs: SharedSecret::new_with_context"]}
{"id": "C39", "title": "Default, random and clear", "statement": "SecretKey::default() is the key 1; SecretKey::random returns the first generator block in [1,n-1], and so is always valid; clear makes is_zero true.", "quantifier": "every RNG stream", "why_tests_cant": "unbounded rejection histories", "anchors": ["src/lib.rs: SecretKey::default, random, clear, is_zero"]}
{"id": "C40", "title": "Every reachable key is valid", "statement": "Starting from parsing, derivation, random, default and recovery, any finite sequence of the tweak, inverse, combine operations yields only secret keys in [1,n-1] and public keys that are finite curve points, in an internal representation on which every API call is panic-free.", "quantifier": "every finite history of API calls", "why_tests_cant": "histories are unbounded and interleave representations", "anchors": ["src/lib.rs: SecretKey, PublicKey impls"]}
{"id": "C41", "title": "TryFrom<Scalar> yields valid secret keys", "statement": "SecretKey::try_from(s) is Ok only if s denotes a value in [1,n-1]. (False of the code: Scalar's limbs are public and only zero is rejected, so the limbs of n are accepted; refuted, and proved for canonical scalars.)", "quantifier": "every 8-limb scalar", "why_tests_cant": "type-level invariant not enforced", "anchors": ["src/lib.rs: TryFrom<Scalar> for SecretKey", "core/src/scalar.rs: pub struct Scalar(pub [u32; 8])"]}
{"id": "C42", "title": "TryFrom<Affine> accepts exactly finite curve points", "statement": "PublicKey::try_from(a) is Ok iff a is not infinity and satisfies the curve equation, for every well-formed field representation of its coordinates of magnitude at most 8.", "quantifier": "every affine representation", "why_tests_cant": "redundant representations", "anchors": ["src/lib.rs: TryFrom<Affine> for PublicKey", "core/src/group.rs: is_valid_var"]}
{"id": "C43", "title": "Serde round trip", "statement": "Deserializing the serialized form of any valid public key gives an equal key, for human-readable (base64) and binary formats, for any base64 codec whose decode inverts encode.", "quantifier": "every valid key", "why_tests_cant": "all keys", "anchors": ["src/lib.rs: Serialize/Deserialize for PublicKey"]}
{"id": "C44", "title": "Field arithmetic is arithmetic modulo p", "statement": "For all field representations within the documented magnitude limits, add, neg, mul_int, mul, sqr compute the corresponding operation mod p, stay within the documented output magnitude, and trip no overflow or debug assertion; normalize/normalize_var/normalize_weak preserve the value; normalize yields the unique canonical representation; normalizes_to_zero(_var) decides value = 0. Outside these limits (sum or integer multiple above 32, negation above the stated magnitude or to one above 32, factors above 8) a debug build stops, whatever the limbs.", "quantifier": "every limb vector within magnitude bounds", "why_tests_cant": "10 limbs of up to 30 bits: carry corner cases have probability ~2^-60", "anchors": ["core/src/field.rs: add_assign, neg, mul_int, mul_inner, sqr_inner, normalize*, normalizes_to_zero*"]}
{"id": "C45", "title": "Field inversion and square root", "statement": "inv gives the inverse mod p (0 for 0); sqrt returns a root and true iff the input is a square, otherwise false.", "quantifier": "every field element representation with magnitude <= 8", "why_tests_cant": "all residues", "anchors": ["core/src/field.rs: inv, sqrt, is_quad_var"]}
{"id": "C46", "title": "Field byte and storage codecs", "statement": "set_b32 accepts exactly integers < p and stores them; b32 of a normalized element is its big-endian value; FieldStorage conversion round-trips; comparison of normalized elements is integer comparison.", "quantifier": "all inputs", "why_tests_cant": "bit-slicing across 26-bit limbs", "anchors": ["core/src/field.rs: set_b32, fill_b32, From<FieldStorage>, Into<FieldStorage>, cmp_var"]}
{"id": "C47", "title": "Scalar arithmetic is arithmetic modulo n", "statement": "add, mul, sqr, neg, cond_neg_assign on canonical scalars compute the operation mod n with canonical results and no debug assertion failure; inv computes the inverse mod n (0 for 0).", "quantifier": "all pairs of scalars", "why_tests_cant": "carry corner cases in 512-bit reduction", "anchors": ["core/src/scalar.rs: add_assign, mul_512, sqr_512, reduce_512, cond_neg_assign, inv_in_place"]}
{"id": "C48", "title": "Scalar bit access", "statement": "bits/bits_var return the requested bit window of the integer; shr_int divides by 2^k and returns the remainder; cadd_bit adds 2^bit when it does not overflow.", "quantifier": "all scalars, offsets and widths in the documented range", "why_tests_cant": "all windows", "anchors": ["core/src/scalar.rs: bits, bits_var, shr_int, cadd_bit"]}
{"id": "C49", "title": "Point addition and doubling are complete", "statement": "double_var, add_var, add_ge, add_ge_var, add_zinv_var on any Jacobian/affine representations compute the group law, including equal points, opposite points and infinity (except documented: add_ge's second operand not infinity), and return representations accepted by the next operation.", "quantifier": "all points in all representations", "why_tests_cant": "exceptional cases unreachable by random sampling", "anchors": ["core/src/group.rs: double_var_in_place, add_var_in_place, add_ge_in_place, add_ge_var_in_place, add_zinv_var_in_place"]}
{"id": "C50", "title": "Coordinate conversion", "statement": "Affine::set_gej / set_gej_var / set_gej_zinv, the batch conversions set_all_gej_var, set_table_gej_var, globalz_set_table_gej and batch inversion inv_all_var give the affine form of every input point.", "quantifier": "all points, all batch lengths", "why_tests_cant": "unbounded batches", "anchors": ["core/src/group.rs: set_gej, set_gej_var, set_table_gej_var, globalz_set_table_gej", "core/src/ecmult.rs: set_all_gej_var, inv_all_var"]}
{"id": "C51", "title": "Double-scalar multiplication", "statement": "ECMultContext::ecmult(A, na, ng) = na*A + ng*G for all scalars and all finite points A, including all exceptional intermediate additions.", "quantifier": "all scalars and points", "why_tests_cant": "wNAF with interleaving: all digit patterns", "anchors": ["core/src/ecmult.rs: ecmult, ecmult_wnaf, odd_multiples_table, table_get_ge*"]}
{"id": "C52", "title": "Constant-time scalar multiplication", "statement": "ECMultContext::ecmult_const(A, k) = k*A for all scalars k (including 0, 1, n-1, (n-1)/2) and all finite points A.", "quantifier": "all scalars and points", "why_tests_cant": "skew/flip corner cases are single values", "anchors": ["core/src/ecmult.rs: ecmult_const, ecmult_wnaf_const, table_get_ge_const"]}
{"id": "C53", "title": "Generator multiplication is independent of blinding", "statement": "ecmult_gen(k) = k*G for every blinding pair (blind, initial = -blind*G) and table with the right point values.", "quantifier": "all scalars, all blindings", "why_tests_cant": "blinding shifts the internal scalar: all 2^512 pairs", "anchors": ["core/src/ecmult.rs: ecmult_gen, ECMultGenContext"]}
{"id": "C54", "title": "Context construction", "statement": "ECMultContext::new_boxed stores (2i+1)G at index i for all 16384 entries; ECMultGenContext::new_boxed builds 64x16 entries whose row offsets cancel and GEN_INITIAL = -GEN_BLIND*G; neither panics.", "quantifier": "all table entries", "why_tests_cant": "table content is generated, not checked", "anchors": ["core/src/ecmult.rs: new_boxed, odd_multiples_table_storage_var, GEN_BLIND, GEN_INITIAL"]}
{"id": "C55", "title": "wNAF recodings", "statement": "ecmult_wnaf (any width 2..31) returns digits that are zero or odd, bounded by 2^(w-1), at least w apart, none at or above the returned length, and sum d_i 2^i = scalar mod n; ecmult_wnaf_const returns odd bounded digits with sum d_i 2^(4i) = scalar + skew mod n.", "quantifier": "all scalars, all widths", "why_tests_cant": "all 2^256 scalars", "anchors": ["core/src/ecmult.rs: ecmult_wnaf, ecmult_wnaf_const"]}
{"id": "C56", "title": "secp256k1 is a group of prime order n", "statement": "p and n are prime; the points of y^2=x^3+7 over F_p with the chord-tangent law form an abelian group, cyclic of order n generated by G.", "quantifier": "all points", "why_tests_cant": "mathematical fact behind every ECDSA property above", "anchors": ["core/src/group.rs: AFFINE_G, CURVE_B", "core/src/scalar.rs: SECP256K1_N"]}
{"id": "C57", "title": "Signature is bound to message and key", "statement": "If verify accepts the same (r,s) for the same key on m1 and m2 then m1 = m2 or the two nonce points are opposite (m1 + m2 = -2 r d), or their x coordinates are r and r + n (both on the curve); if it accepts for the same message under Q1 and Q2 then Q1 = Q2 or the pair corresponds to different recovery ids.", "quantifier": "all messages, keys, signatures", "why_tests_cant": "algebraic statement over all inputs", "anchors": ["core/src/ecdsa.rs: verify_raw"]}
{"id": "C58", "title": "Affine negation and storage", "statement": "neg gives -P for every representation; Affine -> AffineStorage -> Affine preserves the point for every finite point.", "quantifier": "all points and representations", "why_tests_cant": "redundant representations", "anchors": ["core/src/group.rs: Affine::neg, Jacobian::neg, From<AffineStorage>, Into<AffineStorage>"]}
{"id": "C59", "title": "Control flow and memory addresses do not depend on secrets", "statement": "The branches taken and the array elements touched by Diffie-Hellman do not depend on the secret scalar, and those of public-key derivation and signing do not depend on the secret key or nonce. (As the code stands: for Diffie-Hellman this fails for exactly three scalars, whatever the peer's point, because the && in the mixed addition is a branch; for the generator multiplication it holds for all scalars that avoid, in each of the 64 windows, at most 48 values of the digits so far; signing adds a branch on s = 0 and one on whether s is high, and a whole signing shows nothing but which draws were too big, zero or gave no signature, and whether s was negated.)", "quantifier": "all secret scalars, public points, contexts, messages and both build modes", "why_tests_cant": "the exceptional scalars are three among about 2^256; timing is not observable in unit tests", "anchors": ["core/src/ecmult.rs: ecmult_gen, ecmult_const, ecmult_wnaf_const, table_get_ge_const", "core/src/group.rs: add_ge, double_nonzero", "core/src/ecdsa.rs: sign_raw", "core/src/ecdh.rs: ecdh_raw"]}
{"id": "C60", "title": "Concurrent use of contexts", "statement": "With lazily initialised contexts, under every schedule of any number of threads each call returns what it returns when made alone, each initialiser runs at most once, a context once ready is valid and never changes, and no schedule leads to a deadlock.", "quantifier": "all numbers of threads, all sequences of calls, all schedules", "why_tests_cant": "there are infinitely many schedules, and a test cannot choose them", "anchors": ["src/lib.rs: ECMULT_CONTEXT, ECMULT_GEN_CONTEXT"]}
{"id": "C61", "title": "Lifting an x coordinate", "statement": "set_xquad accepts x exactly when x^3+7 is a square mod p and then returns the point (x, y) with y itself a square; set_xo_var returns the point with the requested parity of y; both leave the failure case flagged and never panic.", "quantifier": "all normal field elements x, both parities", "why_tests_cant": "half of all x coordinates are off the curve and y has two roots; no finite sample covers the choice of root", "anchors": ["core/src/group.rs: Affine::set_xquad, set_xo_var"]}
{"id": "C62", "title": "Projective predicates do not depend on the representative", "statement": "eq_x_var, has_quad_y_var, rescale and double_nonzero of a Jacobian point give the answer for the affine point it stands for, whatever the Z coordinate.", "quantifier": "all points, all non-zero Z, all admissible limb representations", "why_tests_cant": "every point has p-1 representatives", "anchors": ["core/src/group.rs: Jacobian::eq_x_var, has_quad_y_var, rescale, double_nonzero_in_place"]}
{"id": "C63", "title": "Equal keys are interchangeable", "statement": "If two public keys compare equal, every operation (serialize, verify, ECDH, tweak add/mul, combine) gives the same answer on both.", "quantifier": "all pairs of valid public keys comparing equal, all messages, signatures, tweaks", "why_tests_cant": "equality is on redundant limb representations; interchangeability is a statement about all later uses", "anchors": ["src/lib.rs: PublicKey PartialEq, serialize, tweak_*, combine, verify"]}
{"id": "C64", "title": "Tweaks compose and can be undone", "statement": "Adding tweak a then b is adding a+b; multiplying by a then b is multiplying by ab; adding a tweak and then its negation, or multiplying and then multiplying by the inverse, returns the original key.", "quantifier": "all valid public keys, all tweaks for which the intermediate key is not infinity", "why_tests_cant": "an identity over 2^256 tweaks per key", "anchors": ["src/lib.rs: PublicKey::tweak_add_assign, tweak_mul_assign"]}
{"id": "C65", "title": "End-to-end signing over the wire", "statement": "Parsing key and message bytes, signing (whenever the returned r is non-zero, which debug builds guarantee up to panics and C28 settles for release builds), serializing key and signature in any format, parsing them back on the other side and verifying succeeds, and recovery gives the signer's key.", "quantifier": "all valid secret keys, all messages, all random streams, all serialization formats", "why_tests_cant": "composition of every codec with every algorithm; needs the algebra for all keys", "anchors": ["src/lib.rs: sign, verify, recover, SecretKey::parse, PublicKey::parse*, Signature::parse_*"]}
{"id": "C66", "title": "Whatever a debug build returns, a release build returns", "statement": "For every function and every input (valid or not), if the debug build returns a value then the release build returns the same value: debug checks never change results, they only add panics.", "quantifier": "all functions of the library, all arguments including ill-formed ones", "why_tests_cant": "the two builds are different programs; tests run one of them on some inputs", "anchors": ["core/src/*.rs, src/lib.rs: every debug_assert!, verify() and overflow check"]}
{"id": "C67", "title": "Compiled-in tables equal the run-time tables", "statement": "The verification and signing contexts that a static-context build obtains by including the source text written by its build script are exactly the contexts the library builds at run time, whatever build modes the build script and the library use; the text compiles (array lengths, literal ranges).", "quantifier": "both build modes of the build script and of the library; every table of 32-bit limbs of the declared shape for the text round trip", "why_tests_cant": "16384 + 1024 entries pass through decimal text and a constructor that takes limbs in reverse order; tests run one configuration", "anchors": ["build.rs: main", "gen/ecmult/src/lib.rs: generate_to", "gen/genmult/src/lib.rs: generate_to", "core/src/field.rs: FieldStorage::new", "src/lib.rs: ECMULT_CONTEXT, ECMULT_GEN_CONTEXT"]}
{"id": "C68", "title": "Scalars that are not reduced", "statement": "A caller can build a scalar holding any integer below 2^256, and turn any non-zero one into a secret key or tweak, or put it in a message or signature. Key derivation, signing, verification, recovery, Diffie-Hellman, the tweaks and normalisation then have a definite effect for every such integer: where it is what the integer's residue modulo the group order would give it is stated so; where it is not (a panic in one build, a different point, a sum off by 2^256, a point at infinity) the exact effect and a witness are given.", "quantifier": "all integers below 2^256 in every scalar argument, all keys, both build modes", "why_tests_cant": "the inputs are 2^128 integers out of 2^256, never produced by random generation or by the parsers", "anchors": ["core/src/scalar.rs: Scalar", "src/lib.rs: TryFrom<Scalar> for SecretKey, PublicKey::from_secret_key, tweak_add_assign, tweak_mul_assign, SharedSecret::new, Signature::normalize_s, sign, verify, recover", "core/src/ecmult.rs: ecmult_wnaf, ecmult_wnaf_const", "core/src/ecdsa.rs"]}
{"id": "C69", "title": "Signing is the deterministic ECDSA of RFC 6979", "statement": "The nonce candidates drawn by sign for a parsed key and a parsed 32-byte hash are, one by one, the candidates of RFC 6979 section 3.2 (with the hash reduced modulo the group order); the nonce used is the first one RFC 6979 accepts, and the signature is the one it prescribes, up to replacing s by n - s. In release builds the only exception is a nonce point with x = n. The keyed hash modelled is exactly HMAC of RFC 2104 over the hash FIPS 180-4 defines, for every key and message. Published test vectors are reproduced.", "quantifier": "every key, every 32-byte hash, every keyed hash with 32-byte output in the role of HMAC, any number of refused candidates, both builds", "why_tests_cant": "tests compare against another implementation on random messages; refused candidates are never drawn, and hashes at or above the group order never occur", "anchors": ["src/lib.rs: sign_with_context, Message::parse, SecretKey::parse", "core/src/ecdsa.rs: sign_raw"]}
{"id": "C70", "title": "The two DER parsers accept exactly known sets of byte strings", "statement": "parse_der(b) = Ok((r, s)) if and only if b is a SEQUENCE with one-byte lengths of the DER of two numbers below 2^256, the second not zero, read as themselves below the group order and as 0 otherwise; or the one overlapping form: a second INTEGER whose bytes are also the start of the content of a first one of 33 to 35 bytes, read as r = 0. parse_der_lax(b) = Ok((r, s)) if and only if b is in the lax grammar (unread SEQUENCE length, long lengths with leading zeros, padded contents, anything behind). Every other string gives Err(InvalidSignature). What parse_der accepts has 8 to 72 bytes and is read the same by parse_der_lax; trailing bytes change nothing for parse_der_lax.", "quantifier": "every byte string (below 2^55 bytes for parse_der), both builds", "why_tests_cant": "a grammar is an equivalence over all strings; tests try a handful of accepted and refused ones", "anchors": ["src/lib.rs: Signature::parse_der, Signature::parse_der_lax", "core/src/der.rs: Decoder::read_len, read_integer, read_seq_len_lax, read_len_lax, read_integer_lax, peek_slice, skip"]}
{"id": "C71", "title": "The public decoder and output array are safe under any sequence of calls", "statement": "On a Decoder over any array, any sequence of calls of its methods (with arguments up to isize::MAX), continued also after errors, never panics, never moves the position backwards or past the end; parse_der and parse_der_lax run on it give the same answers as on the unread bytes alone. serialize_der never panics and its SignatureArray holds exactly the encoding, between 8 and 72 bytes. SignatureArray::new(size) is size zero bytes for size up to 72; above, looking at it panics. (With arguments near 2^64 skip moves backwards in release builds: refuted.)", "quantifier": "every array of less than 2^55 bytes (more than a machine can address), every sequence of calls, every signature, both builds", "why_tests_cant": "sequences of calls, and continuing after an error, are unbounded; the arithmetic on positions only matters at extreme values", "anchors": ["core/src/der.rs: Decoder, SignatureArray", "src/lib.rs: Signature::parse_der, Signature::parse_der_lax, Signature::serialize_der"]}
{"id": "C72", "title": "Predicates, constructors, conditional moves and clearing of the core types", "statement": "Scalar is_zero, is_one, is_even, is_high and == answer on the 256-bit value, also when it is not reduced (is_high from (n-1)/2 on); cadd_bit adds the bit, panicking in debug builds exactly when the sum reaches n and wrapping modulo 2^256 otherwise. Scalar::from_int is exact; Field::from_int is a canonical element below 2^26, and above that panics in debug builds (in release builds its encoding loses bits: refuted). Field::new and FieldStorage::new read the words most significant first; Affine::new, set_xy and Jacobian::new denote the point with the given coordinates. cmov moves all of the other value or nothing. clear leaves the same value whatever was there; a cleared or default point is neither a point of the curve nor infinity and is refused as a public key; the infinity constants denote infinity. Different errors have different texts.", "quantifier": "every value of the types (every 256-bit scalar, every u32, every bit position, every flag), both builds", "why_tests_cant": "2^256 values; the boundaries at 2^26 and n are not hit by random tests", "anchors": ["core/src/scalar.rs: is_zero, is_one, is_even, is_high, cadd_bit, from_int, clear", "core/src/field.rs: set_int, from_int, new, cmov, clear, FieldStorage", "core/src/group.rs: Affine, Jacobian, AffineStorage: new, set_xy, cmov, clear, set_infinity, AFFINE_INFINITY, JACOBIAN_INFINITY", "core/src/error.rs: Error"]}
{"id": "C73", "title": "Serialized public keys: exactly which texts and byte strings stand for which point", "statement": "In a human-readable serde format a public key is written as the 88-character RFC 4648 base64 form of its 65-byte SEC1 encoding, in a binary format as those 65 bytes. Reading a text gives the key for (x, y) exactly when the text is the base64 form of one of the four byte strings that name the point (uncompressed, hybrid with the right parity, compressed, or the 64 bytes of the coordinates); each point has exactly four such texts and a text names at most one point. Any other text is refused without a panic, with the error saying whether it is not base64, has a length no key has, or is no point. The same holds for byte strings in binary formats, with the single error InvalidPublicKey.", "quantifier": "every key in every internal representation, every string, every byte string of any length, both builds", "why_tests_cant": "texts are unbounded; non-canonical paddings, stray trailing bits and hybrid tags are not in the test vectors", "anchors": ["src/lib.rs: impl Serialize for PublicKey, PublicKeyStrVisitor::visit_str, PublicKeyBytesVisitor::visit_bytes, impl Deserialize for PublicKey, PublicKey::parse_slice"]}
{"id": "C74", "title": "Context construction is memory safe", "statement": "Building the verification and the signing context in a freshly allocated block never reads a cell that was not written, never indexes out of bounds, never panics, and returns a block all of whose cells (table, blinding, initial point) were written with the right values. A null pointer from the allocator is not checked (refuted). The public batch functions (inverses, conversion to affine, odd multiples, tables with a common z) write every element of their output and compute the right points, for every length; on empty slices the builds disagree (refuted).", "quantifier": "both builds, every table length, every point, every previous content of the output arrays, both outcomes of the allocation", "why_tests_cant": "reading uninitialised memory usually goes unnoticed in a test run; allocation failure cannot be provoked portably; lengths and points are unbounded", "anchors": ["core/src/ecmult.rs: ECMultContext::new_boxed, ECMultGenContext::new_boxed, odd_multiples_table, odd_multiples_table_storage_var, inv_all_var, set_all_gej_var", "core/src/group.rs: set_table_gej_var, globalz_set_table_gej"]}
{"id": "C75", "title": "Equality and order of values agree with their encodings", "statement": "Two secret keys, messages or signatures compare equal exactly if their serialized bytes are equal (signatures: in the 64-byte form for every value, in DER wherever DER can be read back); values read from byte strings compare equal exactly if the byte strings are equal (secret keys, 64-byte signatures, recovery ids in both numberings, digests of shared secrets); the public keys of two secret keys are equal exactly if the secret keys are; stored points are equal exactly if they are the same point; normalized field elements are ordered by value, consistently with equality. For field elements that are not normalized, order and equality contradict each other in release builds, and two affine values for the point at infinity can be unequal (refuted).", "quantifier": "all values of every type (scalars up to 2^256, reduced or not), both builds", "why_tests_cant": "equality of all pairs of 256-bit values cannot be enumerated; unnormalized representations never show up in API-level tests", "anchors": ["src/lib.rs: derive(PartialEq) of SecretKey, Signature, RecoveryId, Message, SharedSecret", "core/src/scalar.rs: derive(PartialEq) of Scalar", "core/src/field.rs: impl PartialEq/Ord/PartialOrd for Field, derive(PartialEq) of FieldStorage", "core/src/group.rs: derive(PartialEq) of Affine, AffineStorage"]}
{"id": "C76", "title": "The library as functions on byte strings", "statement": "Composing the slice parsers, one operation and the serializer gives exactly the standard's function on byte strings, for inputs of any length and content, never a panic: verification (signature as 64 bytes, strict DER or lax DER) answers true for exactly the triples (32-byte hash, signature encoding, one of the byte strings naming a point) that ECDSA accepts; recovery gives the 65 bytes of exactly the designated point; key generation the 65 bytes of d*G; Diffie-Hellman the digest of the 33 bytes of d*P; the tweaks of public and secret keys and the combination of keys the bytes of the respective sum or product.", "quantifier": "all byte strings of all lengths for every argument, both builds, every context described by verify_ctx / gen_ctx", "why_tests_cant": "the accepted set is an infinite set of byte strings; tests sample a handful", "anchors": ["src/lib.rs: Message::parse_slice, Signature::parse_standard_slice, parse_der, parse_der_lax, PublicKey::parse_slice, serialize, SecretKey::parse_slice, verify, recover, from_secret_key, tweak_add_assign, tweak_mul_assign, combine, SharedSecret::new"]}
{"id": "C77", "title": "Laws between parties who exchange byte strings", "statement": "The public key of a tweaked secret key and the tweaked public key are the same 65 bytes or the same error, for all byte strings; results depend only on the point a key names, not on the format it is written in (verification, Diffie-Hellman, tweaks, combination); two parties that exchange public keys in any formats derive the same shared secret; a signature sent as bytes is accepted under the signer's key in any format and its recovery id gives the signer's 65 bytes back (whenever r is not 0, which debug builds guarantee).", "quantifier": "all byte strings, all formats, all pairs of builds and contexts at the two ends, every stream of candidate nonces", "why_tests_cant": "pairs of parties, builds and formats multiply; the error cases meet at a single tweak per key", "anchors": ["src/lib.rs: SecretKey::tweak_add_assign, tweak_mul_assign, PublicKey::tweak_add_assign, tweak_mul_assign, from_secret_key, parse_slice, serialize, SharedSecret::new, sign, verify, recover"]}
{"id": "C78", "title": "Whole programs: the API refines a machine on integers and points", "statement": "Every sequence of API calls (reading and writing keys, signatures, messages and ids in every format; deriving, tweaking in place, inverting, combining, comparing; random and default keys; normalizing; signing, verifying, recovering, Diffie-Hellman), each using any results of the calls before it, has the effect of an abstract machine whose values are points, integers and byte strings and whose steps are the standards' relations, with the error returned by each call. A release build never panics; a debug build panics only when signing meets a nonce whose point has x >= n, and then always; otherwise a run is unfinished only because every block of a random source so far was unusable. The abstract machine is deterministic, so all builds and all correct contexts show the same bytes, booleans and errors; and a release build completes every program the abstract machine completes.", "quantifier": "all programs of any length on any input bytes, both builds, all correct contexts, all digests and nonce sources, and in particular SHA-256 and the HMAC-DRBG with the contexts the library builds", "why_tests_cant": "the sequences of calls and the states between them are infinite", "anchors": ["src/lib.rs: PublicKey, SecretKey, Signature, Message, RecoveryId, SharedSecret, sign_with_context, verify_with_context, recover_with_context"]}
{"id": "C79", "title": "What else is accepted once a signature is, and which recovery id goes with it", "statement": "Two signatures with the same r that verify accepts for one message under one key have the same s up to negation modulo n, unless both r and r + n are x coordinates of curve points (possible only if r < p - n); so among signatures with low s and r >= p - n the accepted one is unique. Recovering from (r, n - s) with the lowest bit of the recovery id inverted gives the same key, or the same error, as recovering from (r, s) with the id itself. Hence, when normalize_s changes a signature, the id returned with the original signature recovers a different key or fails, and the id with its lowest bit inverted recovers the original key.", "quantifier": "all messages, keys, signatures with scalars below n, ids 0 to 3, both builds, all contexts described by verify_ctx", "why_tests_cant": "uniqueness is a statement about all 2^256 other values of s; tests normalize signatures but do not recover from the result", "anchors": ["src/lib.rs: verify, verify_with_context, recover, recover_with_context, Signature::normalize_s, RecoveryId", "core/src/ecdsa.rs: verify_raw, recover_raw"]}
{"id": "C80", "title": "Laws between tweaking, combining, Diffie-Hellman and signing", "statement": "Combining the public keys of several secret keys is the public key of the sum of the secrets modulo n, and is refused exactly if that sum is 0. Adding a tweak to a public key agrees with combining it with the tweak's own public key, in the refusal too. Combining m copies of a key is multiplying it by m. Adding t then multiplying by u is multiplying by u then adding t*u. A factor may be multiplied into the public or into the secret key without changing the shared secret; Diffie-Hellman with the inverse of t on a key multiplied by t gives the digest of the original compressed key. A signature made with a tweaked secret key (r not 0) is accepted under the public key tweaked the same way by someone who does not know the secret.", "quantifier": "all keys, all lists of secrets of any length, all tweaks in [1, n), both builds on either side, all correct contexts, every digest and every stream of candidate nonces", "why_tests_cant": "the laws relate results of different operations for all keys and tweaks, including the single tweak per key at which both sides refuse", "anchors": ["src/lib.rs: PublicKey::combine, PublicKey::tweak_add_assign, PublicKey::tweak_mul_assign, PublicKey::from_secret_key, SecretKey::tweak_add_assign, SecretKey::tweak_mul_assign, SecretKey::inv, SharedSecret::new, sign, verify"]}
{"id": "C81", "title": "What the {:?} text of a value discloses, and when two texts are equal", "statement": "The debug text of a secret key contains the whole key: the decimal numbers in it are the base-2^32 digits of the scalar, from which the 32 accepted bytes are rebuilt. Two messages, two secret keys, two signatures, two recovery ids, two shared secrets or two errors have the same text exactly if they are equal. The text of a public key gives its affine coordinates modulo p. One point parsed from its compressed and from its full encoding gives keys that compare equal; their texts agree exactly if y is a square modulo p, so equal public keys can print differently. Apart from its numbers each text is a fixed template that depends only on the normalized and infinity flags; the numbers are the limbs in order (and the magnitude), in decimal without leading zeros. The alternate form {:#?} of every value differs from the plain one only in blanks, newlines and commas in front of closing brackets, contains the same numbers in the same order, and has a fixed layout; so it discloses as much.", "quantifier": "all accepted secret keys, all scalars below 2^256, all byte strings of shared secrets, all finite points, both builds", "why_tests_cant": "disclosure and injectivity are statements about all values; the unequal texts of equal public keys appear for half of all points only", "anchors": ["src/lib.rs: PublicKey, SecretKey, Signature, RecoveryId, Message, SharedSecret (derived Debug), PublicKey::parse, PublicKey::parse_compressed", "core/src/scalar.rs: Scalar (derived Debug)", "core/src/field.rs: Field (derived Debug)", "core/src/group.rs: Affine (derived Debug), Affine::set_xo_var", "core/src/error.rs: Error (derived Debug)"]}
{"id": "C82", "title": "Signing with a given nonce: what is accepted, and what a signature discloses", "statement": "ECMultGenContext::sign_raw on any 256-bit integers gives the result for their residues modulo n; a nonce that is 0 modulo n gives InvalidMessage in a release build and a panic in a debug build. A nonce k and n - k give the same outcome, except that the two signatures with s = (n-1)/2 and s = (n+1)/2 are exchanged for one another with the other recovery id. From a signature with r not 0 and its nonce the key is one of two computable numbers, and from a signature and the key the nonce is. Two signatures have the same r and the same high id bit exactly if their nonces are equal or opposite. If sign gives two such signatures with one key on different messages, the key is one of two numbers computed from the signatures and messages.", "quantifier": "all keys, messages and nonces, both builds, all correct contexts, every nonce generator", "why_tests_cant": "the exceptional signatures occur for two values of s out of 2^255; disclosure is a statement about all keys and messages", "anchors": ["core/src/ecdsa.rs: ECMultGenContext::sign_raw", "core/src/ecmult.rs: ECMultGenContext::ecmult_gen", "core/src/group.rs: Jacobian::add_ge_in_place, Affine::set_gej", "src/lib.rs: sign"]}
{"id": "C83", "title": "In-place point operations: what the old receiver leaves behind, and the ratio handed back", "statement": "Doubling and adding points in place give a receiver denoting the sum. The result does not depend on what the receiver held, except in one case: when an infinity is doubled, or two finite points cancel, only the infinity flag is set and the receiver keeps its old coordinates. The requested ratio f satisfies z(result) = z(first operand) * f modulo p for a finite result, is 0 for a sum that is infinity, and 1 for a doubled infinity. Asking for a ratio with an infinite first operand panics in a debug build and leaves the caller's field unchanged in a release build. double_nonzero_in_place, documented for nonzero arguments, checks its receiver instead: it accepts an infinite argument and in debug builds refuses finite ones when the receiver is infinity.", "quantifier": "all receivers (also invalid ones), all valid operands, with and without ratio, both builds", "why_tests_cant": "the receiver is arbitrary memory; equal, opposite and infinite operands and the ratio are relations over all coordinates", "anchors": ["core/src/group.rs: Jacobian::double_var_in_place, Jacobian::double_nonzero_in_place, Jacobian::add_var_in_place, Jacobian::add_ge_var_in_place, Jacobian::add_zinv_var_in_place"]}
{"id": "C84", "title": "Use after clear: the zero secret key, and the public key at infinity derived from it, in every API function", "statement": "SecretKey::clear leaves the key zero, and no type prevents its further use. Adding a tweak t to it gives the secret t; multiplying leaves it zero and returns Ok; inv returns zero; key agreement refuses it; PublicKey::from_secret_key accepts it, in both builds, and returns a key flagged infinite with both coordinates 0. A signature made with it on a nonzero message is refused by recover. In debug builds the derived key panics when serialized, verified against, tweaked (except multiplication by zero), used for key agreement or combined. In release builds: verify accepts every message with every signature whose r and s are nonzero; tweak_add_assign with any tweak and tweak_mul_assign with a nonzero one return Ok and the finite pair (0, 0), which is not on the curve and behaves the same way in both builds; key agreement with every secret yields the digest of the byte 2 and 32 zero bytes; the encodings are all zeros after the tag and are refused by both parsers; combine with it alone returns Ok (0, 0), and with any valid key, in either order, Ok and a key that is never on the curve.", "quantifier": "all previous secret values, tweaks, messages, signatures, peers' secrets and valid keys, all contexts, both builds", "why_tests_cant": "acceptance of every signature is a statement over all r, s and messages; the table and the windowed loops on the pair (0, 0) must be followed for every scalar; that the combined key is never on the curve rests on 7 not being a square modulo p", "anchors": ["src/lib.rs: SecretKey::clear, PublicKey::from_secret_key, PublicKey::tweak_add_assign, PublicKey::tweak_mul_assign, PublicKey::combine, PublicKey::serialize, PublicKey::serialize_compressed, SharedSecret::new, verify, recover", "core/src/ecmult.rs: odd_multiples_table, ECMultContext::ecmult, ECMultContext::ecmult_const", "core/src/ecdsa.rs: verify_raw"]}
{"id": "C85", "title": "Whole programs that clear keys and use the conversions and public fields", "statement": "Any sequence of API calls that may also call SecretKey::clear and go on using the key, and that moves scalars between SecretKey, Message and Signature through their conversions and public fields, computes what a small machine on integers, curve points, bytes, a zero key and a public key at (0, 0) computes. The other outcomes are: a sampling loop that has met only unusable blocks so far; a debug build that panics, exactly where signing meets an x coordinate >= n or a public key at (0, 0) is used; a release build that has combined a key at (0, 0) with a point of the curve, after which nothing is claimed. The result is unique, release builds reach it, and a debug build that finishes shows the same observable values as every other build that finishes. Programs that never call clear keep every value valid, panic in no release build, and in a debug build only in sign. What follows a clear does not depend on the key that was cleared.", "quantifier": "all programs of any length, all byte inputs, all random sources, digests and nonce generators, both builds, all correct contexts; and the shipped contexts with SHA-256 and HMAC-DRBG", "why_tests_cant": "a statement over all call sequences, and over degenerate keys that tests do not construct", "anchors": ["src/lib.rs: SecretKey::clear, SecretKey::is_zero, Into<Scalar> for SecretKey, TryFrom<Scalar> for SecretKey, TryFrom<Affine> for PublicKey, Into<Affine> for PublicKey, Message, Signature", "src/lib.rs: all public functions of PublicKey, SecretKey, Signature, Message, RecoveryId, SharedSecret, sign, verify, recover"]}
{"id": "C86", "title": "Release builds never panic, whatever the values", "statement": "In a release build no sequence of API calls panics, from any values a client can hold: secret keys, messages and signatures of any 256-bit scalars (also unreduced or zero), public keys with any limbs, magnitudes and flags (also at infinity or off the curve), and any byte strings. The calls return a value or an error, or are still drawing candidates. The contexts need only have the right sizes; their entries may be anything. The same holds for every field operation on any limbs, magnitudes and flags, every point operation on any coordinates, and the three scalar multiplications. Debug builds do panic: serializing the key derived from a cleared secret is one such program.", "quantifier": "all programs of any length, all values of the types, all tables of the declared sizes, all digests, random sources and nonce generators", "why_tests_cant": "covers malformed points and corrupted tables that no constructor yields, and every call sequence over them", "anchors": ["src/lib.rs: all public functions", "core/src/field.rs: Field", "core/src/group.rs: Affine, Jacobian", "core/src/ecmult.rs: ECMultContext::ecmult, ECMultContext::ecmult_const, ECMultGenContext::ecmult_gen", "core/src/ecdsa.rs: verify_raw, recover_raw, sign_raw"]}
{"id": "C87", "title": "Every key comes from one secret, every accepted signature from one nonce", "statement": "Every public key a parser returns equals the key derived from exactly one secret in 1..n-1. The secrets and the 33-byte strings that parse correspond one to one. Each secret has exactly two 65-byte strings that parse to its key (tag 4, and tag 6 or 7 after the parity of y). SecretKey::random returns each key for exactly one value of the first usable block. A signature (r, s) verifies exactly when r and s are not zero and r = x(tG) mod n, s = (z + r d)/t mod n for some nonce t in 1..n-1; this nonce is unique. The signatures that verify are those signing returns for some nonce in a release build, and these with s negated. For a key and a pair (r, s) of non-zero scalars, some hash is accepted exactly when r is the x coordinate modulo n of a curve point, whatever the key and s; at most four hashes are accepted.", "quantifier": "all keys, encodings, hashes, scalar pairs, contexts and both builds", "why_tests_cant": "uniqueness and exhaustiveness over sets of about 2^256 elements; discrete logarithms cannot be computed by a test", "anchors": ["src/lib.rs: PublicKey::parse, PublicKey::parse_compressed, PublicKey::parse_slice, PublicKey::from_secret_key_with_context, PublicKey::serialize, PublicKey::serialize_compressed, SecretKey::random, verify_with_context", "core/src/ecdsa.rs: sign_raw, verify_raw"]}
{"id": "C88", "title": "A precomputed table is right exactly when the keys computed with it are", "statement": "A context made with ECMultContext::new_from_raw from 16384 arbitrary curve points: tweaking a public key by 2i+1 adds the point at index i, whatever the rest of the table holds. If the odd tweaks below 2^15 of one single key come out right, every entry is right; so the table is right exactly when tweaking is right for all keys and tweaks. With the odd multiples of another point B as table, verification checks the SEC 1 equation with B for the generator; with B = cG it treats the hash z as c z. With any 64 x 16 table of curve points, any blinding scalar b and any initial point, multiplying the generator by k gives the initial point plus, from each row, the entry at that hexadecimal digit of (k + b) mod n; the context is right exactly when every secret key gets its public key. inspect_raw followed by new_from_raw gives the same verification context; it gives a right signing context exactly when the initial point was minus b times G, which not every right context satisfies.", "quantifier": "all tables of curve points, all blinding scalars and initial points, all keys and tweaks, both builds", "why_tests_cant": "16384 and 1024 table entries and about 2^256 scalars; a wrong entry shows only for the scalars that select it", "anchors": ["core/src/ecmult.rs: ECMultContext::new_from_raw, ECMultContext::inspect_raw, ECMultGenContext::new_from_raw, ECMultGenContext::inspect_raw, ECMultGenContext::ecmult_gen", "src/lib.rs: PublicKey::tweak_add_assign_with_context, PublicKey::from_secret_key_with_context"]}
{"id": "C89", "title": "What signing and key agreement leave in their local variables", "statement": "When sign returns, its local variables still hold the 32 bytes of the secret key and the 32 bytes of the nonce, whether or not the compiler keeps stores nothing reads; the variable nonce is zero only if it keeps them. The inner signing function zeroes its intermediate scalar in both cases; if dead stores are kept, every other variable of its own is a function of the signature it returns (two runs with one signature agree), otherwise the nonce point stays in two variables. The multiplication of the generator zeroes the blinded scalar in both cases and leaves the table entry added last, which determines exactly the top four bits of (k + b) mod n, no more; that signing or multiplication leave nothing that depends on the secrets is false. Key agreement leaves the secret scalar, the shared point and its encoding; key generation leaves the encoded key. None of this changes the results.", "quantifier": "all keys, messages, nonces, nonce generators, contexts and tables, both builds, dead stores kept or removed", "why_tests_cant": "the frame of a returned function is not observable from safe code, and what remains depends on all 2^256 scalars and on the compiler", "anchors": ["src/lib.rs: sign_with_context, SecretKey::random", "core/src/ecdsa.rs: ECMultGenContext::sign_raw", "core/src/ecmult.rs: ECMultGenContext::ecmult_gen", "core/src/ecdh.rs: ECMultContext::ecdh_raw", "core/src/scalar.rs: Scalar::clear"]}
{"id": "C90", "title": "Bounded work, and fixed work where secrets are involved", "statement": "Verifying any signature under any key with any table takes at most 257 point doublings, 75 point additions and one scalar inversion, and no field inversion or square root; recovery at most one field inversion and one square root more; adding a tweak to a public key at most 257 doublings, 24 additions and one inversion, multiplying at most 257, 59 and one; each of these bounds is reached. Combining keys takes one addition per key and one inversion, none if the sum is the point at infinity. Deriving a public key, one signing attempt and a key agreement take fixed numbers of these operations (64 additions and one inversion; the same and one scalar inversion; 258 doublings, 72 additions and two inversions), whatever the key, nonce, message and point. Signing takes as much as one attempt times the number of generator blocks in [1, n) up to the first usable one. That tweaking a public key takes the same work for every tweak is false.", "quantifier": "all signatures, messages, keys, tweaks, tables, nonce generators and lists of keys, both builds", "why_tests_cant": "a test measures the inputs it runs; the worst case and the independence of secrets are about all 2^256 scalars, and the worst inputs do not arise at random", "anchors": ["core/src/ecmult.rs: ECMultContext::ecmult, ecmult_const, ECMultGenContext::ecmult_gen, odd_multiples_table, ecmult_wnaf", "core/src/ecdsa.rs: verify_raw, recover_raw, sign_raw", "core/src/ecdh.rs: ecdh_raw", "src/lib.rs: sign_with_context, PublicKey::from_secret_key_with_context, tweak_add_assign_with_context, tweak_mul_assign_with_context, combine"]}
{"id": "C91", "title": "Uniform randomness in, uniform keys, nonces and secrets out", "statement": "Every secret key is equally likely as the result of SecretKey::random: for any two keys there is a rearrangement of the 32-byte blocks (its own inverse) that, applied to every block the generator draws, turns exactly the streams giving the one key into the streams giving the other, and leaves unchanged whether the search goes on. The same holds of signing: any two signatures of a message under a key whose s is not next to n/2 are equally likely over the nonce streams, failures and panics included; for the signatures with s = (n-1)/2 or (n+1)/2 it is false. For a fixed key each result of multiplying by a tweak, inverting, and (other than the key itself) adding a tweak arises from exactly one tweak, for secret and public keys, and for a fixed tweak from exactly one secret key; for a fixed own key each point that key agreement can hash arises from exactly one peer point. A message value z arises from exactly one 32-byte string, or from exactly two if z + n < 2^256.", "quantifier": "all keys, messages, tweaks, points, random streams, lengths of the search, both builds", "why_tests_cant": "equality of probabilities is a statement about all 2^256 blocks and all streams; a sampled test sees neither bias of one value in 2^256 nor a missing value", "anchors": ["src/lib.rs: SecretKey::random, SecretKey::parse, Message::parse, tweak_add_assign, tweak_mul_assign, SecretKey::inv, sign_with_context, SharedSecret::new_with_context", "core/src/ecdsa.rs: sign_raw", "core/src/ecdh.rs: ecdh_raw"]}
{"id": "C92", "title": "What an accepted signature does not prove, and signatures under related keys", "statement": "From a public key Q alone and any u and v in range anyone can compute a message value and a signature that verify accepts (r = x(uG + vQ) mod n, s = r/v, z = u s), and every accepted message and signature is of this form for exactly one u and v: what verify accepts for a message value not obtained by hashing proves nothing about the signer. That an accepted signature was made by someone who knew the key is false: the x bytes of the compressed key, twice, are an accepted signature of 32 zero bytes (whenever x is not 0 modulo n). A signature is accepted for z under a key with tweak t added exactly when it is accepted for z + r t under the key itself; multiplying key, message and s by one factor keeps the verdict.", "quantifier": "all public keys, all u, v, tweaks, messages and signatures, both builds", "why_tests_cant": "the statements are equivalences over all keys and all signatures; tests only try signatures somebody signed", "anchors": ["src/lib.rs: verify_with_context, PublicKey::tweak_add_assign_with_context, tweak_mul_assign_with_context, serialize_compressed, Message::parse, Signature::parse_overflowing", "core/src/ecdsa.rs: verify_raw"]}
{"id": "C93", "title": "Same results on 32-bit and 64-bit targets", "statement": "Signature::parse_der and parse_der_lax compute lengths in usize, the only place where the pointer size of the target enters a result. For arrays of up to 16 MiB both give the same result on 32-bit and 64-bit targets, in both builds. For all arrays a 32-bit target can hold: the release build of parse_der always agrees; the debug build agrees or panics, the latter only on arrays refused on 64-bit targets which contain a length field standing for 2^32 - 1 followed by at least 16 MiB; such a panic exists. parse_der_lax never panics on 32-bit targets, what it accepts is accepted with the same result on 64-bit targets, and what it refuses in addition is longer than 16 MiB; such an array exists.", "quantifier": "all byte arrays (below 2^31 bytes for parse_der), both builds", "why_tests_cant": "tests run on one target, and the differences need inputs above 16 MiB of a particular shape; equality is over all arrays", "anchors": ["core/src/der.rs: Decoder::read_len, read_len_lax, read_integer, read_integer_lax", "src/lib.rs: Signature::parse_der, parse_der_lax"]}
{"id": "C94", "title": "All four build configurations", "statement": "Cargo lets debug assertions and overflow checks be switched on and off independently (for instance overflow-checks = true in a release profile). For every function and every input, well formed or not: a value returned by a debug build is returned by all four builds; a value returned by any build is returned by the release build, so no two builds ever return different values; and a debug build panics exactly when the build with assertions only or the build with overflow checks only panics. Neither of these two is implied by the other. For all values a program can obtain from the API, deriving, serializing, comparing, tweaking, combining, inverting, normalizing, verifying, recovering and Diffie-Hellman return, and the same in all four builds. Signing panics on exactly the nonces whose point has x >= n when debug assertions are on, and never otherwise, with overflow checks or without.", "quantifier": "all inputs of all modelled functions, all four combinations of debug-assertions and overflow-checks", "why_tests_cant": "test suites run one or two profiles on sample inputs; agreement between the configurations is a statement about every input of every function", "anchors": ["core/src/field.rs, scalar.rs, group.rs, ecmult.rs, ecdsa.rs, ecdh.rs, der.rs: debug_assert! and arithmetic", "src/lib.rs: all functions", "Cargo.toml: no profile section"]}
{"id": "C95", "title": "Overflow checks never change a program", "statement": "For every sequence of API calls, including calls on cleared (zero) keys and on the values computed from them, from every state whose scalars are reduced and whose points have coordinates of magnitude at most 6 (on the curve or not): switching overflow checks on or off changes nothing, in builds with debug assertions and in builds without. A build without debug assertions never panics, with overflow checks or not, and leaves values of the same kind. So every panic of a debug build is a failed assertion and never an arithmetic overflow. For sequences started from arbitrary values the first part fails: an overflow check can then be the only one to fire. Even then no two builds return different results. Without debug assertions, the magnitude and the normalized flag of a field element influence neither the result nor the panics of multiplying, squaring, inverting, negating, normalizing, comparing by order and encoding; equality is the exception, because it negates by the recorded magnitude.", "quantifier": "all call sequences, all starting states, all four combinations of debug-assertions and overflow-checks, all DRBG streams and digests", "why_tests_cant": "whether any of some thousand word additions and multiplications can wrap depends on all inputs and on everything a program did before", "anchors": ["src/lib.rs: all functions", "core/src/field.rs, group.rs, ecmult.rs: arithmetic on words", "Cargo.toml: no profile section"]}
{"id": "C96", "title": "Programs of field and scalar operators", "statement": "Field and Scalar are offered with every operator in by-value, by-reference and assigning form, so that formulas can be written down directly. For every straight-line program of copies, from_int, +, +=, *, *=, sqr, neg, mul_int, inv, normalize (three kinds) and cmov on any number of field variables: if the magnitudes, computed from the program text by the documented rules, stay within the documented limits, then the program runs to its end in every build and every variable holds exactly the residue modulo p the program says, within the computed magnitude. Whatever the program, within the limits or not: if a debug build runs it to its end, the result is the residue the program says and a release build ends in the same state. A release build of a program outside the limits can end silently with a wrong value. Two programs that say the same and normalize last serialize to the same bytes. On scalar variables no discipline is needed: every program runs to its end in every build and every variable holds the reduced number the program says.", "quantifier": "all programs of any length, all starting values within the representation contract, debug and release builds", "why_tests_cant": "the programs are unbounded and whether a value is right depends on the magnitudes accumulated before", "anchors": ["core/src/field.rs: Field::{from_int,add_assign,mul_assign,sqr,neg,mul_int,inv,normalize,normalize_var,normalize_weak,cmov}, impl Add/Mul/AddAssign/MulAssign for Field", "core/src/scalar.rs: Scalar::{from_int,sqr,inv,cond_neg_assign}, impl Add/Mul/AddAssign/MulAssign/Neg for Scalar"]}
{"id": "C97", "title": "Programs of point operations", "statement": "The core crate offers two representations of points, several additions that differ in the operands they accept, conversions between the representations and three multiplications. For every straight-line program of them on any number of Jacobian and affine variables (point at infinity, loading, copying, doubling, the three additions, both negations, rescaling, the three multiplications, both conversions to affine, compact storage and back): if finite points are given to the four operations that are documented to need them (constant-time addition, both multiplications of a point, compact storage), the program runs to its end in every build and every variable denotes the point the program says, whatever the representations, with equal, opposite and infinite operands included. A program without these four operations needs no condition. If the variables start at known multiples of the generator, the program can be followed on the multipliers modulo n. A debug build panics exactly when one of the four is given the point at infinity, and a program it runs to its end leaves a release build in the same state; a release build can go on silently with a wrong point (shown for the constant-time addition). Two programs that compute the same multiplier, in any builds and with any correct contexts, leave keys that compare equal and serialize to the same bytes. Deriving a key, adding or multiplying a tweak and combining any number of keys, written with the core crate, give the keys the main crate gives, and the point at infinity exactly where the main crate returns an error.", "quantifier": "all programs of any length, all starting points in all representations within the magnitude contract, all correct contexts, debug and release builds", "why_tests_cant": "programs and representations are unbounded; whether one operation may follow another depends on the magnitudes and the infinity flags left by all operations before", "anchors": ["core/src/group.rs: Jacobian::{set_infinity,set_ge,from_ge,double_var,add_var,add_ge_var,add_ge,neg,rescale}, Affine::{set_gej,from_gej,set_gej_var,neg}, AffineStorage conversions", "core/src/ecmult.rs: ECMultContext::{ecmult,ecmult_const}, ECMultGenContext::ecmult_gen"]}
