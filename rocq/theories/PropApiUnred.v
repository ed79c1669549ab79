(** Property theorems proved in ApiUnred.v (written by tools/gen_props.py). *)
From Coq Require Import Znumtheory Zdiv.
From Verif Require Import Word MField MScalar MGroup MEcmult MEcdsa MApi WP FieldMul FieldNorm Spec Fp Bits FieldOps FieldCodec ScalarAcc ScalarMul ScalarOps ScalarRed ScalarMore ScalarBits Denote Unred Curve Group Chain Order Jac JacOps Table Wnaf WnafC Ecmult Lift Gen Key Ctx ApiScalar ApiPub ApiGroup Ecdsa ApiEcdsa ApiKeys ApiUnred.

(** Any integer below 2^256 gives the key d*G; the multiples of n give the key at infinity. *)
Theorem C68_from_secret_key : forall dbg ctx d, gen_ctx ctx -> 0 <= d < 2 ^ 256 ->
  exists k, pk_from_secret_key dbg ctx (scalar_of d) = Some k /\ key_at k (smul d G) /\ (af_inf k = true <-> d mod n = 0).
Proof. exact C68_from_secret_key_pf. Qed.
Print Assumptions C68_from_secret_key.

Example C68_from_secret_key_example : (exists ctx, gen_ctx ctx) /\ 0 <= n + 1 < 2 ^ 256 /\ (n + 1) mod n <> 0.
Proof. exact C68_from_secret_key_example_pf. Qed.

(** A secret key accepted by [try_from] whose public key is the point at infinity. *)
Theorem C68_finite_key_refuted : exists d ctx k, gen_ctx ctx /\ sk_try_from (scalar_of d) = Ok (scalar_of d) /\ pk_from_secret_key false ctx (scalar_of d) = Some k /\ af_inf k = true.
Proof. exact C68_finite_key_refuted_pf. Qed.
Print Assumptions C68_finite_key_refuted.

(** Signing with any integers is signing with their residues, except that the nonce generator is seeded with the bytes as given. *)
Theorem C68_sign : forall dbg drbg fuel ctx d z, gen_ctx ctx -> 0 <= d < 2 ^ 256 -> 0 <= z < 2 ^ 256 -> stream (drbg (be_bytes 32 d) (be_bytes 32 z)) ->
  sign dbg drbg fuel ctx (scalar_of z) (scalar_of d) = sign dbg (fun _ _ => drbg (be_bytes 32 d) (be_bytes 32 z)) fuel ctx (scalar_of (z mod n)) (scalar_of (d mod n)).
Proof. exact C68_sign_pf. Qed.
Print Assumptions C68_sign.

Example C68_sign_example : (exists ctx, gen_ctx ctx) /\ stream one_stream /\ 0 <= n + 1 < 2 ^ 256.
Proof. exact C68_sign_example_pf. Qed.

Theorem C68_verify : forall dbg ctx k Q z r s, verify_ctx ctx -> key_at k Q -> Q <> Inf -> 0 <= r < p -> 0 <= s < 2 ^ 256 -> 0 <= z < 2 ^ 256 ->
  exists b, verify dbg ctx (scalar_of z) (Sig (scalar_of r) (scalar_of s)) k = Some b /\ (b = true <-> ecdsa_lenient Q z r s).
Proof. exact C68_verify_pf. Qed.
Print Assumptions C68_verify.

Theorem C68_verify_residues : forall dbg ctx k Q z r s, verify_ctx ctx -> key_at k Q -> Q <> Inf -> 0 <= r < n -> 0 <= s < 2 ^ 256 -> 0 <= z < 2 ^ 256 ->
  verify dbg ctx (scalar_of z) (Sig (scalar_of r) (scalar_of s)) k = verify dbg ctx (scalar_of (z mod n)) (Sig (scalar_of r) (scalar_of (s mod n))) k.
Proof. exact C68_verify_residues_pf. Qed.
Print Assumptions C68_verify_residues.

Example C68_verify_example : (exists ctx, verify_ctx ctx) /\ key_at AFFINE_G G /\ G <> Inf /\ ecdsa_lenient G ((1 - gx) mod n) gx (n + 1) /\ ~ ecdsa_lenient G ((1 - gx) mod n) gx n.
Proof. exact C68_verify_example_pf. Qed.

Example C68_verify_residues_example : (exists ctx, verify_ctx ctx) /\ key_at AFFINE_G G /\ G <> Inf /\ 0 <= gx < n /\ 0 <= n + 1 < 2 ^ 256.
Proof. exact C68_verify_residues_example_pf. Qed.

(** A signature that verifies although the standard parser refuses its serialisation. *)
Theorem C68_canonical_refuted : exists ctx z g, verify_ctx ctx /\ (forall dbg, verify dbg ctx (scalar_of z) g AFFINE_G = Some true) /\
  (forall dbg, sig_parse_standard dbg (sig_serialize g) = Some (Err InvalidSignature)).
Proof. exact C68_canonical_refuted_pf. Qed.
Print Assumptions C68_canonical_refuted.

Theorem C68_verify_r_ge_p : forall ctx k Q z r s, verify_ctx ctx -> key_at k Q -> Q <> Inf -> p <= r < 2 ^ 256 -> 0 <= s < 2 ^ 256 -> 0 <= z < 2 ^ 256 ->
  let R := padd (smul ((z * inv_mod n s) mod n) G) (smul ((r * inv_mod n s) mod n) Q) in
  (s = 0 \/ R = Inf -> forall dbg, verify dbg ctx (scalar_of z) (Sig (scalar_of r) (scalar_of s)) k = Some false) /\
  (forall x y, s <> 0 -> R = Aff x y -> verify true ctx (scalar_of z) (Sig (scalar_of r) (scalar_of s)) k = None /\
     verify false ctx (scalar_of z) (Sig (scalar_of r) (scalar_of s)) k = Some (x =? r - p)).
Proof. exact C68_verify_r_ge_p_pf. Qed.
Print Assumptions C68_verify_r_ge_p.

Example C68_verify_r_ge_p_example : (exists ctx, verify_ctx ctx) /\ key_at AFFINE_G G /\ G <> Inf /\ p <= p + 1 < 2 ^ 256 /\
  exists z, 0 <= z < n /\ padd (smul ((z * inv_mod n 1) mod n) G) (smul (((p + 1) * inv_mod n 1) mod n) G) = Aff 1 one_y.
Proof. exact C68_verify_r_ge_p_example_pf. Qed.

(** The two builds disagree on such a signature: release accepts it, debug panics. *)
Theorem C68_builds_agree_refuted : exists ctx z g, verify_ctx ctx /\ verify true ctx (scalar_of z) g AFFINE_G = None /\ verify false ctx (scalar_of z) g AFFINE_G = Some true.
Proof. exact C68_builds_agree_refuted_pf. Qed.
Print Assumptions C68_builds_agree_refuted.

(** Recovery with any s and z below 2^256 and any r below the field size: the key designated by the residues, with x = r + n*(id/2) as an integer. *)
Theorem C68_recover : forall dbg ctx z r s id, verify_ctx ctx -> 0 <= r < p -> 0 <= s < 2 ^ 256 -> 0 <= z < 2 ^ 256 -> 0 <= id < 4 ->
  (exists k Q, recover dbg ctx (scalar_of z) (Sig (scalar_of r) (scalar_of s)) id = Some (Ok k) /\ key_at k Q /\ recovers_any z r s id Q) \/
  (recover dbg ctx (scalar_of z) (Sig (scalar_of r) (scalar_of s)) id = Some (Err InvalidSignature) /\ forall Q, ~ recovers_any z r s id Q).
Proof. exact C68_recover_pf. Qed.
Print Assumptions C68_recover.

(** The same nonce point is designated by r = 1 + n in the plain form and by r = 1 with the overflow bit: but only the second designates a standard signature. *)
Example C68_recover_example : (exists ctx, verify_ctx ctx) /\ 0 <= n < p /\ 0 <= n + 1 < 2 ^ 256 /\ forall Q id z, ~ recovers_any z n (n + 1) id Q.
Proof. exact C68_recover_example_pf. Qed.

(** With r at or above the field size the debug build panics. *)
Theorem C68_recover_r_ge_p : forall ctx z r s id, p <= r < 2 ^ 256 -> 1 <= s < 2 ^ 256 -> recover true ctx z (Sig (scalar_of r) (scalar_of s)) id = None.
Proof. exact C68_recover_r_ge_p_pf. Qed.
Print Assumptions C68_recover_r_ge_p.

Example C68_recover_r_ge_p_example : p <= p + 1 < 2 ^ 256 /\ 1 <= n + 1 < 2 ^ 256.
Proof. exact C68_recover_r_ge_p_example_pf. Qed.

(** The debug build panics for every secret key that is not reduced. *)
Theorem C68_ecdh_debug : forall D k d, n <= d < 2 ^ 256 -> shared_secret_new true D k (scalar_of d) = None.
Proof. exact C68_ecdh_debug_pf. Qed.
Print Assumptions C68_ecdh_debug.

Example C68_ecdh_debug_example : n <= n + 1 < 2 ^ 256.
Proof. exact C68_ecdh_debug_example_pf. Qed.

(** The release build computes a secret from another multiple: d - 2^256 in place of d. *)
Theorem C68_ecdh_release : forall D k P d, key_at k P -> P <> Inf -> n <= d < 2 ^ 256 - 2 ->
  exists x y, smul ((d - 2 ^ 256) mod n) P = Aff x y /\ shared_secret_new false D k (scalar_of d) = Some (Ok (D (sec1_compressed x y))).
Proof. exact C68_ecdh_release_pf. Qed.
Print Assumptions C68_ecdh_release.

Example C68_ecdh_release_example : key_at AFFINE_G G /\ G <> Inf /\ n <= n + 1 < 2 ^ 256 - 2.
Proof. exact C68_ecdh_release_example_pf. Qed.

(** So the two parties of an exchange get different secrets when one key is not reduced. *)
Theorem C68_ecdh_symmetric_refuted : exists ctx a b ka kb ma mb, gen_ctx ctx /\ sk_try_from (scalar_of a) = Ok (scalar_of a) /\ sk_try_from (scalar_of b) = Ok (scalar_of b) /\
  pk_from_secret_key false ctx (scalar_of a) = Some ka /\ pk_from_secret_key false ctx (scalar_of b) = Some kb /\ ma <> mb /\
  forall D, shared_secret_new false D ka (scalar_of b) = Some (Ok (D ma)) /\ shared_secret_new false D kb (scalar_of a) = Some (Ok (D mb)).
Proof. exact C68_ecdh_symmetric_refuted_pf. Qed.
Print Assumptions C68_ecdh_symmetric_refuted.

(** Adding to a secret key: the sum, less n if it reaches n, modulo 2^256. *)
Theorem C68_tweak_add : forall dbg k t, 0 <= k < 2 ^ 256 -> 0 <= t < 2 ^ 256 ->
  let v := if n <=? k + t then (k + t - n) mod 2 ^ 256 else k + t in
  sk_tweak_add_assign dbg (scalar_of k) (scalar_of t) = Some (if v =? 0 then (scalar_of k, Err TweakOutOfRange) else (scalar_of v, Ok tt)).
Proof. exact C68_tweak_add_pf. Qed.
Print Assumptions C68_tweak_add.

Example C68_tweak_add_example : 0 <= n + 1 < 2 ^ 256 /\ 0 <= 2 ^ 256 - 1 < 2 ^ 256.
Proof. exact C68_tweak_add_example_pf. Qed.

(** Two keys accepted by [try_from] whose tweaked sum is not congruent to their sum. *)
Theorem C68_tweak_add_refuted : exists k t v, sk_try_from (scalar_of k) = Ok (scalar_of k) /\ sk_try_from (scalar_of t) = Ok (scalar_of t) /\ 0 <= v < 2 ^ 256 /\
  (forall dbg, sk_tweak_add_assign dbg (scalar_of k) (scalar_of t) = Some (scalar_of v, Ok tt)) /\ v mod n <> (k + t) mod n.
Proof. exact C68_tweak_add_refuted_pf. Qed.
Print Assumptions C68_tweak_add_refuted.

(** Multiplication reduces; but the tweak n, which is not the zero scalar, succeeds and leaves the zero key. *)
Theorem C68_tweak_mul : forall dbg k t, 0 <= k < 2 ^ 256 -> 1 <= t < 2 ^ 256 -> sk_tweak_mul_assign dbg (scalar_of k) (scalar_of t) = Some (scalar_of ((k * t) mod n), Ok tt).
Proof. exact C68_tweak_mul_pf. Qed.
Print Assumptions C68_tweak_mul.

Example C68_tweak_mul_example : 0 <= 1 < 2 ^ 256 /\ 1 <= n < 2 ^ 256 /\ (1 * n) mod n = 0.
Proof. exact C68_tweak_mul_example_pf. Qed.

(** Normalising a signature whose s exceeds n: s becomes 2^256 + n - s, which still is high and denotes another residue than n - s. *)
Theorem C68_normalize_s : forall dbg r s, n < s < 2 ^ 256 -> sig_normalize_s dbg (Sig r (scalar_of s)) = Some (Sig r (scalar_of (2 ^ 256 + n - s))) /\
  s_is_high (scalar_of (2 ^ 256 + n - s)) = true /\ (2 ^ 256 + n - s) mod n <> (- s) mod n.
Proof. exact C68_normalize_s_pf. Qed.
Print Assumptions C68_normalize_s.

Example C68_normalize_s_example : n < n + 1 < 2 ^ 256.
Proof. exact C68_normalize_s_example_pf. Qed.

(** A tweak that is not reduced added to a public key.  Without assertions the result is P + t*G for every t below 2^256; with assertions the call panics for every t above n. *)
Theorem C68_public_tweak_add : forall dbg ctx k P t, verify_ctx ctx -> key_at k P -> P <> Inf -> n <= t < 2 ^ 256 ->
  (t <> n -> dbg = true -> pk_tweak_add_assign dbg ctx k (scalar_of t) = None) /\
  (t = n \/ dbg = false -> (padd P (smul t G) = Inf -> pk_tweak_add_assign dbg ctx k (scalar_of t) = Some (k, Err TweakOutOfRange)) /\
    (padd P (smul t G) <> Inf -> exists k', pk_tweak_add_assign dbg ctx k (scalar_of t) = Some (k', Ok tt) /\ aff_at 1 k' (padd P (smul t G)))).
Proof. exact C68_public_tweak_add_pf. Qed.
Print Assumptions C68_public_tweak_add.

Example C68_public_tweak_add_example : (exists ctx, verify_ctx ctx) /\ key_at AFFINE_G G /\ G <> Inf /\ n <= n + 1 < 2 ^ 256 /\ n + 1 <> n /\ padd G (smul (n + 1) G) <> Inf.
Proof. exact C68_public_tweak_add_example_pf. Qed.

(** Multiplying: likewise; and the tweak n is accepted in both builds, leaving a public key at infinity. *)
Theorem C68_public_tweak_mul : forall dbg ctx k P t, verify_ctx ctx -> key_at k P -> P <> Inf -> n <= t < 2 ^ 256 ->
  (t <> n -> dbg = true -> pk_tweak_mul_assign dbg ctx k (scalar_of t) = None) /\
  (t = n \/ dbg = false -> exists k', pk_tweak_mul_assign dbg ctx k (scalar_of t) = Some (k', Ok tt) /\ aff_at 1 k' (smul t P)).
Proof. exact C68_public_tweak_mul_pf. Qed.
Print Assumptions C68_public_tweak_mul.

Example C68_public_tweak_mul_example : (exists ctx, verify_ctx ctx) /\ key_at AFFINE_G G /\ G <> Inf /\ n <= n + 1 < 2 ^ 256 /\ n + 1 <> n.
Proof. exact C68_public_tweak_mul_example_pf. Qed.

(** A key accepted by [try_from] used as a tweak makes a successful call return the point at infinity. *)
Theorem C68_tweak_mul_finite_refuted : exists ctx t, verify_ctx ctx /\ sk_try_from (scalar_of t) = Ok (scalar_of t) /\
  forall dbg, exists k', pk_tweak_mul_assign dbg ctx AFFINE_G (scalar_of t) = Some (k', Ok tt) /\ af_inf k' = true.
Proof. exact C68_tweak_mul_finite_refuted_pf. Qed.
Print Assumptions C68_tweak_mul_finite_refuted.
