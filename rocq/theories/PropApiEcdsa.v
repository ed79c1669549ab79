(** Property theorems proved in ApiEcdsa.v (written by tools/gen_props.py). *)
From Coq Require Import Znumtheory Field Zdiv.
From Verif Require Import Word MField MScalar MGroup MEcmult MEcdsa MApi WP FieldMul FieldNorm Spec Fp Bits FieldOps FieldCodec Denote Curve Group Chain Order Jac JacOps Table Ecmult Lift Gen Key Ctx ApiScalar ApiPub ApiGroup Ecdsa ApiEcdsa.

(** Every secret key (any correct context, either build) gives the key d*G. *)
Theorem C21_from_secret_key : forall dbg ctx d, gen_ctx ctx -> 1 <= d < n ->
  exists k, pk_from_secret_key dbg ctx (scalar_of d) = Some k /\ aff_at 1 k (smul d G) /\ key_at k (smul d G) /\ smul d G <> Inf.
Proof. exact C21_from_secret_key_pf. Qed.
Print Assumptions C21_from_secret_key.

Example C21_from_secret_key_example : (exists ctx, ecmult_gen_context_new true = Some ctx /\ gen_ctx ctx) /\ 1 <= n - 1 < n.
Proof. exact C21_from_secret_key_example_pf. Qed.

(** Derivation is injective: keys derived (in any context and build) compare equal iff the secrets are equal. *)
Theorem C21_injective : forall dbg1 dbg2 dbg3 ctx1 ctx2 d1 d2 k1 k2, gen_ctx ctx1 -> gen_ctx ctx2 -> 1 <= d1 < n -> 1 <= d2 < n ->
  pk_from_secret_key dbg1 ctx1 (scalar_of d1) = Some k1 -> pk_from_secret_key dbg2 ctx2 (scalar_of d2) = Some k2 ->
  exists b, pk_eq dbg3 k1 k2 = Some b /\ (b = true <-> d1 = d2).
Proof. exact C21_injective_pf. Qed.
Print Assumptions C21_injective.

Example C21_injective_example : exists ctx k1 k2, gen_ctx ctx /\ pk_from_secret_key false ctx (scalar_of 1) = Some k1 /\ pk_from_secret_key false ctx (scalar_of (n - 1)) = Some k2.
Proof. exact C21_injective_example_pf. Qed.

(** [verify] returns (never panics), and returns true iff the signature is valid in the sense of SEC 1. *)
Theorem C22_verify : forall dbg ctx k Q z r s, verify_ctx ctx -> key_at k Q -> Q <> Inf -> 0 <= r < n -> 0 <= s < n -> 0 <= z < n ->
  exists b, verify dbg ctx (scalar_of z) (Sig (scalar_of r) (scalar_of s)) k = Some b /\ (b = true <-> ecdsa_valid Q z r s).
Proof. exact C22_verify_pf. Qed.
Print Assumptions C22_verify.

(** Both verdicts occur: (gx mod n, gx mod n) is a signature of 0 under G, (1, 1) is not. *)
Example C22_verify_example : (exists ctx, ecmult_context_new true = Some ctx /\ verify_ctx ctx) /\ key_at AFFINE_G G /\ G <> Inf /\
  ecdsa_valid G 0 gx gx /\ ~ ecdsa_valid G 0 1 1.
Proof. exact C22_verify_example_pf. Qed.

(** Negating s, and hence [normalize_s], never changes the verdict. *)
Theorem C27_malleability : forall dbg ctx k Q z r s, verify_ctx ctx -> key_at k Q -> Q <> Inf -> 0 <= r < n -> 1 <= s < n -> 0 <= z < n ->
  verify dbg ctx (scalar_of z) (Sig (scalar_of r) (scalar_of s)) k = verify dbg ctx (scalar_of z) (Sig (scalar_of r) (scalar_of (n - s))) k /\
  exists g, sig_normalize_s dbg (Sig (scalar_of r) (scalar_of s)) = Some g /\
    verify dbg ctx (scalar_of z) g k = verify dbg ctx (scalar_of z) (Sig (scalar_of r) (scalar_of s)) k.
Proof. exact C27_malleability_pf. Qed.
Print Assumptions C27_malleability.

Example C27_malleability_example : exists ctx, verify_ctx ctx /\ key_at AFFINE_G G /\ ecdsa_valid G 0 gx gx /\ ecdsa_valid G 0 gx (n - gx) /\ gx <> n - gx.
Proof. exact C27_malleability_example_pf. Qed.

(** [recover] never panics for a parsed id; it returns the designated key, or [InvalidSignature] iff there is none. *)
Theorem C25_recover_exact : forall dbg ctx z r s id, verify_ctx ctx -> 0 <= r < n -> 0 <= s < n -> 0 <= z < n -> 0 <= id < 4 ->
  (exists k Q, recover dbg ctx (scalar_of z) (Sig (scalar_of r) (scalar_of s)) id = Some (Ok k) /\ key_at k Q /\ recovers z r s id Q) \/
  (recover dbg ctx (scalar_of z) (Sig (scalar_of r) (scalar_of s)) id = Some (Err InvalidSignature) /\ forall Q, ~ recovers z r s id Q).
Proof. exact C25_recover_exact_pf. Qed.
Print Assumptions C25_recover_exact.

(** A recovered key is a valid public key that verifies the signature. *)
Theorem C25_recovered_verifies : forall dbg dbg' ctx ctx' z r s id k, verify_ctx ctx -> verify_ctx ctx' -> 0 <= r < n -> 0 <= s < n -> 0 <= z < n -> 0 <= id < 4 ->
  recover dbg ctx (scalar_of z) (Sig (scalar_of r) (scalar_of s)) id = Some (Ok k) ->
  (exists x y, key_at k (Aff x y)) /\ verify dbg' ctx' (scalar_of z) (Sig (scalar_of r) (scalar_of s)) k = Some true.
Proof. exact C25_recovered_verifies_pf. Qed.
Print Assumptions C25_recovered_verifies.

Example C25_recovered_verifies_example : exists ctx id k, verify_ctx ctx /\ 0 <= id < 4 /\ recover true ctx (scalar_of 0) (Sig (scalar_of gx) (scalar_of gx)) id = Some (Ok k).
Proof. exact C25_recovered_verifies_example_pf. Qed.

(** A valid signature is recovered to the verifying key by exactly one id. *)
Theorem C26_recovery_complete : forall dbg dbg' ctx ctx' z r s k Q, verify_ctx ctx -> verify_ctx ctx' -> 0 <= r < n -> 0 <= s < n -> 0 <= z < n -> key_at k Q -> Q <> Inf ->
  verify dbg ctx (scalar_of z) (Sig (scalar_of r) (scalar_of s)) k = Some true ->
  exists id, 0 <= id < 4 /\ (exists k', recover dbg' ctx' (scalar_of z) (Sig (scalar_of r) (scalar_of s)) id = Some (Ok k') /\ key_at k' Q) /\
    forall j kj, 0 <= j < 4 -> recover dbg' ctx' (scalar_of z) (Sig (scalar_of r) (scalar_of s)) j = Some (Ok kj) -> key_at kj Q -> j = id.
Proof. exact C26_recovery_complete_pf. Qed.
Print Assumptions C26_recovery_complete.

Example C26_recovery_complete_example : exists ctx, verify_ctx ctx /\ verify true ctx (scalar_of 0) (Sig (scalar_of gx) (scalar_of gx)) AFFINE_G = Some true.
Proof. exact C26_recovery_complete_example_pf. Qed.

Example C25_recover_exact_example : (exists id, 0 <= id < 4 /\ recovers 0 gx gx id G) /\ (forall Q, ~ recovers 0 0 1 0 Q).
Proof. exact C25_recover_exact_example_pf. Qed.

(** A debug build panics exactly on nonces whose point has x >= n; on the others both builds agree. *)
Theorem C31_debug_release : forall ctx d z k, gen_ctx ctx -> 0 <= d < n -> 0 <= z < n -> 1 <= k < n ->
  (sign_raw true ctx (scalar_of d) (scalar_of z) (scalar_of k) = None <-> wraps k) /\
  (~ wraps k -> sign_raw true ctx (scalar_of d) (scalar_of z) (scalar_of k) = sign_raw false ctx (scalar_of d) (scalar_of z) (scalar_of k)) /\
  sign_raw false ctx (scalar_of d) (scalar_of z) (scalar_of k) <> None.
Proof. exact C31_debug_release_pf. Qed.
Print Assumptions C31_debug_release.

Theorem C31_wrapping_nonces_exist : (exists k y, 1 <= k < n /\ smul k G = Aff n y) /\ (exists k x y, 1 <= k < n /\ smul k G = Aff x y /\ n < x /\ wraps k).
Proof. exact C31_wrapping_nonces_exist_pf. Qed.
Print Assumptions C31_wrapping_nonces_exist.

(** So "both builds agree on every nonce" is false. *)
Theorem C31_builds_agree_refuted : exists ctx d z k, gen_ctx ctx /\ 1 <= d < n /\ 0 <= z < n /\ 1 <= k < n /\ sign_raw true ctx (scalar_of d) (scalar_of z) (scalar_of k) = None /\
  sign_raw false ctx (scalar_of d) (scalar_of z) (scalar_of k) <> None.
Proof. exact C31_builds_agree_refuted_pf. Qed.
Print Assumptions C31_builds_agree_refuted.

(** [sign] returns the signature made with the first usable block of the DRBG seeded with the key and the message. *)
Theorem C29_first_usable : forall dbg drbg fuel ctx d z j, gen_ctx ctx -> 0 <= d < n -> 0 <= z < n -> let gen := drbg (be_bytes 32 d) (be_bytes 32 z) in stream gen ->
  (j < fuel)%nat -> (forall l, (l < j)%nat -> ~ usable d z (nonce gen l)) -> usable d z (nonce gen j) -> (dbg = false \/ forall l, (l <= j)%nat -> ~ wraps (nonce gen l)) ->
  exists r s id, signature_for d z (nonce gen j) r s id /\ sign dbg drbg fuel ctx (scalar_of z) (scalar_of d) = Done (Sig (scalar_of r) (scalar_of s), id).
Proof. exact C29_first_usable_pf. Qed.
Print Assumptions C29_first_usable.

(** A stream whose first block is unusable and second is the nonce 1. *)
Example C29_first_usable_example : exists gen, stream gen /\ ~ usable 1 1 (nonce gen 0) /\ usable 1 1 (nonce gen 1) /\ ~ wraps (nonce gen 0) /\ ~ wraps (nonce gen 1) /\ exists ctx, gen_ctx ctx.
Proof. exact C29_first_usable_example_pf. Qed.

(** Conversely every signature returned comes from the first usable block; in debug builds no block up to it has x >= n. *)
Theorem C29_only_first_usable : forall dbg drbg fuel ctx d z g id, gen_ctx ctx -> 0 <= d < n -> 0 <= z < n -> let gen := drbg (be_bytes 32 d) (be_bytes 32 z) in stream gen ->
  sign dbg drbg fuel ctx (scalar_of z) (scalar_of d) = Done (g, id) ->
  exists j r s, (j < fuel)%nat /\ (forall l, (l < j)%nat -> ~ usable d z (nonce gen l)) /\ usable d z (nonce gen j) /\ signature_for d z (nonce gen j) r s id /\
    g = Sig (scalar_of r) (scalar_of s) /\ (dbg = true -> forall l, (l <= j)%nat -> ~ wraps (nonce gen l)).
Proof. exact C29_only_first_usable_pf. Qed.
Print Assumptions C29_only_first_usable.

Example C29_only_first_usable_example : exists drbg ctx g id, gen_ctx ctx /\ stream (drbg (be_bytes 32 1) (be_bytes 32 1)) /\ sign true drbg 2 ctx (scalar_of 1) (scalar_of 1) = Done (g, id).
Proof. exact C29_only_first_usable_example_pf. Qed.

(** The outcome depends on the DRBG only through its stream for the seed (key, message), and not on the (correct) context or its blinding. *)
Theorem C29_deterministic : forall dbg drbg drbg' fuel ctx ctx' d z, gen_ctx ctx -> gen_ctx ctx' -> 0 <= d < n -> 0 <= z < n -> stream (drbg (be_bytes 32 d) (be_bytes 32 z)) ->
  (forall i, drbg (be_bytes 32 d) (be_bytes 32 z) i = drbg' (be_bytes 32 d) (be_bytes 32 z) i) ->
  sign dbg drbg fuel ctx (scalar_of z) (scalar_of d) = sign dbg drbg' fuel ctx' (scalar_of z) (scalar_of d).
Proof. exact C29_deterministic_pf. Qed.
Print Assumptions C29_deterministic.

Example C29_deterministic_example : exists drbg ctx g id, gen_ctx ctx /\ stream (drbg (be_bytes 32 1) (be_bytes 32 1)) /\ sign false drbg 2 ctx (scalar_of 1) (scalar_of 1) = Done (g, id).
Proof. exact C29_deterministic_example_pf. Qed.

(** If the stream contains a usable nonce then [sign] returns in a release build; a debug build returns or panics. *)
Theorem C30_terminates : forall dbg drbg fuel ctx d z j, gen_ctx ctx -> 0 <= d < n -> 0 <= z < n -> let gen := drbg (be_bytes 32 d) (be_bytes 32 z) in stream gen ->
  usable d z (nonce gen j) -> (j < fuel)%nat ->
  (exists g id, sign dbg drbg fuel ctx (scalar_of z) (scalar_of d) = Done (g, id)) \/ (dbg = true /\ sign dbg drbg fuel ctx (scalar_of z) (scalar_of d) = Panic).
Proof. exact C30_terminates_pf. Qed.
Print Assumptions C30_terminates.

Example C30_terminates_example : stream one_stream /\ usable 1 1 (nonce one_stream 1).
Proof. exact C30_terminates_example_pf. Qed.

(** Usable nonces exist for every key and message, except for the zero key with the zero message. *)
Theorem C30_usable_exists : forall d z, 0 <= d < n -> 0 <= z < n -> (exists k, usable d z k) <-> ~ (d = 0 /\ z = 0).
Proof. exact C30_usable_exists_pf. Qed.
Print Assumptions C30_usable_exists.

Example C30_usable_exists_example : (exists k, usable 0 1 k) /\ forall k, ~ usable 0 0 k.
Proof. exact C30_usable_exists_example_pf. Qed.

(** Signing the zero message with a cleared key never returns, whatever the DRBG. *)
Theorem C30_zero_key_diverges : forall drbg ctx k, gen_ctx ctx -> stream (drbg (be_bytes 32 0) (be_bytes 32 0)) ->
  (forall fuel, sign false drbg fuel ctx (scalar_of 0) (sk_clear k) = Running) /\ (forall fuel g, sign true drbg fuel ctx (scalar_of 0) (sk_clear k) <> Done g).
Proof. exact C30_zero_key_diverges_pf. Qed.
Print Assumptions C30_zero_key_diverges.

Example C30_zero_key_diverges_example : (exists ctx, gen_ctx ctx) /\ stream (fun _ => be_bytes 32 1).
Proof. exact C30_zero_key_diverges_example_pf. Qed.

(** A signature with non-zero r verifies under any key denoting d*G (in any build and context) and recovers to it with the returned id. *)
Theorem C23_sign_verify : forall dbg dbg' drbg fuel gctx vctx d z g id k, gen_ctx gctx -> verify_ctx vctx -> 1 <= d < n -> 0 <= z < n -> stream (drbg (be_bytes 32 d) (be_bytes 32 z)) ->
  sign dbg drbg fuel gctx (scalar_of z) (scalar_of d) = Done (g, id) -> s_is_zero (sig_r g) = false -> key_at k (smul d G) ->
  verify dbg' vctx (scalar_of z) g k = Some true.
Proof. exact C23_sign_verify_pf. Qed.
Print Assumptions C23_sign_verify.

Example C23_sign_verify_example : exists drbg ctx g id, gen_ctx ctx /\ stream (drbg (be_bytes 32 1) (be_bytes 32 1)) /\ sign true drbg 2 ctx (scalar_of 1) (scalar_of 1) = Done (g, id) /\ s_is_zero (sig_r g) = false.
Proof. exact C23_sign_verify_example_pf. Qed.

(** r = 0 is returned only by a release build and only from a nonce whose point has x = n. *)
Theorem C23_r_zero : forall dbg drbg fuel ctx d z g id, gen_ctx ctx -> 0 <= d < n -> 0 <= z < n -> let gen := drbg (be_bytes 32 d) (be_bytes 32 z) in stream gen ->
  sign dbg drbg fuel ctx (scalar_of z) (scalar_of d) = Done (g, id) -> s_is_zero (sig_r g) = true ->
  dbg = false /\ exists j y, (j < fuel)%nat /\ smul (nonce gen j) G = Aff n y.
Proof. exact C23_r_zero_pf. Qed.
Print Assumptions C23_r_zero.

(** Recovery with the returned id gives a key denoting d*G, equal to the signer's key. *)
Theorem C24_sign_recover : forall dbg dbg' drbg fuel gctx vctx d z g id, gen_ctx gctx -> verify_ctx vctx -> 1 <= d < n -> 0 <= z < n -> stream (drbg (be_bytes 32 d) (be_bytes 32 z)) ->
  sign dbg drbg fuel gctx (scalar_of z) (scalar_of d) = Done (g, id) -> s_is_zero (sig_r g) = false ->
  0 <= id < 4 /\ exists k, recover dbg' vctx (scalar_of z) g id = Some (Ok k) /\ key_at k (smul d G) /\
    forall gctx' dbg'' k', gen_ctx gctx' -> pk_from_secret_key dbg'' gctx' (scalar_of d) = Some k' -> pk_eq dbg' k k' = Some true.
Proof. exact C24_sign_recover_pf. Qed.
Print Assumptions C24_sign_recover.

Example C24_sign_recover_example : exists drbg ctx g id, gen_ctx ctx /\ stream (drbg (be_bytes 32 1) (be_bytes 32 1)) /\ sign false drbg 2 ctx (scalar_of 1) (scalar_of 1) = Done (g, id) /\ s_is_zero (sig_r g) = false.
Proof. exact C24_sign_recover_example_pf. Qed.

(** s is between 1 and (n+1)/2, and r is below n. *)
Theorem C28_low_s : forall dbg drbg fuel ctx d z g id, gen_ctx ctx -> 0 <= d < n -> 0 <= z < n -> stream (drbg (be_bytes 32 d) (be_bytes 32 z)) ->
  sign dbg drbg fuel ctx (scalar_of z) (scalar_of d) = Done (g, id) ->
  exists r s, g = Sig (scalar_of r) (scalar_of s) /\ 0 <= r < n /\ 1 <= s <= (n + 1) / 2 /\ 0 <= id < 4 /\ (dbg = true -> 1 <= r /\ id < 2).
Proof. exact C28_low_s_pf. Qed.
Print Assumptions C28_low_s.

Example C28_low_s_example : exists drbg ctx g id, gen_ctx ctx /\ stream (drbg (be_bytes 32 1) (be_bytes 32 1)) /\ sign true drbg 2 ctx (scalar_of 1) (scalar_of 1) = Done (g, id).
Proof. exact C28_low_s_example_pf. Qed.

(** "Always low": false, s = (n+1)/2 is produced. *)
Theorem C28_low_s_refuted : exists dbg drbg fuel ctx d z g id, gen_ctx ctx /\ 1 <= d < n /\ 0 <= z < n /\ stream (drbg (be_bytes 32 d) (be_bytes 32 z)) /\
  sign dbg drbg fuel ctx (scalar_of z) (scalar_of d) = Done (g, id) /\ sig_s g = scalar_of ((n + 1) / 2) /\ (n - 1) / 2 < (n + 1) / 2.
Proof. exact C28_low_s_refuted_pf. Qed.
Print Assumptions C28_low_s_refuted.

(** "r is never 0": false in release builds. *)
Theorem C28_nonzero_r_refuted : exists drbg fuel ctx d z g id, gen_ctx ctx /\ 1 <= d < n /\ 0 <= z < n /\ stream (drbg (be_bytes 32 d) (be_bytes 32 z)) /\
  sign false drbg fuel ctx (scalar_of z) (scalar_of d) = Done (g, id) /\ sig_r g = scalar_of 0.
Proof. exact C28_nonzero_r_refuted_pf. Qed.
Print Assumptions C28_nonzero_r_refuted.

(** A signature that [verify] accepts for two messages under one key d*G: the messages are equal, or z1 + z2 = -2*r*d (opposite nonce points), or both r and r + n are x coordinates on the curve. *)
Theorem C57_message_binding : forall dbg ctx k d z1 z2 r s, verify_ctx ctx -> 1 <= d < n -> key_at k (smul d G) -> 0 <= r < n -> 0 <= s < n -> 0 <= z1 < n -> 0 <= z2 < n ->
  verify dbg ctx (scalar_of z1) (Sig (scalar_of r) (scalar_of s)) k = Some true -> verify dbg ctx (scalar_of z2) (Sig (scalar_of r) (scalar_of s)) k = Some true ->
  z1 = z2 \/ (z1 + z2 + 2 * r * d) mod n = 0 \/ (r + n < p /\ exists y y', on_curve (Aff r y) /\ on_curve (Aff (r + n) y')).
Proof. exact C57_message_binding_pf. Qed.
Print Assumptions C57_message_binding.

Example C57_message_binding_example : exists ctx, verify_ctx ctx /\ 1 <= 1 < n /\ key_at AFFINE_G (smul 1 G) /\ verify true ctx (scalar_of 0) (Sig (scalar_of gx) (scalar_of gx)) AFFINE_G = Some true.
Proof. exact C57_message_binding_example_pf. Qed.

(** A signature that [verify] accepts for one message under two keys: [recover] returns them for two ids, equal iff the keys are; so at most four keys accept a signature. *)
Theorem C57_key_binding : forall dbg ctx k1 k2 Q1 Q2 z r s, verify_ctx ctx -> key_at k1 Q1 -> key_at k2 Q2 -> Q1 <> Inf -> Q2 <> Inf -> 0 <= r < n -> 0 <= s < n -> 0 <= z < n ->
  verify dbg ctx (scalar_of z) (Sig (scalar_of r) (scalar_of s)) k1 = Some true -> verify dbg ctx (scalar_of z) (Sig (scalar_of r) (scalar_of s)) k2 = Some true ->
  exists i j, 0 <= i < 4 /\ 0 <= j < 4 /\ (Q1 = Q2 <-> i = j) /\ (exists k, recover dbg ctx (scalar_of z) (Sig (scalar_of r) (scalar_of s)) i = Some (Ok k) /\ key_at k Q1) /\
    exists k, recover dbg ctx (scalar_of z) (Sig (scalar_of r) (scalar_of s)) j = Some (Ok k) /\ key_at k Q2.
Proof. exact C57_key_binding_pf. Qed.
Print Assumptions C57_key_binding.

Example C57_key_binding_example : exists ctx, verify_ctx ctx /\ key_at AFFINE_G G /\ G <> Inf /\ verify true ctx (scalar_of 0) (Sig (scalar_of gx) (scalar_of gx)) AFFINE_G = Some true.
Proof. exact C57_key_binding_example_pf. Qed.
