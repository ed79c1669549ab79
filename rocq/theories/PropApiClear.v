(** Property theorems proved in ApiClear.v (written by tools/gen_props.py). *)
From Coq Require Import Znumtheory Field Zdiv.
From Verif Require Import Word MField MScalar MGroup MEcmult MEcdsa MDer MApi WP FieldMul FieldNorm FieldZero Spec Fp Bits FieldOps FieldCodec FieldStore ScalarMul ScalarOps ScalarMore ScalarBits Denote Unred Curve Group Chain Order Jac JacOps Table Wnaf WnafC Ecmult Lift Gen Key Ctx ApiScalar ApiDer ApiPub ApiGroup Ecdsa ApiEcdsa ApiKeys ApiArith ApiMore ApiUnred ApiNonce Zero ApiClear.

(** ** The zero secret key *)
Theorem C84_secret : forall dbg d t, 0 <= t < n -> let c := sk_clear d in
  sk_serialize c = repeat 0 32 /\ sk_parse dbg (sk_serialize c) = Some (Err InvalidSecretKey) /\ sk_inv dbg c = Some c /\
  sk_tweak_add_assign dbg c (scalar_of t) = Some (if t =? 0 then (c, Err TweakOutOfRange) else (scalar_of t, Ok tt)) /\
  sk_tweak_mul_assign dbg c (scalar_of t) = Some (c, if t =? 0 then Err TweakOutOfRange else Ok tt).
Proof. exact C84_secret_pf. Qed.
Print Assumptions C84_secret.

Example C84_secret_example : 0 <= n - 1 < n /\ sk_tweak_add_assign true (sk_clear (scalar_of 7)) (scalar_of 9) = Some (scalar_of 9, Ok tt).
Proof. exact C84_secret_example_pf. Qed.

(** Key agreement refuses it, with every public key value. *)
Theorem C84_secret_ecdh : forall dbg D k d, shared_secret_new dbg D k (sk_clear d) = Some (Err InvalidSecretKey).
Proof. exact C84_secret_ecdh_pf. Qed.
Print Assumptions C84_secret_ecdh.

(** [from_secret_key] does not refuse it. *)
Theorem C84_public : forall dbg ctx d, gen_ctx ctx -> exists k, pk_from_secret_key dbg ctx (sk_clear d) = Some k /\ null_key true k.
Proof. exact C84_public_pf. Qed.
Print Assumptions C84_public.

Example C84_public_example : exists ctx, gen_ctx ctx.
Proof. exact C84_public_example_pf. Qed.

(** What it signs is recovered by nobody. *)
Theorem C84_recover : forall dbg dbg' drbg fuel gctx vctx d z g id, gen_ctx gctx -> verify_ctx vctx -> 0 <= z < n -> stream (drbg (repeat 0 32) (be_bytes 32 z)) ->
  sign dbg drbg fuel gctx (scalar_of z) (sk_clear d) = Done (g, id) -> z <> 0 /\ recover dbg' vctx (scalar_of z) g id = Some (Err InvalidSignature).
Proof. exact C84_recover_pf. Qed.
Print Assumptions C84_recover.

Example C84_recover_example : exists gctx g id, gen_ctx gctx /\ stream one_stream /\ sign true (fun _ _ => one_stream) 2 gctx (scalar_of 1) (sk_clear (scalar_of 7)) = Done (g, id).
Proof. exact C84_recover_example_pf. Qed.

Theorem C84_debug_panics : forall ctx k D r s z t ks ks', null_key true k -> 1 <= r < n -> 1 <= s < n -> 0 <= z < n -> 1 <= t < n ->
  pk_serialize true k = None /\ pk_serialize_compressed true k = None /\ verify true ctx (scalar_of z) (Sig (scalar_of r) (scalar_of s)) k = None /\
  (forall u, pk_tweak_add_assign true ctx k u = None) /\ pk_tweak_mul_assign true ctx k (scalar_of t) = None /\ shared_secret_new true D k (scalar_of t) = None /\ pk_combine true (ks ++ k :: ks') = None.
Proof. exact C84_debug_panics_pf. Qed.
Print Assumptions C84_debug_panics.

Example C84_debug_panics_example : (exists k, null_key true k) /\ 1 <= 1 < n /\ 0 <= n - 1 < n.
Proof. exact C84_debug_panics_example_pf. Qed.

(** Every signature of every message is accepted. *)
Theorem C84_verify : forall dbg ctx i k r s z, verify_ctx ctx -> null_key i k -> (dbg = true -> i = false) -> 0 <= r < n -> 0 <= s < n -> 0 <= z < n ->
  verify dbg ctx (scalar_of z) (Sig (scalar_of r) (scalar_of s)) k = Some (negb ((r =? 0) || (s =? 0))).
Proof. exact C84_verify_pf. Qed.
Print Assumptions C84_verify.

Example C84_verify_example : (exists ctx, verify_ctx ctx) /\ (exists k, null_key true k) /\ 0 <= 1 < n.
Proof. exact C84_verify_example_pf. Qed.

(** So a key that [from_secret_key] returned accepts a signature nobody made: every pair r, s in [1, n-1], on every message. *)
Theorem C84_verify_sound_refuted : exists gctx vctx d k, gen_ctx gctx /\ verify_ctx vctx /\ pk_from_secret_key false gctx (sk_clear d) = Some k /\
  forall z r s, 0 <= z < n -> 1 <= r < n -> 1 <= s < n -> verify false vctx (scalar_of z) (Sig (scalar_of r) (scalar_of s)) k = Some true.
Proof. exact C84_verify_sound_refuted_pf. Qed.
Print Assumptions C84_verify_sound_refuted.

(** Tweaks return Ok and a finite key at (0, 0). *)
Theorem C84_tweak_add : forall dbg ctx i k t, verify_ctx ctx -> null_key i k -> (dbg = true -> i = false) -> 0 <= t < n ->
  exists k', pk_tweak_add_assign dbg ctx k (scalar_of t) = Some (k', Ok tt) /\ null_key false k'.
Proof. exact C84_tweak_add_pf. Qed.
Print Assumptions C84_tweak_add.

Example C84_tweak_add_example : (exists ctx, verify_ctx ctx) /\ (exists k, null_key true k) /\ 0 <= n - 1 < n.
Proof. exact C84_tweak_add_example_pf. Qed.

Theorem C84_tweak_mul : forall dbg ctx i k t, verify_ctx ctx -> null_key i k -> (dbg = true -> i = false) -> 0 <= t < n ->
  (t = 0 -> pk_tweak_mul_assign dbg ctx k (scalar_of t) = Some (k, Err TweakOutOfRange)) /\
  (t <> 0 -> exists k', pk_tweak_mul_assign dbg ctx k (scalar_of t) = Some (k', Ok tt) /\ null_key false k').
Proof. exact C84_tweak_mul_pf. Qed.
Print Assumptions C84_tweak_mul.

Example C84_tweak_mul_example : (exists ctx, verify_ctx ctx) /\ (exists k, null_key true k) /\ 0 <= n - 1 < n /\ n - 1 <> 0.
Proof. exact C84_tweak_mul_example_pf. Qed.

(** Every secret agrees on the digest of the byte 2 and 32 zero bytes. *)
Theorem C84_ecdh : forall D i k d, null_key i k -> 1 <= d < n -> shared_secret_new false D k (scalar_of d) = Some (Ok (D (2 :: repeat 0 32))).
Proof. exact C84_ecdh_pf. Qed.
Print Assumptions C84_ecdh.

Example C84_ecdh_example : (exists k, null_key true k) /\ 1 <= n - 1 < n.
Proof. exact C84_ecdh_example_pf. Qed.

(** Its encodings are all zeros after the tag, and are refused by every parser. *)
Theorem C84_serialize : forall dbg i k, null_key i k -> (dbg = true -> i = false) ->
  pk_serialize dbg k = Some (4 :: repeat 0 64) /\ pk_serialize_compressed dbg k = Some (2 :: repeat 0 32) /\
  forall dbg', pk_parse dbg' (4 :: repeat 0 64) = Some (Err InvalidPublicKey) /\ pk_parse_compressed dbg' (2 :: repeat 0 32) = Some (Err InvalidPublicKey).
Proof. exact C84_serialize_pf. Qed.
Print Assumptions C84_serialize.

Example C84_serialize_example : exists k, null_key true k.
Proof. exact C84_serialize_example_pf. Qed.

(** Alone in a combination it gives Ok and the finite key at (0, 0). *)
Theorem C84_combine : forall i k, null_key i k -> exists k', pk_combine false [k] = Some (Ok k') /\ null_key false k'.
Proof. exact C84_combine_pf. Qed.
Print Assumptions C84_combine.

Example C84_combine_example : exists k, null_key true k.
Proof. exact C84_combine_example_pf. Qed.

(** Combined with any valid key, in either order, it gives Ok and a key that is not on the curve. *)
Theorem C84_combine_with : forall i k k0 x y, null_key i k -> key_at k0 (Aff x y) ->
  (exists k', pk_combine false [k0; k] = Some (Ok k') /\ off_curve k') /\ (exists k', pk_combine false [k; k0] = Some (Ok k') /\ off_curve k').
Proof. exact C84_combine_with_pf. Qed.
Print Assumptions C84_combine_with.

Example C84_combine_with_example : (exists k, null_key true k) /\ key_at AFFINE_G (Aff gx gy).
Proof. exact C84_combine_with_example_pf. Qed.
