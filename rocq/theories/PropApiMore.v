(** Property theorems proved in ApiMore.v (written by tools/gen_props.py). *)
From Coq Require Import Znumtheory Field Zdiv Permutation.
From Verif Require Import Word MField MScalar MGroup MEcmult MEcdsa MDer MApi WP FieldMul FieldNorm FieldZero Spec Fp Bits FieldOps FieldCodec Denote Curve Group Chain Order Jac JacOps Table Ecmult Lift Gen Key Ctx ApiScalar ApiDer ApiPub ApiGroup Ecdsa ApiEcdsa ApiKeys ApiArith ApiMore.

(** [set_xquad] succeeds iff some point has that x, and then gives the one whose y is a square; there is only one. *)
Theorem C61_set_xquad : forall dbg x, fok 8 x -> exists a ok, af_set_xquad dbg x = Some (a, ok) /\
  (ok = true <-> exists y, on_curve (Aff (fv x mod p) y)) /\
  (ok = true -> exists y, aff_at 8 a (Aff (fv x mod p) y) /\ square y /\ forall y', on_curve (Aff (fv x mod p) y') -> square y' -> y' = y).
Proof. exact C61_set_xquad_pf. Qed.
Print Assumptions C61_set_xquad.

(** gx lifts, 5 does not. *)
Example C61_set_xquad_example : fok 8 (af_x AFFINE_G) /\ on_curve (Aff (fv (af_x AFFINE_G) mod p) gy) /\ fok 8 (Fe 5 0 0 0 0 0 0 0 0 0 1 true) /\ ~ exists y, on_curve (Aff (fv (Fe 5 0 0 0 0 0 0 0 0 0 1 true) mod p) y).
Proof. exact C61_set_xquad_example_pf. Qed.

(** [set_xo_var] succeeds iff some point has that x, and then gives the one whose y has the parity asked for. *)
Theorem C61_set_xo_var : forall dbg x odd, fok 8 x -> exists a ok, af_set_xo_var dbg x odd = Some (a, ok) /\
  (ok = true <-> exists y, on_curve (Aff (fv x mod p) y)) /\
  (ok = true -> exists y, aff_at 8 a (Aff (fv x mod p) y) /\ y mod 2 = (if odd then 1 else 0)).
Proof. exact C61_set_xo_var_pf. Qed.
Print Assumptions C61_set_xo_var.

Example C61_set_xo_var_example : fok 8 (af_x AFFINE_G) /\ on_curve (Aff (fv (af_x AFFINE_G) mod p) gy) /\ gy mod 2 = 0.
Proof. exact C61_set_xo_var_example_pf. Qed.

(** * C62 *)
Theorem C62_eq_x_var : forall dbg j x y f, jac_at j (Aff x y) -> fok 8 f -> j_eq_x_var dbg j f = Some (fv f mod p =? x).
Proof. exact C62_eq_x_var_pf. Qed.
Print Assumptions C62_eq_x_var.

Example C62_eq_x_var_example : exists j x y f, jac_at j (Aff x y) /\ fok 8 f /\ fv f mod p = x.
Proof. exact C62_eq_x_var_example_pf. Qed.

(** Whether the affine y coordinate is a square; false for infinity. *)
Theorem C62_has_quad_y_var : forall dbg j P, jac_at j P -> exists b, j_has_quad_y_var dbg j = Some b /\ (b = true <-> exists x y, P = Aff x y /\ square y).
Proof. exact C62_has_quad_y_var_pf. Qed.
Print Assumptions C62_has_quad_y_var.

Example C62_has_quad_y_var_example : exists j, jac_at j (Aff gx gy) /\ jac_at (Ja f_default f_default f_default true) Inf.
Proof. exact C62_has_quad_y_var_example_pf. Qed.

(** Rescaling by a non-zero canonical factor keeps the point; the new z is z*s. *)
Theorem C62_rescale : forall dbg j P s, jac_at j P -> fcan s -> fv s <> 0 -> exists r, j_rescale dbg j s = Some r /\ jac_at r P /\ fv (j_z r) mod p = (fv (j_z j) * fv s) mod p.
Proof. exact C62_rescale_pf. Qed.
Print Assumptions C62_rescale.

Example C62_rescale_example : exists j, jac_at j (Aff gx gy) /\ fcan (Fe 5 0 0 0 0 0 0 0 0 0 1 true) /\ fv (Fe 5 0 0 0 0 0 0 0 0 0 1 true) <> 0.
Proof. exact C62_rescale_example_pf. Qed.

(** Doubling of a point known to be finite. *)
Theorem C62_double_nonzero : forall dbg j x y, jac_at j (Aff x y) -> exists r, j_double_nonzero_in_place dbg j j = Some r /\ jac_at r (padd (Aff x y) (Aff x y)) /\ j_inf r = false.
Proof. exact C62_double_nonzero_pf. Qed.
Print Assumptions C62_double_nonzero.

Example C62_double_nonzero_example : exists j, jac_at j (Aff gx gy).
Proof. exact C62_double_nonzero_example_pf. Qed.

(** Keys that compare equal are interchangeable in every operation, whatever the build and the (correct) context. *)
Theorem C63_equal_keys : forall dbg k1 k2 P1 P2, key_at k1 P1 -> key_at k2 P2 -> P1 <> Inf -> P2 <> Inf -> pk_eq dbg k1 k2 = Some true -> forall dbg1 dbg2,
  (pk_serialize dbg1 k1 = pk_serialize dbg2 k2 /\ pk_serialize_compressed dbg1 k1 = pk_serialize_compressed dbg2 k2) /\
  (forall ctx1 ctx2 z r s, verify_ctx ctx1 -> verify_ctx ctx2 -> 0 <= z < n -> 0 <= r < n -> 0 <= s < n ->
     verify dbg1 ctx1 (scalar_of z) (Sig (scalar_of r) (scalar_of s)) k1 = verify dbg2 ctx2 (scalar_of z) (Sig (scalar_of r) (scalar_of s)) k2) /\
  (forall D d, 0 <= d < n -> shared_secret_new dbg1 D k1 (scalar_of d) = shared_secret_new dbg2 D k2 (scalar_of d)) /\
  (forall ctx1 ctx2 t, verify_ctx ctx1 -> verify_ctx ctx2 -> 0 <= t < n ->
     same_tweak dbg (pk_tweak_add_assign dbg1 ctx1 k1 (scalar_of t)) (pk_tweak_add_assign dbg2 ctx2 k2 (scalar_of t)) /\
     same_tweak dbg (pk_tweak_mul_assign dbg1 ctx1 k1 (scalar_of t)) (pk_tweak_mul_assign dbg2 ctx2 k2 (scalar_of t))) /\
  (forall ks ks' Ps Ps', Forall2 key_at ks Ps -> Forall2 key_at ks' Ps' -> Forall fin (Ps ++ Ps') -> same_result dbg (pk_combine dbg (ks ++ k1 :: ks')) (pk_combine dbg (ks ++ k2 :: ks'))).
Proof. exact C63_equal_keys_pf. Qed.
Print Assumptions C63_equal_keys.

(** Two different representations of G. *)
Example C63_equal_keys_example : exists k, k <> AFFINE_G /\ key_at k G /\ key_at AFFINE_G G /\ G <> Inf /\ pk_eq true k AFFINE_G = Some true.
Proof. exact C63_equal_keys_example_pf. Qed.

(** Two additive tweaks in a row act as their sum modulo n, errors included, unless the intermediate key is refused. *)
Theorem C64_add_add : forall dbg dbg0 ctx ctx' k P t1 t2, verify_ctx ctx -> verify_ctx ctx' -> key_at k P -> P <> Inf -> 0 <= t1 < n -> 0 <= t2 < n -> padd P (smul t1 G) <> Inf ->
  exists k1, pk_tweak_add_assign dbg ctx k (scalar_of t1) = Some (k1, Ok tt) /\
    ((exists k2 k3, pk_tweak_add_assign dbg ctx k1 (scalar_of t2) = Some (k2, Ok tt) /\ pk_tweak_add_assign dbg0 ctx' k (scalar_of ((t1 + t2) mod n)) = Some (k3, Ok tt) /\ pk_eq dbg k2 k3 = Some true) \/
     (pk_tweak_add_assign dbg ctx k1 (scalar_of t2) = Some (k1, Err TweakOutOfRange) /\ pk_tweak_add_assign dbg0 ctx' k (scalar_of ((t1 + t2) mod n)) = Some (k, Err TweakOutOfRange))).
Proof. exact C64_add_add_pf. Qed.
Print Assumptions C64_add_add.

Example C64_add_add_example : (exists ctx, verify_ctx ctx) /\ key_at AFFINE_G G /\ G <> Inf /\ 0 <= 1 < n /\ padd G (smul 1 G) <> Inf.
Proof. exact C64_add_add_example_pf. Qed.

(** Two multiplicative tweaks in a row act as their product modulo n. *)
Theorem C64_mul_mul : forall dbg dbg0 ctx ctx' k P t1 t2, verify_ctx ctx -> verify_ctx ctx' -> key_at k P -> P <> Inf -> 1 <= t1 < n -> 1 <= t2 < n ->
  exists k1 k2 k3, pk_tweak_mul_assign dbg ctx k (scalar_of t1) = Some (k1, Ok tt) /\ pk_tweak_mul_assign dbg ctx k1 (scalar_of t2) = Some (k2, Ok tt) /\
    pk_tweak_mul_assign dbg0 ctx' k (scalar_of ((t1 * t2) mod n)) = Some (k3, Ok tt) /\ pk_eq dbg k2 k3 = Some true.
Proof. exact C64_mul_mul_pf. Qed.
Print Assumptions C64_mul_mul.

Example C64_mul_mul_example : (exists ctx, verify_ctx ctx) /\ key_at AFFINE_G G /\ G <> Inf /\ 1 <= n - 1 < n.
Proof. exact C64_mul_mul_example_pf. Qed.

(** A successful tweak is undone by the opposite tweak, or by the tweak by the inverse. *)
Theorem C64_undo : forall dbg ctx k P t, verify_ctx ctx -> key_at k P -> P <> Inf -> 1 <= t < n ->
  (padd P (smul t G) <> Inf -> exists k1 k2, pk_tweak_add_assign dbg ctx k (scalar_of t) = Some (k1, Ok tt) /\ pk_tweak_add_assign dbg ctx k1 (scalar_of (n - t)) = Some (k2, Ok tt) /\ pk_eq dbg k2 k = Some true) /\
  (exists k1 i k2, pk_tweak_mul_assign dbg ctx k (scalar_of t) = Some (k1, Ok tt) /\ sk_inv dbg (scalar_of t) = Some i /\ pk_tweak_mul_assign dbg ctx k1 i = Some (k2, Ok tt) /\ pk_eq dbg k2 k = Some true).
Proof. exact C64_undo_pf. Qed.
Print Assumptions C64_undo.

Example C64_undo_example : (exists ctx, verify_ctx ctx) /\ key_at AFFINE_G G /\ G <> Inf /\ 1 <= 1 < n /\ padd G (smul 1 G) <> Inf.
Proof. exact C64_undo_example_pf. Qed.

(** From secret key and message to acceptance by a verifier who received the key, the message and the signature as byte strings, in any of their formats. *)
Theorem C65_pipeline : forall dbg dbg' drbg fuel gctx vctx bk bm k m q g id, gen_ctx gctx -> verify_ctx vctx -> stream (drbg (sk_serialize k) (msg_serialize m)) ->
  length bk = 32%nat -> bytes bk -> length bm = 32%nat -> bytes bm ->
  sk_parse dbg bk = Some (Ok k) -> msg_parse dbg bm = Some m -> pk_from_secret_key dbg gctx k = Some q -> sign dbg drbg fuel gctx m k = Done (g, id) -> s_is_zero (sig_r g) = false ->
  exists full comp q1 q2 q3, pk_serialize dbg q = Some full /\ pk_serialize_compressed dbg q = Some comp /\
    pk_parse dbg' full = Some (Ok q1) /\ pk_parse_compressed dbg' comp = Some (Ok q2) /\
    sig_parse_standard dbg' (sig_serialize g) = Some (Ok g) /\ sig_parse_der dbg' (sig_serialize_der g) = Some (Ok g) /\ sig_parse_der_lax dbg' (sig_serialize_der g) = Some (Ok g) /\
    rid_parse (rid_serialize id) = Ok id /\ msg_parse dbg' bm = Some m /\
    verify dbg' vctx m g q1 = Some true /\ verify dbg' vctx m g q2 = Some true /\
    recover dbg' vctx m g id = Some (Ok q3) /\ pk_serialize dbg' q3 = Some full /\ pk_eq dbg' q3 q1 = Some true.
Proof. exact C65_pipeline_pf. Qed.
Print Assumptions C65_pipeline.

Example C65_pipeline_example : exists drbg gctx vctx k m q g id, gen_ctx gctx /\ verify_ctx vctx /\ stream (drbg (sk_serialize k) (msg_serialize m)) /\ sk_parse true (be_bytes 32 1) = Some (Ok k) /\ msg_parse true (be_bytes 32 1) = Some m /\
  pk_from_secret_key true gctx k = Some q /\ sign true drbg 2 gctx m k = Done (g, id) /\ s_is_zero (sig_r g) = false.
Proof. exact C65_pipeline_example_pf. Qed.

(** The keys recovered from one signature with different ids are different. *)
Theorem C26_distinct_ids : forall dbg ctx k1 k2 z r s i j, verify_ctx ctx -> 0 <= z < n -> 0 <= r < n -> 0 <= s < n -> 0 <= i < 4 -> 0 <= j < 4 ->
  recover dbg ctx (scalar_of z) (Sig (scalar_of r) (scalar_of s)) i = Some (Ok k1) -> recover dbg ctx (scalar_of z) (Sig (scalar_of r) (scalar_of s)) j = Some (Ok k2) ->
  exists b, pk_eq dbg k1 k2 = Some b /\ (b = true <-> i = j).
Proof. exact C26_distinct_ids_pf. Qed.
Print Assumptions C26_distinct_ids.

Example C26_distinct_ids_example : exists ctx id k, verify_ctx ctx /\ 0 <= id < 4 /\ recover true ctx (scalar_of 0) (Sig (scalar_of gx) (scalar_of gx)) id = Some (Ok k).
Proof. exact C26_distinct_ids_example_pf. Qed.
