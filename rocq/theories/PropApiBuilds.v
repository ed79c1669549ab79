(** Property theorems proved in ApiBuilds.v (written by tools/gen_props.py). *)
From Verif Require Import Word MField MScalar MGroup MEcmult MEcdsa MDer MApi Mono XField XScalar XGroup XEcmult XEcdsa XDer XApi Builds BuildsQ WP FieldMul FieldNorm Spec Fp Bits FieldOps FieldCodec Denote Curve Group Chain Order Jac JacOps Table Ecmult Lift Gen Key Ctx ApiScalar ApiDer ApiPub ApiGroup Ecdsa ApiEcdsa ApiKeys ApiBuilds.

(** Public keys: parsing, serializing, comparing, deriving, tweaking, combining, serde. *)
Theorem C94_public_key :
  (forall a0 a1, every_build (pk_from_secret_key true a0 a1) (pk_from_secret_key false a0 a1) (fun c => pk_from_secret_key_x c a0 a1)) /\
  (forall a0, every_build (pk_parse true a0) (pk_parse false a0) (fun c => pk_parse_x c a0)) /\
  (forall a0, every_build (pk_parse_compressed true a0) (pk_parse_compressed false a0) (fun c => pk_parse_compressed_x c a0)) /\
  (forall a0 a1, every_build (pk_parse_slice true a0 a1) (pk_parse_slice false a0 a1) (fun c => pk_parse_slice_x c a0 a1)) /\
  (forall a0, every_build (pk_serialize true a0) (pk_serialize false a0) (fun c => pk_serialize_x c a0)) /\
  (forall a0, every_build (pk_serialize_compressed true a0) (pk_serialize_compressed false a0) (fun c => pk_serialize_compressed_x c a0)) /\
  (forall a0 a1, every_build (pk_eq true a0 a1) (pk_eq false a0 a1) (fun c => pk_eq_x c a0 a1)) /\
  (forall a0 a1 a2, every_build (pk_tweak_add_assign true a0 a1 a2) (pk_tweak_add_assign false a0 a1 a2) (fun c => pk_tweak_add_assign_x c a0 a1 a2)) /\
  (forall a0 a1 a2, every_build (pk_tweak_mul_assign true a0 a1 a2) (pk_tweak_mul_assign false a0 a1 a2) (fun c => pk_tweak_mul_assign_x c a0 a1 a2)) /\
  (forall a0, every_build (pk_combine true a0) (pk_combine false a0) (fun c => pk_combine_x c a0)) /\
  (forall a0, every_build (pk_try_from true a0) (pk_try_from false a0) (fun c => pk_try_from_x c a0)) /\
  (forall a0 a1 a2, every_build (pk_ser true a0 a1 a2) (pk_ser false a0 a1 a2) (fun c => pk_ser_x c a0 a1 a2)) /\
  (forall a0 a1 a2, every_build (pk_de true a0 a1 a2) (pk_de false a0 a1 a2) (fun c => pk_de_x c a0 a1 a2)).
Proof. exact C94_public_key_pf. Qed.
Print Assumptions C94_public_key.

(** Secret keys, messages and shared secrets. *)
Theorem C94_secret_key :
  (forall a0, every_build (sk_parse true a0) (sk_parse false a0) (fun c => sk_parse_x c a0)) /\
  (forall a0, every_build (sk_parse_slice true a0) (sk_parse_slice false a0) (fun c => sk_parse_slice_x c a0)) /\
  (forall a0 a1, every_build (sk_tweak_add_assign true a0 a1) (sk_tweak_add_assign false a0 a1) (fun c => sk_tweak_add_assign_x c a0 a1)) /\
  (forall a0 a1, every_build (sk_tweak_mul_assign true a0 a1) (sk_tweak_mul_assign false a0 a1) (fun c => sk_tweak_mul_assign_x c a0 a1)) /\
  (forall a0, every_build (sk_inv true a0) (sk_inv false a0) (fun c => sk_inv_x c a0)) /\
  (every_build (sk_default true) (sk_default false) (fun c => sk_default_x c)) /\
  (forall a0, every_build (msg_parse true a0) (msg_parse false a0) (fun c => msg_parse_x c a0)) /\
  (forall a0, every_build (msg_parse_slice true a0) (msg_parse_slice false a0) (fun c => msg_parse_slice_x c a0)) /\
  (forall a0 a1 a2, every_build (shared_secret_new true a0 a1 a2) (shared_secret_new false a0 a1 a2) (fun c => shared_secret_new_x c a0 a1 a2)) /\
  (forall fuel rng i, every_outcome (sk_random true fuel rng i) (sk_random false fuel rng i) (fun c => sk_random_x c fuel rng i)).
Proof. exact C94_secret_key_pf. Qed.
Print Assumptions C94_secret_key.

(** Signatures: parsing, normalizing, verifying, recovering, signing with a given nonce. *)
Theorem C94_signature :
  (forall a0, every_build (sig_parse_overflowing true a0) (sig_parse_overflowing false a0) (fun c => sig_parse_overflowing_x c a0)) /\
  (forall a0, every_build (sig_parse_standard true a0) (sig_parse_standard false a0) (fun c => sig_parse_standard_x c a0)) /\
  (forall a0, every_build (sig_parse_overflowing_slice true a0) (sig_parse_overflowing_slice false a0) (fun c => sig_parse_overflowing_slice_x c a0)) /\
  (forall a0, every_build (sig_parse_standard_slice true a0) (sig_parse_standard_slice false a0) (fun c => sig_parse_standard_slice_x c a0)) /\
  (forall a0, every_build (sig_parse_der true a0) (sig_parse_der false a0) (fun c => sig_parse_der_x c a0)) /\
  (forall a0, every_build (sig_parse_der_lax true a0) (sig_parse_der_lax false a0) (fun c => sig_parse_der_lax_x c a0)) /\
  (forall a0, every_build (sig_normalize_s true a0) (sig_normalize_s false a0) (fun c => sig_normalize_s_x c a0)) /\
  (forall a0 a1 a2 a3, every_build (verify true a0 a1 a2 a3) (verify false a0 a1 a2 a3) (fun c => verify_x c a0 a1 a2 a3)) /\
  (forall a0 a1 a2 a3, every_build (recover true a0 a1 a2 a3) (recover false a0 a1 a2 a3) (fun c => recover_x c a0 a1 a2 a3)) /\
  (forall a0 a1 a2 a3 a4, every_build (verify_raw true a0 a1 a2 a3 a4) (verify_raw false a0 a1 a2 a3 a4) (fun c => verify_raw_x c a0 a1 a2 a3 a4)) /\
  (forall a0 a1 a2 a3 a4, every_build (recover_raw true a0 a1 a2 a3 a4) (recover_raw false a0 a1 a2 a3 a4) (fun c => recover_raw_x c a0 a1 a2 a3 a4)) /\
  (forall a0 a1 a2 a3, every_build (sign_raw true a0 a1 a2 a3) (sign_raw false a0 a1 a2 a3) (fun c => sign_raw_x c a0 a1 a2 a3)) /\
  (forall a0 a1 a2, every_build (ecdh_raw true a0 a1 a2) (ecdh_raw false a0 a1 a2) (fun c => ecdh_raw_x c a0 a1 a2)) /\
  (forall drbg fuel ctx m sk, every_outcome (sign true drbg fuel ctx m sk) (sign false drbg fuel ctx m sk) (fun c => sign_x c drbg fuel ctx m sk)).
Proof. exact C94_signature_pf. Qed.
Print Assumptions C94_signature.

(** Points, recodings, multiplications and contexts. *)
Theorem C94_points :
  (forall a0, every_build (af_set_xquad true a0) (af_set_xquad false a0) (fun c => af_set_xquad_x c a0)) /\
  (forall a0 a1, every_build (af_set_xo_var true a0 a1) (af_set_xo_var false a0 a1) (fun c => af_set_xo_var_x c a0 a1)) /\
  (forall a0, every_build (af_is_valid_var true a0) (af_is_valid_var false a0) (fun c => af_is_valid_var_x c a0)) /\
  (forall a0, every_build (af_neg true a0) (af_neg false a0) (fun c => af_neg_x c a0)) /\
  (forall a0 a1, every_build (af_eq true a0 a1) (af_eq false a0 a1) (fun c => af_eq_x c a0 a1)) /\
  (forall a0, every_build (af_set_gej true a0) (af_set_gej false a0) (fun c => af_set_gej_x c a0)) /\
  (forall a0 a1, every_build (af_set_gej_var true a0 a1) (af_set_gej_var false a0 a1) (fun c => af_set_gej_var_x c a0 a1)) /\
  (forall a0 a1, every_build (af_set_gej_zinv true a0 a1) (af_set_gej_zinv false a0 a1) (fun c => af_set_gej_zinv_x c a0 a1)) /\
  (forall a0 a1, every_build (set_table_gej_var true a0 a1) (set_table_gej_var false a0 a1) (fun c => set_table_gej_var_x c a0 a1)) /\
  (forall a0 a1, every_build (globalz_set_table_gej true a0 a1) (globalz_set_table_gej false a0 a1) (fun c => globalz_set_table_gej_x c a0 a1)) /\
  (forall a0, every_build (j_set_ge true a0) (j_set_ge false a0) (fun c => j_set_ge_x c a0)) /\
  (forall a0 a1, every_build (j_eq_x_var true a0 a1) (j_eq_x_var false a0 a1) (fun c => j_eq_x_var_x c a0 a1)) /\
  (forall a0, every_build (j_neg true a0) (j_neg false a0) (fun c => j_neg_x c a0)) /\
  (forall a0, every_build (j_has_quad_y_var true a0) (j_has_quad_y_var false a0) (fun c => j_has_quad_y_var_x c a0)) /\
  (forall a0 a1 a2, every_build (j_double_var_in_place true a0 a1 a2) (j_double_var_in_place false a0 a1 a2) (fun c => j_double_var_in_place_x c a0 a1 a2)) /\
  (forall a0 a1, every_build (j_double_var true a0 a1) (j_double_var false a0 a1) (fun c => j_double_var_x c a0 a1)) /\
  (forall a0, every_build (j_double true a0) (j_double false a0) (fun c => j_double_x c a0)) /\
  (forall a0 a1, every_build (j_double_nonzero_in_place true a0 a1) (j_double_nonzero_in_place false a0 a1) (fun c => j_double_nonzero_in_place_x c a0 a1)) /\
  (forall a0 a1 a2, every_build (j_add_var true a0 a1 a2) (j_add_var false a0 a1 a2) (fun c => j_add_var_x c a0 a1 a2)) /\
  (forall a0 a1, every_build (j_add true a0 a1) (j_add false a0 a1) (fun c => j_add_x c a0 a1)) /\
  (forall a0 a1, every_build (j_add_ge true a0 a1) (j_add_ge false a0 a1) (fun c => j_add_ge_x c a0 a1)) /\
  (forall a0 a1 a2, every_build (j_add_ge_var true a0 a1 a2) (j_add_ge_var false a0 a1 a2) (fun c => j_add_ge_var_x c a0 a1 a2)) /\
  (forall a0 a1 a2, every_build (j_add_zinv_var true a0 a1 a2) (j_add_zinv_var false a0 a1 a2) (fun c => j_add_zinv_var_x c a0 a1 a2)) /\
  (forall a0 a1, every_build (j_rescale true a0 a1) (j_rescale false a0 a1) (fun c => j_rescale_x c a0 a1)) /\
  (forall a0, every_build (af_to_storage true a0) (af_to_storage false a0) (fun c => af_to_storage_x c a0)) /\
  (forall a0 a1, every_build (odd_multiples_table true a0 a1) (odd_multiples_table false a0 a1) (fun c => odd_multiples_table_x c a0 a1)) /\
  (forall a0 a1, every_build (odd_multiples_table_storage_var true a0 a1) (odd_multiples_table_storage_var false a0 a1) (fun c => odd_multiples_table_storage_var_x c a0 a1)) /\
  (every_build (ecmult_context_new true) (ecmult_context_new false) (fun c => ecmult_context_new_x c)) /\
  (forall a0, every_build (inv_all_var true a0) (inv_all_var false a0) (fun c => inv_all_var_x c a0)) /\
  (forall a0, every_build (set_all_gej_var true a0) (set_all_gej_var false a0) (fun c => set_all_gej_var_x c a0)) /\
  (every_build (ecmult_gen_context_new true) (ecmult_gen_context_new false) (fun c => ecmult_gen_context_new_x c)) /\
  (forall a0 a1 a2, 0 <= a2 -> every_build (ecmult_wnaf true a0 a1 a2) (ecmult_wnaf false a0 a1 a2) (fun c => ecmult_wnaf_x c a0 a1 a2)) /\
  (forall a0 a1 a2, every_build (ecmult_wnaf_const true a0 a1 a2) (ecmult_wnaf_const false a0 a1 a2) (fun c => ecmult_wnaf_const_x c a0 a1 a2)) /\
  (forall a0 a1 a2 a3, every_build (ecmult true a0 a1 a2 a3) (ecmult false a0 a1 a2 a3) (fun c => ecmult_x c a0 a1 a2 a3)) /\
  (forall a0 a1, every_build (ecmult_const true a0 a1) (ecmult_const false a0 a1) (fun c => ecmult_const_x c a0 a1)) /\
  (forall a0 a1, every_build (ecmult_gen true a0 a1) (ecmult_gen false a0 a1) (fun c => ecmult_gen_x c a0 a1)).
Proof. exact C94_points_pf. Qed.
Print Assumptions C94_points.

(** Field elements and scalars. *)
Theorem C94_arithmetic :
  (forall a0, every_build (f_normalize true a0) (f_normalize false a0) (fun c => f_normalize_x c a0)) /\
  (forall a0, every_build (f_normalize_weak true a0) (f_normalize_weak false a0) (fun c => f_normalize_weak_x c a0)) /\
  (forall a0, every_build (f_normalize_var true a0) (f_normalize_var false a0) (fun c => f_normalize_var_x c a0)) /\
  (forall a0, every_build (f_normalizes_to_zero true a0) (f_normalizes_to_zero false a0) (fun c => f_normalizes_to_zero_x c a0)) /\
  (forall a0, every_build (f_normalizes_to_zero_var true a0) (f_normalizes_to_zero_var false a0) (fun c => f_normalizes_to_zero_var_x c a0)) /\
  (forall a0, every_build (f_set_int true a0) (f_set_int false a0) (fun c => f_set_int_x c a0)) /\
  (forall a0, every_build (f_is_zero true a0) (f_is_zero false a0) (fun c => f_is_zero_x c a0)) /\
  (forall a0, every_build (f_is_odd true a0) (f_is_odd false a0) (fun c => f_is_odd_x c a0)) /\
  (forall a0 a1, every_build (f_set_b32 true a0 a1) (f_set_b32 false a0 a1) (fun c => f_set_b32_x c a0 a1)) /\
  (forall a0, every_build (f_b32 true a0) (f_b32 false a0) (fun c => f_b32_x c a0)) /\
  (forall a0 a1, every_build (f_neg true a0 a1) (f_neg false a0 a1) (fun c => f_neg_x c a0 a1)) /\
  (forall a0 a1, every_build (f_mul_int true a0 a1) (f_mul_int false a0 a1) (fun c => f_mul_int_x c a0 a1)) /\
  (forall a0 a1, every_build (f_add true a0 a1) (f_add false a0 a1) (fun c => f_add_x c a0 a1)) /\
  (forall a0 a1, every_build (f_cmp_var true a0 a1) (f_cmp_var false a0 a1) (fun c => f_cmp_var_x c a0 a1)) /\
  (forall a0 a1, every_build (f_eq_var true a0 a1) (f_eq_var false a0 a1) (fun c => f_eq_var_x c a0 a1)) /\
  (forall a0 a1, every_build (f_eq true a0 a1) (f_eq false a0 a1) (fun c => f_eq_x c a0 a1)) /\
  (forall a0 a1, every_build (f_mul true a0 a1) (f_mul false a0 a1) (fun c => f_mul_x c a0 a1)) /\
  (forall a0, every_build (f_sqr true a0) (f_sqr false a0) (fun c => f_sqr_x c a0)) /\
  (forall a0, every_build (f_sqrt true a0) (f_sqrt false a0) (fun c => f_sqrt_x c a0)) /\
  (forall a0, every_build (f_inv true a0) (f_inv false a0) (fun c => f_inv_x c a0)) /\
  (forall a0, every_build (f_is_quad_var true a0) (f_is_quad_var false a0) (fun c => f_is_quad_var_x c a0)) /\
  (forall a0, every_build (f_to_storage true a0) (f_to_storage false a0) (fun c => f_to_storage_x c a0)) /\
  (forall a0 a1 a2, 0 <= a2 -> every_build (s_bits true a0 a1 a2) (s_bits false a0 a1 a2) (fun c => s_bits_x c a0 a1 a2)) /\
  (forall a0 a1 a2, 0 <= a2 -> every_build (s_bits_var true a0 a1 a2) (s_bits_var false a0 a1 a2) (fun c => s_bits_var_x c a0 a1 a2)) /\
  (forall a0 a1 a2, every_build (s_cadd_bit true a0 a1 a2) (s_cadd_bit false a0 a1 a2) (fun c => s_cadd_bit_x c a0 a1 a2)) /\
  (forall a0, every_build (s_set_b32 true a0) (s_set_b32 false a0) (fun c => s_set_b32_x c a0)) /\
  (forall a0 a1, every_build (s_cond_neg true a0 a1) (s_cond_neg false a0 a1) (fun c => s_cond_neg_x c a0 a1)) /\
  (forall a0, every_build (s_neg true a0) (s_neg false a0) (fun c => s_neg_x c a0)) /\
  (forall a0 a1, every_build (s_mul true a0 a1) (s_mul false a0 a1) (fun c => s_mul_x c a0 a1)) /\
  (forall a0, every_build (s_sqr true a0) (s_sqr false a0) (fun c => s_sqr_x c a0)) /\
  (forall a0 a1, every_build (s_shr_int true a0 a1) (s_shr_int false a0 a1) (fun c => s_shr_int_x c a0 a1)) /\
  (forall a0, every_build (s_inv true a0) (s_inv false a0) (fun c => s_inv_x c a0)) /\
  (forall a0 a1, every_build (s_add true a0 a1) (s_add false a0 a1) (fun c => s_add_x c a0 a1)).
Proof. exact C94_arithmetic_pf. Qed.
Print Assumptions C94_arithmetic.

(** Runs of the builds with one kind of check: both return, only the one with assertions panics, only the one with overflow checks panics. *)
Example C94_public_key_example : pk_serialize_x (true, false) AFFINE_INFINITY = None /\ pk_serialize_x (false, true) AFFINE_INFINITY <> None /\ pk_try_from_x (true, false) AFFINE_G = Some (Ok AFFINE_G) /\ pk_try_from_x (false, true) AFFINE_G = Some (Ok AFFINE_G).
Proof. exact C94_public_key_example_pf. Qed.

Example C94_secret_key_example : sk_tweak_add_assign_x (true, false) (s_from_int 5) (s_from_int 6) = Some (s_from_int 11, Ok tt) /\ sk_tweak_add_assign_x (false, true) (s_from_int 5) (s_from_int 6) = Some (s_from_int 11, Ok tt).
Proof. exact C94_secret_key_example_pf. Qed.

Example C94_signature_example : sig_parse_der_x (true, false) [48; 6; 2; 1; 5; 2; 1; 9] = Some (Ok (Sig (s_from_int 5) (s_from_int 9))) /\ sig_parse_der_x (false, true) [48; 6; 2; 1; 5; 2; 1; 9] = Some (Ok (Sig (s_from_int 5) (s_from_int 9))).
Proof. exact C94_signature_example_pf. Qed.

Example C94_points_example : exists j, j_set_ge_x (false, true) AFFINE_G = Some j /\ match j_double_x (false, true) j with Some _ => True | None => False end.
Proof. exact C94_points_example_pf. Qed.

Example C94_arithmetic_example : f_add_x (false, true) big_fe FE1 = None /\ f_add_x (true, false) big_fe FE1 <> None /\ f_b32_x (true, false) big_fe = None /\ f_b32_x (false, true) big_fe <> None /\
  0 <= 2 ^ 64 - 5 /\ s_bits_x (true, false) (s_from_int 7) 10 (2 ^ 64 - 5) <> None /\ s_bits_x (false, true) (s_from_int 7) 10 (2 ^ 64 - 5) = None.
Proof. exact C94_arithmetic_example_pf. Qed.

(** "The kind of check does not matter" is false: of the builds with one kind of check, either can be the only one to panic. *)
Theorem C94_kinds_agree_refuted : (exists k, pk_serialize_x (true, false) k = None /\ pk_serialize_x (false, true) k <> None) /\
  (exists s offset count, 0 <= offset < 256 /\ 0 <= count < 2 ^ 64 /\ s_bits_x (true, false) s offset count <> None /\ s_bits_x (false, true) s offset count = None).
Proof. exact C94_kinds_agree_refuted_pf. Qed.
Print Assumptions C94_kinds_agree_refuted.

Theorem C94_sign_raw : forall ctx d z k o, gen_ctx ctx -> 0 <= d < n -> 0 <= z < n -> 1 <= k < n ->
  (sign_raw_x (true, o) ctx (scalar_of d) (scalar_of z) (scalar_of k) = None <-> wraps k) /\
  (~ wraps k -> sign_raw_x (true, o) ctx (scalar_of d) (scalar_of z) (scalar_of k) = sign_raw_x (false, false) ctx (scalar_of d) (scalar_of z) (scalar_of k)) /\
  sign_raw_x (false, o) ctx (scalar_of d) (scalar_of z) (scalar_of k) = sign_raw_x (false, false) ctx (scalar_of d) (scalar_of z) (scalar_of k) /\
  sign_raw_x (false, o) ctx (scalar_of d) (scalar_of z) (scalar_of k) <> None.
Proof. exact C94_sign_raw_pf. Qed.
Print Assumptions C94_sign_raw.

Example C94_sign_raw_example : exists ctx k k', gen_ctx ctx /\ 0 <= 1 < n /\ 1 <= k < n /\ wraps k /\ 1 <= k' < n /\ ~ wraps k'.
Proof. exact C94_sign_raw_example_pf. Qed.

(** [sign]: without debug assertions it is what the release build does, overflow checks or not, and never a panic. *)
Theorem C94_sign : forall drbg fuel ctx d z o, gen_ctx ctx -> (forall s s', stream (drbg s s')) -> 0 <= d < n -> 0 <= z < n ->
  sign_x (false, o) drbg fuel ctx (scalar_of z) (scalar_of d) = sign false drbg fuel ctx (scalar_of z) (scalar_of d) /\ sign_x (false, o) drbg fuel ctx (scalar_of z) (scalar_of d) <> Panic.
Proof. exact C94_sign_pf. Qed.
Print Assumptions C94_sign.

Example C94_sign_example : exists drbg ctx g, gen_ctx ctx /\ (forall s s', stream (drbg s s')) /\ 0 <= 1 < n /\ sign_x (false, true) drbg 2 ctx (scalar_of 1) (scalar_of 1) = Done g.
Proof. exact C94_sign_example_pf. Qed.

Theorem C94_reachable : forall gc vc k t q q' qs m g i D, reachable (VGen gc) -> reachable (VVerify vc) -> reachable (VSec k) -> reachable (VSec t) ->
  reachable (VPub q) -> reachable (VPub q') -> (forall x, In x qs -> reachable (VPub x)) -> reachable (VMsg m) -> reachable (VSig g) -> reachable (VRid i) ->
  same_in_all (pk_from_secret_key true gc k) (fun c => pk_from_secret_key_x c gc k) /\
  same_in_all (pk_serialize true q) (fun c => pk_serialize_x c q) /\
  same_in_all (pk_serialize_compressed true q) (fun c => pk_serialize_compressed_x c q) /\
  same_in_all (pk_eq true q q') (fun c => pk_eq_x c q q') /\
  same_in_all (pk_tweak_add_assign true vc q t) (fun c => pk_tweak_add_assign_x c vc q t) /\
  same_in_all (pk_tweak_mul_assign true vc q t) (fun c => pk_tweak_mul_assign_x c vc q t) /\
  same_in_all (pk_combine true qs) (fun c => pk_combine_x c qs) /\
  same_in_all (sk_tweak_add_assign true k t) (fun c => sk_tweak_add_assign_x c k t) /\
  same_in_all (sk_tweak_mul_assign true k t) (fun c => sk_tweak_mul_assign_x c k t) /\
  same_in_all (sk_inv true k) (fun c => sk_inv_x c k) /\
  same_in_all (sig_normalize_s true g) (fun c => sig_normalize_s_x c g) /\
  same_in_all (verify true vc m g q) (fun c => verify_x c vc m g q) /\
  same_in_all (recover true vc m g i) (fun c => recover_x c vc m g i) /\
  same_in_all (shared_secret_new true D q k) (fun c => shared_secret_new_x c D q k).
Proof. exact C94_reachable_pf. Qed.
Print Assumptions C94_reachable.

Example C94_reachable_example : exists gc vc k q m g i, reachable (VGen gc) /\ reachable (VVerify vc) /\ reachable (VSec k) /\ reachable (VPub q) /\ reachable (VMsg m) /\ reachable (VSig g) /\ reachable (VRid i).
Proof. exact C94_reachable_example_pf. Qed.
