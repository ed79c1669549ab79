(** Property theorems proved in ApiMono.v (written by tools/gen_props.py). *)
From Verif Require Import Word MField MScalar MGroup MEcmult MEcdsa MDer MApi Mono ApiMono.

(** Public keys: parsing, serializing, comparing, deriving, tweaking, combining, serde. *)
Theorem C66_public_key :
  (forall a0 a1 v, pk_from_secret_key true a0 a1 = Some v -> pk_from_secret_key false a0 a1 = Some v) /\
  (forall a0 v, pk_parse true a0 = Some v -> pk_parse false a0 = Some v) /\
  (forall a0 v, pk_parse_compressed true a0 = Some v -> pk_parse_compressed false a0 = Some v) /\
  (forall a0 a1 v, pk_parse_slice true a0 a1 = Some v -> pk_parse_slice false a0 a1 = Some v) /\
  (forall a0 v, pk_serialize true a0 = Some v -> pk_serialize false a0 = Some v) /\
  (forall a0 v, pk_serialize_compressed true a0 = Some v -> pk_serialize_compressed false a0 = Some v) /\
  (forall a0 a1 v, pk_eq true a0 a1 = Some v -> pk_eq false a0 a1 = Some v) /\
  (forall a0 a1 a2 v, pk_tweak_add_assign true a0 a1 a2 = Some v -> pk_tweak_add_assign false a0 a1 a2 = Some v) /\
  (forall a0 a1 a2 v, pk_tweak_mul_assign true a0 a1 a2 = Some v -> pk_tweak_mul_assign false a0 a1 a2 = Some v) /\
  (forall a0 v, pk_combine true a0 = Some v -> pk_combine false a0 = Some v) /\
  (forall a0 v, pk_try_from true a0 = Some v -> pk_try_from false a0 = Some v) /\
  (forall a0 a1 a2 v, pk_ser true a0 a1 a2 = Some v -> pk_ser false a0 a1 a2 = Some v) /\
  (forall a0 a1 a2 v, pk_de true a0 a1 a2 = Some v -> pk_de false a0 a1 a2 = Some v).
Proof. exact C66_public_key_pf. Qed.
Print Assumptions C66_public_key.

(** Secret keys, messages and shared secrets. *)
Theorem C66_secret_key :
  (forall a0 v, sk_parse true a0 = Some v -> sk_parse false a0 = Some v) /\
  (forall a0 v, sk_parse_slice true a0 = Some v -> sk_parse_slice false a0 = Some v) /\
  (forall a0 a1 v, sk_tweak_add_assign true a0 a1 = Some v -> sk_tweak_add_assign false a0 a1 = Some v) /\
  (forall a0 a1 v, sk_tweak_mul_assign true a0 a1 = Some v -> sk_tweak_mul_assign false a0 a1 = Some v) /\
  (forall a0 v, sk_inv true a0 = Some v -> sk_inv false a0 = Some v) /\
  (forall v, sk_default true = Some v -> sk_default false = Some v) /\
  (forall a0 v, msg_parse true a0 = Some v -> msg_parse false a0 = Some v) /\
  (forall a0 v, msg_parse_slice true a0 = Some v -> msg_parse_slice false a0 = Some v) /\
  (forall a0 a1 a2 v, shared_secret_new true a0 a1 a2 = Some v -> shared_secret_new false a0 a1 a2 = Some v) /\
  (forall fuel rng i r, sk_random true fuel rng i = r -> r <> Panic -> sk_random false fuel rng i = r).
Proof. exact C66_secret_key_pf. Qed.
Print Assumptions C66_secret_key.

(** Signatures: parsing, normalizing, verifying, recovering, signing with a given nonce. *)
Theorem C66_signature :
  (forall a0 v, sig_parse_overflowing true a0 = Some v -> sig_parse_overflowing false a0 = Some v) /\
  (forall a0 v, sig_parse_standard true a0 = Some v -> sig_parse_standard false a0 = Some v) /\
  (forall a0 v, sig_parse_overflowing_slice true a0 = Some v -> sig_parse_overflowing_slice false a0 = Some v) /\
  (forall a0 v, sig_parse_standard_slice true a0 = Some v -> sig_parse_standard_slice false a0 = Some v) /\
  (forall a0 v, sig_parse_der true a0 = Some v -> sig_parse_der false a0 = Some v) /\
  (forall a0 v, sig_parse_der_lax true a0 = Some v -> sig_parse_der_lax false a0 = Some v) /\
  (forall a0 v, sig_normalize_s true a0 = Some v -> sig_normalize_s false a0 = Some v) /\
  (forall a0 a1 a2 a3 v, verify true a0 a1 a2 a3 = Some v -> verify false a0 a1 a2 a3 = Some v) /\
  (forall a0 a1 a2 a3 v, recover true a0 a1 a2 a3 = Some v -> recover false a0 a1 a2 a3 = Some v) /\
  (forall a0 a1 a2 a3 a4 v, verify_raw true a0 a1 a2 a3 a4 = Some v -> verify_raw false a0 a1 a2 a3 a4 = Some v) /\
  (forall a0 a1 a2 a3 a4 v, recover_raw true a0 a1 a2 a3 a4 = Some v -> recover_raw false a0 a1 a2 a3 a4 = Some v) /\
  (forall a0 a1 a2 a3 v, sign_raw true a0 a1 a2 a3 = Some v -> sign_raw false a0 a1 a2 a3 = Some v) /\
  (forall a0 a1 a2 v, ecdh_raw true a0 a1 a2 = Some v -> ecdh_raw false a0 a1 a2 = Some v) /\
  (forall drbg fuel ctx m sk r, sign true drbg fuel ctx m sk = r -> r <> Panic -> sign false drbg fuel ctx m sk = r).
Proof. exact C66_signature_pf. Qed.
Print Assumptions C66_signature.

(** Points, recodings, multiplications and contexts. *)
Theorem C66_points :
  (forall a0 v, af_set_xquad true a0 = Some v -> af_set_xquad false a0 = Some v) /\
  (forall a0 a1 v, af_set_xo_var true a0 a1 = Some v -> af_set_xo_var false a0 a1 = Some v) /\
  (forall a0 v, af_is_valid_var true a0 = Some v -> af_is_valid_var false a0 = Some v) /\
  (forall a0 v, af_neg true a0 = Some v -> af_neg false a0 = Some v) /\
  (forall a0 a1 v, af_eq true a0 a1 = Some v -> af_eq false a0 a1 = Some v) /\
  (forall a0 v, af_set_gej true a0 = Some v -> af_set_gej false a0 = Some v) /\
  (forall a0 a1 v, af_set_gej_var true a0 a1 = Some v -> af_set_gej_var false a0 a1 = Some v) /\
  (forall a0 a1 v, af_set_gej_zinv true a0 a1 = Some v -> af_set_gej_zinv false a0 a1 = Some v) /\
  (forall a0 a1 v, set_table_gej_var true a0 a1 = Some v -> set_table_gej_var false a0 a1 = Some v) /\
  (forall a0 a1 v, globalz_set_table_gej true a0 a1 = Some v -> globalz_set_table_gej false a0 a1 = Some v) /\
  (forall a0 v, j_set_ge true a0 = Some v -> j_set_ge false a0 = Some v) /\
  (forall a0 a1 v, j_eq_x_var true a0 a1 = Some v -> j_eq_x_var false a0 a1 = Some v) /\
  (forall a0 v, j_neg true a0 = Some v -> j_neg false a0 = Some v) /\
  (forall a0 v, j_has_quad_y_var true a0 = Some v -> j_has_quad_y_var false a0 = Some v) /\
  (forall a0 a1 a2 v, j_double_var_in_place true a0 a1 a2 = Some v -> j_double_var_in_place false a0 a1 a2 = Some v) /\
  (forall a0 a1 v, j_double_var true a0 a1 = Some v -> j_double_var false a0 a1 = Some v) /\
  (forall a0 v, j_double true a0 = Some v -> j_double false a0 = Some v) /\
  (forall a0 a1 v, j_double_nonzero_in_place true a0 a1 = Some v -> j_double_nonzero_in_place false a0 a1 = Some v) /\
  (forall a0 a1 a2 v, j_add_var true a0 a1 a2 = Some v -> j_add_var false a0 a1 a2 = Some v) /\
  (forall a0 a1 v, j_add true a0 a1 = Some v -> j_add false a0 a1 = Some v) /\
  (forall a0 a1 v, j_add_ge true a0 a1 = Some v -> j_add_ge false a0 a1 = Some v) /\
  (forall a0 a1 a2 v, j_add_ge_var true a0 a1 a2 = Some v -> j_add_ge_var false a0 a1 a2 = Some v) /\
  (forall a0 a1 a2 v, j_add_zinv_var true a0 a1 a2 = Some v -> j_add_zinv_var false a0 a1 a2 = Some v) /\
  (forall a0 a1 v, j_rescale true a0 a1 = Some v -> j_rescale false a0 a1 = Some v) /\
  (forall a0 v, af_to_storage true a0 = Some v -> af_to_storage false a0 = Some v) /\
  (forall a0 a1 v, odd_multiples_table true a0 a1 = Some v -> odd_multiples_table false a0 a1 = Some v) /\
  (forall a0 a1 v, odd_multiples_table_storage_var true a0 a1 = Some v -> odd_multiples_table_storage_var false a0 a1 = Some v) /\
  (forall v, ecmult_context_new true = Some v -> ecmult_context_new false = Some v) /\
  (forall a0 v, inv_all_var true a0 = Some v -> inv_all_var false a0 = Some v) /\
  (forall a0 v, set_all_gej_var true a0 = Some v -> set_all_gej_var false a0 = Some v) /\
  (forall v, ecmult_gen_context_new true = Some v -> ecmult_gen_context_new false = Some v) /\
  (forall a0 a1 a2 v, ecmult_wnaf true a0 a1 a2 = Some v -> ecmult_wnaf false a0 a1 a2 = Some v) /\
  (forall a0 a1 a2 v, ecmult_wnaf_const true a0 a1 a2 = Some v -> ecmult_wnaf_const false a0 a1 a2 = Some v) /\
  (forall a0 a1 a2 a3 v, ecmult true a0 a1 a2 a3 = Some v -> ecmult false a0 a1 a2 a3 = Some v) /\
  (forall a0 a1 v, ecmult_const true a0 a1 = Some v -> ecmult_const false a0 a1 = Some v) /\
  (forall a0 a1 v, ecmult_gen true a0 a1 = Some v -> ecmult_gen false a0 a1 = Some v).
Proof. exact C66_points_pf. Qed.
Print Assumptions C66_points.

(** Field elements and scalars. *)
Theorem C66_arithmetic :
  (forall a0 v, f_normalize true a0 = Some v -> f_normalize false a0 = Some v) /\
  (forall a0 v, f_normalize_weak true a0 = Some v -> f_normalize_weak false a0 = Some v) /\
  (forall a0 v, f_normalize_var true a0 = Some v -> f_normalize_var false a0 = Some v) /\
  (forall a0 v, f_normalizes_to_zero true a0 = Some v -> f_normalizes_to_zero false a0 = Some v) /\
  (forall a0 v, f_normalizes_to_zero_var true a0 = Some v -> f_normalizes_to_zero_var false a0 = Some v) /\
  (forall a0 v, f_set_int true a0 = Some v -> f_set_int false a0 = Some v) /\
  (forall a0 v, f_is_zero true a0 = Some v -> f_is_zero false a0 = Some v) /\
  (forall a0 v, f_is_odd true a0 = Some v -> f_is_odd false a0 = Some v) /\
  (forall a0 a1 v, f_set_b32 true a0 a1 = Some v -> f_set_b32 false a0 a1 = Some v) /\
  (forall a0 v, f_b32 true a0 = Some v -> f_b32 false a0 = Some v) /\
  (forall a0 a1 v, f_neg true a0 a1 = Some v -> f_neg false a0 a1 = Some v) /\
  (forall a0 a1 v, f_mul_int true a0 a1 = Some v -> f_mul_int false a0 a1 = Some v) /\
  (forall a0 a1 v, f_add true a0 a1 = Some v -> f_add false a0 a1 = Some v) /\
  (forall a0 a1 v, f_cmp_var true a0 a1 = Some v -> f_cmp_var false a0 a1 = Some v) /\
  (forall a0 a1 v, f_eq_var true a0 a1 = Some v -> f_eq_var false a0 a1 = Some v) /\
  (forall a0 a1 v, f_eq true a0 a1 = Some v -> f_eq false a0 a1 = Some v) /\
  (forall a0 a1 v, f_mul true a0 a1 = Some v -> f_mul false a0 a1 = Some v) /\
  (forall a0 v, f_sqr true a0 = Some v -> f_sqr false a0 = Some v) /\
  (forall a0 v, f_sqrt true a0 = Some v -> f_sqrt false a0 = Some v) /\
  (forall a0 v, f_inv true a0 = Some v -> f_inv false a0 = Some v) /\
  (forall a0 v, f_is_quad_var true a0 = Some v -> f_is_quad_var false a0 = Some v) /\
  (forall a0 v, f_to_storage true a0 = Some v -> f_to_storage false a0 = Some v) /\
  (forall a0 a1 a2 v, s_bits true a0 a1 a2 = Some v -> s_bits false a0 a1 a2 = Some v) /\
  (forall a0 a1 a2 v, s_bits_var true a0 a1 a2 = Some v -> s_bits_var false a0 a1 a2 = Some v) /\
  (forall a0 a1 a2 v, s_cadd_bit true a0 a1 a2 = Some v -> s_cadd_bit false a0 a1 a2 = Some v) /\
  (forall a0 v, s_set_b32 true a0 = Some v -> s_set_b32 false a0 = Some v) /\
  (forall a0 a1 v, s_cond_neg true a0 a1 = Some v -> s_cond_neg false a0 a1 = Some v) /\
  (forall a0 v, s_neg true a0 = Some v -> s_neg false a0 = Some v) /\
  (forall a0 a1 v, s_mul true a0 a1 = Some v -> s_mul false a0 a1 = Some v) /\
  (forall a0 v, s_sqr true a0 = Some v -> s_sqr false a0 = Some v) /\
  (forall a0 a1 v, s_shr_int true a0 a1 = Some v -> s_shr_int false a0 a1 = Some v) /\
  (forall a0 v, s_inv true a0 = Some v -> s_inv false a0 = Some v) /\
  (forall a0 a1 v, s_add true a0 a1 = Some v -> s_add false a0 a1 = Some v).
Proof. exact C66_arithmetic_pf. Qed.
Print Assumptions C66_arithmetic.

(** Debug runs that return; and one that panics where the release build does not (so the converse fails). *)
Example C66_public_key_example : exists k, pk_try_from true AFFINE_G = Some (Ok k) /\ pk_serialize true AFFINE_G <> None /\ pk_serialize true AFFINE_INFINITY = None /\ pk_serialize false AFFINE_INFINITY <> None.
Proof. exact C66_public_key_example_pf. Qed.

Example C66_secret_key_example : sk_parse true (repeat 7 32) <> None /\ sk_tweak_add_assign true (s_from_int 5) (s_from_int 6) = Some (s_from_int 11, Ok tt).
Proof. exact C66_secret_key_example_pf. Qed.

Example C66_signature_example : sig_parse_der true [48; 6; 2; 1; 5; 2; 1; 9] = Some (Ok (Sig (s_from_int 5) (s_from_int 9))) /\ sig_normalize_s true (Sig (s_from_int 5) (s_from_int 9)) = Some (Sig (s_from_int 5) (s_from_int 9)).
Proof. exact C66_signature_example_pf. Qed.

Example C66_points_example : exists j, j_set_ge true AFFINE_G = Some j /\ match j_double true j with Some _ => True | None => False end.
Proof. exact C66_points_example_pf. Qed.

Example C66_arithmetic_example : f_mul true FE1 FE1 <> None /\ s_mul true (s_from_int 3) (s_from_int 4) = Some (s_from_int 12) /\ s_bits true (s_from_int 3) 31 2 = None /\ s_bits false (s_from_int 3) 31 2 <> None.
Proof. exact C66_arithmetic_example_pf. Qed.
