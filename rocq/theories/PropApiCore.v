(** Property theorems proved in ApiCore.v (written by tools/gen_props.py). *)
From Coq Require Import String.
From Verif Require Import Word MField MScalar MGroup MApi MCore WP FieldMul FieldNorm FieldStore Spec Fp Bits ScalarAcc ScalarMul ScalarOps FieldOps FieldCodec Denote Curve Group Chain Order Jac JacOps Key Unred ApiScalar ApiPub ApiGroup ApiArith ApiMore ApiCore.

(** The predicates answer on the 256-bit value, also when it is not reduced; the threshold of [is_high] is (n-1)/2. *)
Theorem C72_scalar_predicates : forall a, 0 <= a < 2 ^ 256 ->
  s_is_zero (scalar_of a) = (a =? 0) /\ s_is_one (scalar_of a) = (a =? 1) /\ s_is_even (scalar_of a) = Z.even a /\
  s_is_high (scalar_of a) = (n <=? 2 * a + 1) /\ (forall b, 0 <= b < 2 ^ 256 -> s_eqb (scalar_of a) (scalar_of b) = (a =? b)).
Proof. exact C72_scalar_predicates_pf. Qed.
Print Assumptions C72_scalar_predicates.

Example C72_scalar_predicates_example : s_is_one (scalar_of (2 ^ 224 + 1)) = false /\ s_is_one (scalar_of 1) = true /\ s_is_even (scalar_of (n - 1)) = true /\ s_is_high (scalar_of (n - 1)) = true.
Proof. exact C72_scalar_predicates_example_pf. Qed.

(** [cadd_bit] adds the bit if the flag is set.  A sum of n or more panics in debug builds and is
    left as it is (modulo 2^256) in release builds. *)
Theorem C72_cadd_bit : forall dbg a bit (flag : bool), 0 <= a < 2 ^ 256 -> 0 <= bit < 256 ->
  let v := a + (if flag then 2 ^ bit else 0) in
  s_cadd_bit dbg (scalar_of a) bit flag = if dbg && (n <=? v) then None else Some (scalar_of (v mod 2 ^ 256)).
Proof. exact C72_cadd_bit_pf. Qed.
Print Assumptions C72_cadd_bit.

Example C72_cadd_bit_example : s_cadd_bit false (scalar_of (2 ^ 256 - 1)) 0 true = Some (scalar_of 0) /\ s_cadd_bit true (scalar_of (2 ^ 256 - 1)) 0 true = None.
Proof. exact C72_cadd_bit_example_pf. Qed.

(** * Constructors *)
Theorem C72_scalar_int : forall v, 0 <= v < 2 ^ 32 -> s_from_int v = scalar_of v.
Proof. exact C72_scalar_int_pf. Qed.
Print Assumptions C72_scalar_int.

Example C72_scalar_int_example : s_from_int 4294967295 = scalar_of 4294967295.
Proof. exact C72_scalar_int_example_pf. Qed.

(** [set_int]: a canonical element below 2^26; above, debug builds panic and release builds mark a
    limb that is too large as normalized. *)
Theorem C72_field_int : forall dbg a, 0 <= a < 2 ^ 32 ->
  (a < 2 ^ 26 -> exists r, f_set_int dbg a = Some r /\ fcan r /\ fv r = a) /\
  (2 ^ 26 <= a -> f_set_int true a = None /\ exists r, f_set_int false a = Some r /\ fv r = a /\ ~ fcan r).
Proof. exact C72_field_int_pf. Qed.
Print Assumptions C72_field_int.

Example C72_field_int_example : f_set_int true 67108863 = Some (Fe 67108863 0 0 0 0 0 0 0 0 0 1 true) /\ f_set_int true 67108864 = None.
Proof. exact C72_field_int_example_pf. Qed.

(** The element built from a larger integer is not the element of that value: encoding loses bits. *)
Theorem C72_field_int_refuted : exists a r, 0 <= a < 2 ^ 32 /\ f_set_int false a = Some r /\ f_b32 false r = Some (be_bytes 32 0) /\ a <> 0.
Proof. exact C72_field_int_refuted_pf. Qed.
Print Assumptions C72_field_int_refuted.

(** The word constructors: most significant word first. *)
Theorem C72_field_words : forall d7 d6 d5 d4 d3 d2 d1 d0,
  Forall (fun d => 0 <= d < 2 ^ 32) [d0; d1; d2; d3; d4; d5; d6; d7] -> radix 32 [d0; d1; d2; d3; d4; d5; d6; d7] < p ->
  fcan (f_new d7 d6 d5 d4 d3 d2 d1 d0) /\ fv (f_new d7 d6 d5 d4 d3 d2 d1 d0) = radix 32 [d0; d1; d2; d3; d4; d5; d6; d7] /\
  f_from_storage (fs_new d7 d6 d5 d4 d3 d2 d1 d0) = f_new d7 d6 d5 d4 d3 d2 d1 d0.
Proof. exact C72_field_words_pf. Qed.
Print Assumptions C72_field_words.

Example C72_field_words_example : fv (f_new 4294967295 4294967295 4294967295 4294967295 4294967295 4294967295 4294967294 4294966318) = p - 1.
Proof. exact C72_field_words_example_pf. Qed.

(** Points from coordinates: [new], [set_xy]; the Jacobian one has Z = 1. *)
Theorem C72_point_new : forall fx fy x y, fok 6 fx -> fok 6 fy -> fv fx mod p = x -> fv fy mod p = y -> on_curve (Aff x y) ->
  key_at (af_new fx fy) (Aff x y) /\ af_set_xy fx fy = af_new fx fy /\ jac_at (j_new fx fy) (Aff x y).
Proof. exact C72_point_new_pf. Qed.
Print Assumptions C72_point_new.

Example C72_point_new_example : key_at (af_new (af_x AFFINE_G) (af_y AFFINE_G)) G.
Proof. exact C72_point_new_example_pf. Qed.

(** * Conditional moves: all of the other value or nothing, including the bookkeeping fields *)
Theorem C72_cmov :
  (forall f g, f_cmov f g true = g /\ f_cmov f g false = f) /\
  (forall f g, fs_cmov f g true = g /\ fs_cmov f g false = f) /\
  (forall f g, as_cmov f g true = g /\ as_cmov f g false = f).
Proof. exact C72_cmov_pf. Qed.
Print Assumptions C72_cmov.

Example C72_cmov_example : f_cmov f_default (top_field 3) true = top_field 3 /\ f_cmov f_default (top_field 3) false = f_default /\ top_field 3 <> f_default.
Proof. exact C72_cmov_example_pf. Qed.

(** Cleared values do not depend on what was there; a cleared or default point is no point of the
    curve (it is not the point at infinity either), and no public key is made of it. *)
Theorem C72_clear : (forall s, s_clear s = scalar_of 0) /\ (forall f, f_clear f = f_default /\ fcan (f_clear f) /\ fv (f_clear f) = 0) /\
  (forall a, af_clear a = af_default) /\ (forall j, j_clear j = j_default) /\
  (forall dbg, af_is_valid_var dbg af_default = Some false /\ pk_try_from dbg af_default = Some (Err InvalidAffine)) /\
  (forall m P, ~ aff_at m af_default P) /\ (forall P, ~ jac_at j_default P).
Proof. exact C72_clear_pf. Qed.
Print Assumptions C72_clear.

Example C72_clear_example : af_clear AFFINE_G = af_default /\ AFFINE_G <> af_default.
Proof. exact C72_clear_example_pf. Qed.

(** The two constants for the point at infinity and [set_infinity] denote it. *)
Theorem C72_infinity : key_at AFFINE_INFINITY Inf /\ jac_at JACOBIAN_INFINITY Inf /\ jac_at j_set_infinity Inf.
Proof. exact C72_infinity_pf. Qed.
Print Assumptions C72_infinity.

(** The text of an error tells which error it is. *)
Theorem C72_error_texts : forall e e', error_display e = error_display e' -> e = e'.
Proof. exact C72_error_texts_pf. Qed.
Print Assumptions C72_error_texts.

Example C72_error_texts_example : error_display TweakOutOfRange = "Tweak out of range"%string /\ error_display InvalidAffine <> error_display InvalidMessage.
Proof. exact C72_error_texts_example_pf. Qed.
