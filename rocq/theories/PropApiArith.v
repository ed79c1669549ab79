(** Property theorems proved in ApiArith.v (written by tools/gen_props.py). *)
From Coq Require Import Znumtheory Zdiv.
From Verif Require Import Word MField MScalar WP FieldMul FieldNorm FieldZero Spec Fp Bits FieldOps FieldCodec FieldStore ScalarMul ScalarOps ScalarMore ScalarBits Denote Curve Key ApiScalar ApiPub ApiArith.

(** The predicate used in the theorems ([Field::verify] holds, limbs non-negative, magnitude at most m) is exactly this contract. *)
Theorem C44_contract : forall m f, fok m f <-> contract m f.
Proof. exact C44_contract_pf. Qed.
Print Assumptions C44_contract.

Example C44_contract_example : contract 1 (Fe 67108863 0 0 0 0 0 0 0 0 4194303 1 true) /\ ~ contract 1 (Fe 67108863 67108863 67108863 67108863 67108863 67108863 67108863 67108863 67108863 4194303 1 true).
Proof. exact C44_contract_example_pf. Qed.

Theorem C44_add : forall dbg f g k k', fok k f -> fok k' g -> k + k' <= 32 -> exists r, f_add dbg f g = Some r /\ fok (k + k') r /\ fv r mod p = (fv f + fv g) mod p.
Proof. exact C44_add_pf. Qed.
Print Assumptions C44_add.

(** All limbs at their limits. *)
Example C44_add_example : fok 16 (top_field 16) /\ f_add true (top_field 16) (top_field 16) = Some (top_field 32).
Proof. exact C44_add_example_pf. Qed.

Theorem C44_neg : forall dbg f m, fok m f -> 0 <= m <= 31 -> exists r, f_neg dbg f m = Some r /\ fok (m + 1) r /\ fv r mod p = (- fv f) mod p.
Proof. exact C44_neg_pf. Qed.
Print Assumptions C44_neg.

Example C44_neg_example : fok 31 (top_field 31) /\ 0 <= 31 <= 31.
Proof. exact C44_neg_example_pf. Qed.

Theorem C44_mul_int : forall dbg f k a, fok k f -> 0 <= a -> k * a <= 32 -> exists r, f_mul_int dbg f a = Some r /\ fok (k * a) r /\ fv r mod p = (a * fv f) mod p.
Proof. exact C44_mul_int_pf. Qed.
Print Assumptions C44_mul_int.

Example C44_mul_int_example : fok 4 (top_field 4) /\ 4 * 8 <= 32.
Proof. exact C44_mul_int_example_pf. Qed.

Theorem C44_mul : forall dbg f g, fok 8 f -> fok 8 g -> exists r, f_mul dbg f g = Some r /\ fok 1 r /\ fv r mod p = (fv f * fv g) mod p.
Proof. exact C44_mul_pf. Qed.
Print Assumptions C44_mul.

Example C44_mul_example : fok 8 (top_field 8) /\ match f_mul true (top_field 8) (top_field 8) with Some r => fv r mod p = (fv (top_field 8) * fv (top_field 8)) mod p | None => False end.
Proof. exact C44_mul_example_pf. Qed.

Theorem C44_sqr : forall dbg f, fok 8 f -> exists r, f_sqr dbg f = Some r /\ fok 1 r /\ fv r mod p = (fv f * fv f) mod p.
Proof. exact C44_sqr_pf. Qed.
Print Assumptions C44_sqr.

Example C44_sqr_example : fok 8 (top_field 8).
Proof. exact C44_sqr_example_pf. Qed.

(** [normalize] and [normalize_var] give the canonical representation; [normalize_weak] keeps the value. *)
Theorem C44_normalize : forall dbg f, fok 31 f ->
  (exists r, f_normalize dbg f = Some r /\ fcan r /\ fv r = fv f mod p) /\ (exists r, f_normalize_var dbg f = Some r /\ fcan r /\ fv r = fv f mod p) /\
  (exists r, f_normalize_weak dbg f = Some r /\ fok 1 r /\ fv r mod p = fv f mod p).
Proof. exact C44_normalize_pf. Qed.
Print Assumptions C44_normalize.

Example C44_normalize_example : fok 31 (top_field 31) /\ fok 31 (Fe 67107887 67108799 67108863 67108863 67108863 67108863 67108863 67108863 67108863 4194303 1 false) /\
  fv (Fe 67107887 67108799 67108863 67108863 67108863 67108863 67108863 67108863 67108863 4194303 1 false) = p.
Proof. exact C44_normalize_example_pf. Qed.

(** Normalized elements with equal values are equal limb by limb (up to the magnitude, 0 or 1, of zero). *)
Theorem C44_canonical : forall n0 n1 n2 n3 n4 n5 n6 n7 n8 n9 m a0 a1 a2 a3 a4 a5 a6 a7 a8 a9 m',
  fcan (Fe n0 n1 n2 n3 n4 n5 n6 n7 n8 n9 m true) -> fcan (Fe a0 a1 a2 a3 a4 a5 a6 a7 a8 a9 m' true) ->
  fv (Fe n0 n1 n2 n3 n4 n5 n6 n7 n8 n9 m true) mod p = fv (Fe a0 a1 a2 a3 a4 a5 a6 a7 a8 a9 m' true) mod p ->
  [n0; n1; n2; n3; n4; n5; n6; n7; n8; n9] = [a0; a1; a2; a3; a4; a5; a6; a7; a8; a9].
Proof. exact C44_canonical_pf. Qed.
Print Assumptions C44_canonical.

Example C44_canonical_example : fcan (Fe 0 0 0 0 0 0 0 0 0 0 0 true) /\ fcan (Fe 0 0 0 0 0 0 0 0 0 0 1 true).
Proof. exact C44_canonical_example_pf. Qed.

Theorem C44_zero_test : forall dbg f, fok 31 f ->
  f_normalizes_to_zero dbg f = Some (fv f mod p =? 0) /\ f_normalizes_to_zero_var dbg f = Some (fv f mod p =? 0).
Proof. exact C44_zero_test_pf. Qed.
Print Assumptions C44_zero_test.

Example C44_zero_test_example : f_normalizes_to_zero true (Fe 67107887 67108799 67108863 67108863 67108863 67108863 67108863 67108863 67108863 4194303 1 false) = Some true /\
  f_normalizes_to_zero_var true (Fe 67107888 67108799 67108863 67108863 67108863 67108863 67108863 67108863 67108863 4194303 1 false) = Some false.
Proof. exact C44_zero_test_example_pf. Qed.

(** [==] and [eq_var] compare values, not representations. *)
Theorem C44_equality : forall dbg f g,
  (forall k k', fok k f -> fok k' g -> k + k' <= 30 -> f_eq dbg f g = Some (fv f mod p =? fv g mod p)) /\
  (fok 1 f -> fok 29 g -> f_eq_var dbg f g = Some (fv f mod p =? fv g mod p)).
Proof. exact C44_equality_pf. Qed.
Print Assumptions C44_equality.

Example C44_equality_example : f_eq true (top_field 15) (top_field 15) = Some true /\ f_eq true (top_field 15) (top_field 14) = Some false.
Proof. exact C44_equality_example_pf. Qed.

Theorem C45_inv : forall dbg f, fok 8 f -> exists r, f_inv dbg f = Some r /\ fok 1 r /\
  (fv f mod p <> 0 -> (fv r * fv f) mod p = 1) /\ (fv f mod p = 0 -> fv r mod p = 0).
Proof. exact C45_inv_pf. Qed.
Print Assumptions C45_inv.

Example C45_inv_example : fok 8 (top_field 8) /\ fv (top_field 8) mod p <> 0.
Proof. exact C45_inv_example_pf. Qed.

(** [sqrt] reports whether the input is a square; its result is a root of the input or of its negation. *)
Theorem C45_sqrt : forall dbg f, fok 8 f -> exists r b, f_sqrt dbg f = Some (r, b) /\ f_is_quad_var dbg f = Some b /\ fok 1 r /\
  (b = true <-> exists y, (y * y) mod p = fv f mod p) /\ (b = true -> (fv r * fv r) mod p = fv f mod p) /\ (b = false -> (fv r * fv r) mod p = (- fv f) mod p).
Proof. exact C45_sqrt_pf. Qed.
Print Assumptions C45_sqrt.

(** A square (4) and a non-square (p - 1). *)
Example C45_sqrt_example : (exists r, f_sqrt true (Fe 4 0 0 0 0 0 0 0 0 0 1 true) = Some (r, true)) /\
  (exists r, f_sqrt true (Fe 67107886 67108799 67108863 67108863 67108863 67108863 67108863 67108863 67108863 4194303 1 true) = Some (r, false)).
Proof. exact C45_sqrt_example_pf. Qed.

(** * C46 *)
Theorem C46_set_b32 : forall dbg old l, length l = 32%nat -> bytes l -> exists r, f_set_b32 dbg old l = Some (r, be_val l <? p) /\ (be_val l < p -> fcan r /\ fv r = be_val l).
Proof. exact C46_set_b32_pf. Qed.
Print Assumptions C46_set_b32.

Example C46_set_b32_example : exists r, f_set_b32 true f_default (be_bytes 32 (p - 1)) = Some (r, true) /\ exists r', f_set_b32 true f_default (be_bytes 32 p) = Some (r', false).
Proof. exact C46_set_b32_example_pf. Qed.

Theorem C46_b32 : forall dbg f, fcan f -> f_b32 dbg f = Some (be_bytes 32 (fv f)) /\ (forall old, exists r, f_set_b32 dbg old (be_bytes 32 (fv f)) = Some (r, true) /\ fcan r /\ fv r = fv f).
Proof. exact C46_b32_pf. Qed.
Print Assumptions C46_b32.

Example C46_b32_example : fcan (Fe 67107886 67108799 67108863 67108863 67108863 67108863 67108863 67108863 67108863 4194303 1 true).
Proof. exact C46_b32_example_pf. Qed.

(** Storage holds the value in eight 32-bit words and the conversion back gives the element again. *)
Theorem C46_storage : forall dbg f, fcan f -> exists s, f_to_storage dbg f = Some s /\ fsv s = fv f /\ fcan (f_from_storage s) /\ fv (f_from_storage s) = fv f.
Proof. exact C46_storage_pf. Qed.
Print Assumptions C46_storage.

Example C46_storage_example : f_to_storage true (Fe 67107886 67108799 67108863 67108863 67108863 67108863 67108863 67108863 67108863 4194303 1 true) = Some (Fs 4294966318 4294967294 4294967295 4294967295 4294967295 4294967295 4294967295 4294967295).
Proof. exact C46_storage_example_pf. Qed.

Theorem C46_compare : forall dbg f g, fcan f -> fcan g -> f_cmp_var dbg f g = Some (fv f ?= fv g) /\
  f_is_zero dbg f = Some (fv f =? 0) /\ f_is_odd dbg f = Some (Z.odd (fv f)).
Proof. exact C46_compare_pf. Qed.
Print Assumptions C46_compare.

Example C46_compare_example : f_cmp_var true (Fe 67108863 0 0 0 0 0 0 0 0 0 1 true) (Fe 0 1 0 0 0 0 0 0 0 0 1 true) = Some Lt.
Proof. exact C46_compare_example_pf. Qed.

(** The eight 32-bit words determine the scalar: every word-bounded scalar is [scalar_of v] for one v below 2^256, and the canonical ones have v < n. *)
Theorem C47_representation : forall d0 d1 d2 d3 d4 d5 d6 d7, Forall (fun d => 0 <= d < 2 ^ 32) [d0; d1; d2; d3; d4; d5; d6; d7] ->
  exists v, 0 <= v < 2 ^ 256 /\ v = radix 32 [d0; d1; d2; d3; d4; d5; d6; d7] /\ Sc d0 d1 d2 d3 d4 d5 d6 d7 = scalar_of v /\ (forall w, 0 <= w < 2 ^ 256 -> Sc d0 d1 d2 d3 d4 d5 d6 d7 = scalar_of w -> w = v).
Proof. exact C47_representation_pf. Qed.
Print Assumptions C47_representation.

Example C47_representation_example : scalar_of (n - 1) = Sc 3493216576 3218235020 2940772411 3132021990 4294967294 4294967295 4294967295 4294967295.
Proof. exact C47_representation_example_pf. Qed.

Theorem C47_ring : forall dbg a b, 0 <= a < n -> 0 <= b < n ->
  s_add dbg (scalar_of a) (scalar_of b) = Some (scalar_of ((a + b) mod n)) /\ s_mul dbg (scalar_of a) (scalar_of b) = Some (scalar_of ((a * b) mod n)) /\
  s_sqr dbg (scalar_of a) = Some (scalar_of ((a * a) mod n)) /\ s_neg dbg (scalar_of a) = Some (scalar_of ((- a) mod n)) /\
  (forall flag, s_cond_neg dbg (scalar_of a) flag = Some (scalar_of (if flag then (- a) mod n else a))).
Proof. exact C47_ring_pf. Qed.
Print Assumptions C47_ring.

Example C47_ring_example : s_add true (scalar_of (n - 1)) (scalar_of (n - 1)) = Some (scalar_of (n - 2)) /\ s_mul true (scalar_of (n - 1)) (scalar_of (n - 2)) = Some (scalar_of 2) /\ s_neg true (scalar_of 0) = Some (scalar_of 0).
Proof. exact C47_ring_example_pf. Qed.

(** Multiplication also reduces non-canonical operands. *)
Theorem C47_mul_any : forall dbg a b, 0 <= a < 2 ^ 256 -> 0 <= b < 2 ^ 256 -> s_mul dbg (scalar_of a) (scalar_of b) = Some (scalar_of ((a * b) mod n)) /\ s_sqr dbg (scalar_of a) = Some (scalar_of ((a * a) mod n)).
Proof. exact C47_mul_any_pf. Qed.
Print Assumptions C47_mul_any.

Example C47_mul_any_example : s_mul true (scalar_of (2 ^ 256 - 1)) (scalar_of (2 ^ 256 - 1)) = Some (scalar_of (((2 ^ 256 - 1) * (2 ^ 256 - 1)) mod n)).
Proof. exact C47_mul_any_example_pf. Qed.

Theorem C47_inv : forall dbg a, 0 <= a < n -> exists b, s_inv dbg (scalar_of a) = Some (scalar_of b) /\ 0 <= b < n /\ (a <> 0 -> (b * a) mod n = 1) /\ (a = 0 -> b = 0).
Proof. exact C47_inv_pf. Qed.
Print Assumptions C47_inv.

Example C47_inv_example : s_inv true (scalar_of 2) = Some (scalar_of ((n + 1) / 2)).
Proof. exact C47_inv_example_pf. Qed.

Theorem C47_codec : forall dbg a l, 0 <= a < n -> length l = 32%nat -> bytes l ->
  s_b32 (scalar_of a) = be_bytes 32 a /\ s_set_b32 dbg l = Some (scalar_of (be_val l mod n), n <=? be_val l).
Proof. exact C47_codec_pf. Qed.
Print Assumptions C47_codec.

Example C47_codec_example : s_set_b32 true (be_bytes 32 n) = Some (scalar_of 0, true) /\ s_set_b32 true (be_bytes 32 (n - 1)) = Some (scalar_of (n - 1), false).
Proof. exact C47_codec_example_pf. Qed.

(** * C48 *)
Theorem C48_bits : forall dbg a off c, 0 <= a < 2 ^ 256 -> 0 <= off -> 0 < c < 32 -> off + c <= 256 ->
  s_bits_var dbg (scalar_of a) off c = Some ((a / 2 ^ off) mod 2 ^ c) /\ ((off + c - 1) / 32 = off / 32 -> s_bits dbg (scalar_of a) off c = Some ((a / 2 ^ off) mod 2 ^ c)).
Proof. exact C48_bits_pf. Qed.
Print Assumptions C48_bits.

Example C48_bits_example : s_bits_var true (scalar_of (n - 1)) 27 15 = Some 20890 /\ s_bits true (scalar_of (n - 1)) 252 4 = Some 15.
Proof. exact C48_bits_example_pf. Qed.

Theorem C48_shr_int : forall dbg a k, 0 <= a < 2 ^ 256 -> 0 < k < 16 -> s_shr_int dbg (scalar_of a) k = Some (scalar_of (a / 2 ^ k), a mod 2 ^ k).
Proof. exact C48_shr_int_pf. Qed.
Print Assumptions C48_shr_int.

Example C48_shr_int_example : s_shr_int true (scalar_of (n - 1)) 15 = Some (scalar_of ((n - 1) / 2 ^ 15), (n - 1) mod 2 ^ 15).
Proof. exact C48_shr_int_example_pf. Qed.

Theorem C48_cadd_bit : forall dbg a bit (flag : bool), 0 <= a < 2 ^ 256 -> 0 <= bit < 256 -> a + (if flag then 2 ^ bit else 0) < n -> s_cadd_bit dbg (scalar_of a) bit flag = Some (scalar_of (a + if flag then 2 ^ bit else 0)).
Proof. exact C48_cadd_bit_pf. Qed.
Print Assumptions C48_cadd_bit.

Example C48_cadd_bit_example : s_cadd_bit true (scalar_of (2 ^ 255 - 1)) 254 true = Some (scalar_of (2 ^ 255 - 1 + 2 ^ 254)) /\ s_cadd_bit true (scalar_of (2 ^ 128 - 1)) 0 true = Some (scalar_of (2 ^ 128)).
Proof. exact C48_cadd_bit_example_pf. Qed.
