(** Property theorems proved in ApiScalar.v (written by tools/gen_props.py). *)
From Coq Require Import Znumtheory.
From Verif Require Import Word MScalar MApi WP ScalarAcc ScalarMul Spec Fp Bits ScalarOps ScalarRed ScalarMore ScalarBits Denote ApiScalar.

(** [SecretKey::parse] accepts exactly the integers 1 .. n-1, and the key is that integer. *)
Theorem C01_seckey_parse : forall dbg b, length b = 32%nat -> bytes b ->
  sk_parse dbg b = Some (if (1 <=? be_val b) && (be_val b <? n) then Ok (scalar_of (be_val b)) else Err InvalidSecretKey).
Proof. exact C01_seckey_parse_pf. Qed.
Print Assumptions C01_seckey_parse.

Example C01_seckey_parse_example :
  length (repeat 255 32) = 32%nat /\ bytes (repeat 255 32) /\ sk_parse true (repeat 255 32) = Some (Err InvalidSecretKey) /\
  sk_parse true (repeat 0 31 ++ [7]) = Some (Ok (scalar_of 7)) /\ sk_parse false (be_bytes 32 n) = Some (Err InvalidSecretKey) /\
  sk_parse false (be_bytes 32 (n - 1)) = Some (Ok (scalar_of (n - 1))).
Proof. exact C01_seckey_parse_example_pf. Qed.

(** [parse_slice] rejects exactly the lengths other than 32 and otherwise is [parse]. *)
Theorem C01_seckey_parse_slice : forall dbg b, bytes b ->
  (length b <> 32%nat -> sk_parse_slice dbg b = Some (Err InvalidInputLength)) /\
  (length b = 32%nat -> sk_parse_slice dbg b = sk_parse dbg b /\ sk_parse_slice dbg b <> Some (Err InvalidInputLength)).
Proof. exact C01_seckey_parse_slice_pf. Qed.
Print Assumptions C01_seckey_parse_slice.

Example C01_seckey_parse_slice_example : sk_parse_slice true [1; 2; 3] = Some (Err InvalidInputLength) /\ sk_parse_slice true [] = Some (Err InvalidInputLength).
Proof. exact C01_seckey_parse_slice_example_pf. Qed.

(** Serializing a valid key gives the 32-byte big-endian integer, and parsing that gives the key back. *)
Theorem C02_seckey_roundtrip : forall dbg d, 1 <= d < n ->
  sk_serialize (scalar_of d) = be_bytes 32 d /\ sk_parse dbg (sk_serialize (scalar_of d)) = Some (Ok (scalar_of d)).
Proof. exact C02_seckey_roundtrip_pf. Qed.
Print Assumptions C02_seckey_roundtrip.

Example C02_seckey_roundtrip_example : 1 <= 258 < n /\ sk_serialize (scalar_of 258) = repeat 0 30 ++ [1; 2].
Proof. exact C02_seckey_roundtrip_example_pf. Qed.

(** Serializing what was parsed gives the input back. *)
Theorem C02_seckey_parse_serialize : forall dbg b k, length b = 32%nat -> bytes b ->
  sk_parse dbg b = Some (Ok k) -> sk_serialize k = b.
Proof. exact C02_seckey_parse_serialize_pf. Qed.
Print Assumptions C02_seckey_parse_serialize.

Example C02_seckey_parse_serialize_example : exists b k, length b = 32%nat /\ sk_parse true b = Some (Ok k) /\ sk_serialize k = b.
Proof. exact C02_seckey_parse_serialize_example_pf. Qed.

(** Distinct valid keys have distinct serializations. *)
Theorem C02_seckey_injective : forall d e, 1 <= d < n -> 1 <= e < n ->
  sk_serialize (scalar_of d) = sk_serialize (scalar_of e) -> d = e.
Proof. exact C02_seckey_injective_pf. Qed.
Print Assumptions C02_seckey_injective.

Example C02_seckey_injective_example : sk_serialize (scalar_of 1) <> sk_serialize (scalar_of 2).
Proof. exact C02_seckey_injective_example_pf. Qed.

(** [parse_standard] accepts exactly r, s < n. *)
Theorem C08_sig_parse_standard : forall dbg a b, length a = 32%nat -> length b = 32%nat -> bytes a -> bytes b ->
  sig_parse_standard dbg (a ++ b) =
  Some (if (be_val a <? n) && (be_val b <? n) then Ok (Sig (scalar_of (be_val a)) (scalar_of (be_val b))) else Err InvalidSignature).
Proof. exact C08_sig_parse_standard_pf. Qed.
Print Assumptions C08_sig_parse_standard.

Example C08_sig_parse_standard_example :
  sig_parse_standard true (be_bytes 32 5 ++ be_bytes 32 (n - 1)) = Some (Ok (Sig (scalar_of 5) (scalar_of (n - 1)))) /\
  sig_parse_standard true (be_bytes 32 5 ++ be_bytes 32 n) = Some (Err InvalidSignature).
Proof. exact C08_sig_parse_standard_example_pf. Qed.

(** [parse_standard] and [serialize] are mutually inverse. *)
Theorem C08_sig_roundtrip : forall dbg r s, 0 <= r < n -> 0 <= s < n ->
  sig_serialize (Sig (scalar_of r) (scalar_of s)) = be_bytes 32 r ++ be_bytes 32 s /\
  sig_parse_standard dbg (sig_serialize (Sig (scalar_of r) (scalar_of s))) = Some (Ok (Sig (scalar_of r) (scalar_of s))).
Proof. exact C08_sig_roundtrip_pf. Qed.
Print Assumptions C08_sig_roundtrip.

Example C08_sig_roundtrip_example : 0 <= 3 < n /\ 0 <= n - 1 < n /\ length (sig_serialize (Sig (scalar_of 3) (scalar_of (n - 1)))) = 64%nat.
Proof. exact C08_sig_roundtrip_example_pf. Qed.

Theorem C08_sig_parse_serialize : forall dbg b g, length b = 64%nat -> bytes b ->
  sig_parse_standard dbg b = Some (Ok g) -> sig_serialize g = b.
Proof. exact C08_sig_parse_serialize_pf. Qed.
Print Assumptions C08_sig_parse_serialize.

Example C08_sig_parse_serialize_example : exists b g, length b = 64%nat /\ sig_parse_standard true b = Some (Ok g).
Proof. exact C08_sig_parse_serialize_example_pf. Qed.

(** The slice versions reject exactly the lengths other than 64. *)
Theorem C08_sig_slices : forall dbg b, bytes b ->
  (length b <> 64%nat -> sig_parse_standard_slice dbg b = Some (Err InvalidInputLength) /\ sig_parse_overflowing_slice dbg b = Some (Err InvalidInputLength)) /\
  (length b = 64%nat -> sig_parse_standard_slice dbg b = sig_parse_standard dbg b /\ sig_parse_standard_slice dbg b <> Some (Err InvalidInputLength)
     /\ exists g, sig_parse_overflowing dbg b = Some g /\ sig_parse_overflowing_slice dbg b = Some (Ok g)).
Proof. exact C08_sig_slices_pf. Qed.
Print Assumptions C08_sig_slices.

Example C08_sig_slices_example : sig_parse_standard_slice true (repeat 1 63) = Some (Err InvalidInputLength).
Proof. exact C08_sig_slices_example_pf. Qed.

(** [parse_overflowing] reduces both halves modulo n. *)
Theorem C09_sig_parse_overflowing : forall dbg a b, length a = 32%nat -> length b = 32%nat -> bytes a -> bytes b ->
  sig_parse_overflowing dbg (a ++ b) = Some (Sig (scalar_of (be_val a mod n)) (scalar_of (be_val b mod n))).
Proof. exact C09_sig_parse_overflowing_pf. Qed.
Print Assumptions C09_sig_parse_overflowing.

Example C09_sig_parse_overflowing_example : sig_parse_overflowing true (be_bytes 32 (n + 5) ++ be_bytes 32 n) = Some (Sig (scalar_of 5) (scalar_of 0)).
Proof. exact C09_sig_parse_overflowing_example_pf. Qed.

Theorem C09_overflowing_extends_standard : forall dbg b g, length b = 64%nat -> bytes b ->
  sig_parse_standard dbg b = Some (Ok g) -> sig_parse_overflowing dbg b = Some g.
Proof. exact C09_overflowing_extends_standard_pf. Qed.
Print Assumptions C09_overflowing_extends_standard.

Example C09_overflowing_extends_standard_example : exists b g, length b = 64%nat /\ sig_parse_standard true b = Some (Ok g) /\ sig_parse_overflowing true b = Some g.
Proof. exact C09_overflowing_extends_standard_example_pf. Qed.

(** * C10 *)
Theorem C10_message_parse : forall dbg b, length b = 32%nat -> bytes b ->
  msg_parse dbg b = Some (scalar_of (be_val b mod n)) /\ msg_serialize (scalar_of (be_val b mod n)) = be_bytes 32 (be_val b mod n).
Proof. exact C10_message_parse_pf. Qed.
Print Assumptions C10_message_parse.

Example C10_message_parse_example : msg_parse true (be_bytes 32 (n + 9)) = Some (scalar_of 9) /\ msg_parse true (be_bytes 32 9) = Some (scalar_of 9).
Proof. exact C10_message_parse_example_pf. Qed.

(** Two 32-byte strings are the same message exactly when they are congruent modulo n. *)
Theorem C10_message_collision : forall dbg a b, length a = 32%nat -> length b = 32%nat -> bytes a -> bytes b ->
  (msg_parse dbg a = msg_parse dbg b <-> be_val a mod n = be_val b mod n).
Proof. exact C10_message_collision_pf. Qed.
Print Assumptions C10_message_collision.

Example C10_message_collision_example : msg_parse true (be_bytes 32 (n + 9)) = msg_parse true (be_bytes 32 9) /\ msg_parse true (be_bytes 32 8) <> msg_parse true (be_bytes 32 9).
Proof. exact C10_message_collision_example_pf. Qed.

Theorem C10_message_slice : forall dbg b, bytes b ->
  msg_parse_slice dbg b = Some (if (length b =? 32)%nat then Ok (scalar_of (be_val b mod n)) else Err InvalidInputLength).
Proof. exact C10_message_slice_pf. Qed.
Print Assumptions C10_message_slice.

Example C10_message_slice_example : msg_parse_slice false [] = Some (Err InvalidInputLength).
Proof. exact C10_message_slice_example_pf. Qed.

(** * C11 *)
Theorem C11_recovery_id : forall v, 0 <= v < 256 ->
  rid_parse v = (if v <=? 3 then Ok v else Err InvalidRecoveryId) /\
  rid_parse_rpc v = (if (27 <=? v) && (v <=? 30) then Ok (v - 27) else Err InvalidRecoveryId) /\
  (forall i, rid_parse v = Ok i -> rid_serialize i = v).
Proof. exact C11_recovery_id_pf. Qed.
Print Assumptions C11_recovery_id.

Example C11_recovery_id_example : rid_parse 3 = Ok 3 /\ rid_parse 4 = Err InvalidRecoveryId /\ rid_parse_rpc 28 = Ok 1 /\ rid_parse_rpc 31 = Err InvalidRecoveryId.
Proof. exact C11_recovery_id_example_pf. Qed.

(** [format!("{:x}", key)] is not the hexadecimal form of the serialized key. *)
Theorem C18_lower_hex_refuted : exists d, 1 <= d < n /\ sk_lower_hex (scalar_of d) <> hex_text (sk_serialize (scalar_of d)).
Proof. exact C18_lower_hex_refuted_pf. Qed.
Print Assumptions C18_lower_hex_refuted.

(** What it prints: the eight 32-bit words of the key, least significant word first, each in hexadecimal. *)
Theorem C18_lower_hex_exact : forall d, 0 <= d < n ->
  sk_lower_hex (scalar_of d) = flat_map (fun k => hex_text (be_bytes 4 ((d / 2 ^ (32 * Z.of_nat k)) mod 2 ^ 32))) (seq 0 8).
Proof. exact C18_lower_hex_exact_pf. Qed.
Print Assumptions C18_lower_hex_exact.

Example C18_lower_hex_exact_example : sk_lower_hex (scalar_of (2 ^ 32 * 171 + 1)) = [48;48;48;48;48;48;48;49; 48;48;48;48;48;48;97;98] ++ repeat 48 48.
Proof. exact C18_lower_hex_exact_example_pf. Qed.

(** For every s other than (n-1)/2: the result is the low one of s and n-s. *)
Theorem C19_normalize_low : forall dbg r s, 0 <= r < n -> 0 <= s < n -> s <> (n - 1) / 2 ->
  exists s', sig_normalize_s dbg (Sig (scalar_of r) (scalar_of s)) = Some (Sig (scalar_of r) (scalar_of s')) /\
    0 <= s' <= (n - 1) / 2 /\ (s' = s \/ s' = n - s).
Proof. exact C19_normalize_low_pf. Qed.
Print Assumptions C19_normalize_low.

Example C19_normalize_low_example : n - 5 <> (n - 1) / 2 /\ sig_normalize_s true (Sig (scalar_of 1) (scalar_of (n - 5))) = Some (Sig (scalar_of 1) (scalar_of 5)).
Proof. exact C19_normalize_low_example_pf. Qed.

(** At s = (n-1)/2, already low, the result is (n+1)/2, which is high. *)
Theorem C19_normalize_low_refuted : exists r s, 1 <= r < n /\ 1 <= s <= (n - 1) / 2 /\
  forall dbg, sig_normalize_s dbg (Sig (scalar_of r) (scalar_of s)) = Some (Sig (scalar_of r) (scalar_of (n - s))) /\ n - s > (n - 1) / 2.
Proof. exact C19_normalize_low_refuted_pf. Qed.
Print Assumptions C19_normalize_low_refuted.

Theorem C20_normalize_idempotent : forall dbg r s g, 0 <= r < n -> 0 <= s < n -> s <> (n - 1) / 2 -> s <> (n + 1) / 2 ->
  sig_normalize_s dbg (Sig (scalar_of r) (scalar_of s)) = Some g -> sig_normalize_s dbg g = Some g.
Proof. exact C20_normalize_idempotent_pf. Qed.
Print Assumptions C20_normalize_idempotent.

Example C20_normalize_idempotent_example : exists g, sig_normalize_s true (Sig (scalar_of 9) (scalar_of (n - 3))) = Some g /\ sig_normalize_s true g = Some g.
Proof. exact C20_normalize_idempotent_example_pf. Qed.

(** Both middle values bounce between each other for ever. *)
Theorem C20_normalize_idempotent_refuted : exists s, forall dbg r, 0 <= r < n ->
  sig_normalize_s dbg (Sig (scalar_of r) (scalar_of s)) = Some (Sig (scalar_of r) (scalar_of (s + 1))) /\
  sig_normalize_s dbg (Sig (scalar_of r) (scalar_of (s + 1))) = Some (Sig (scalar_of r) (scalar_of s)).
Proof. exact C20_normalize_idempotent_refuted_pf. Qed.
Print Assumptions C20_normalize_idempotent_refuted.

(** * C32, C33 *)
Theorem C32_secret_tweak_add : forall dbg d t, 1 <= d < n -> 1 <= t < n ->
  sk_tweak_add_assign dbg (scalar_of d) (scalar_of t) =
  Some (if d + t =? n then (scalar_of d, Err TweakOutOfRange) else (scalar_of ((d + t) mod n), Ok tt)) /\
  (d + t <> n -> 1 <= (d + t) mod n < n).
Proof. exact C32_secret_tweak_add_pf. Qed.
Print Assumptions C32_secret_tweak_add.

Example C32_secret_tweak_add_example : sk_tweak_add_assign true (scalar_of 3) (scalar_of (n - 3)) = Some (scalar_of 3, Err TweakOutOfRange) /\
  sk_tweak_add_assign true (scalar_of 3) (scalar_of (n - 1)) = Some (scalar_of 2, Ok tt).
Proof. exact C32_secret_tweak_add_example_pf. Qed.

Theorem C33_secret_tweak_mul : forall dbg d t, 1 <= d < n -> 1 <= t < n ->
  sk_tweak_mul_assign dbg (scalar_of d) (scalar_of t) = Some (scalar_of ((d * t) mod n), Ok tt) /\ 1 <= (d * t) mod n < n.
Proof. exact C33_secret_tweak_mul_pf. Qed.
Print Assumptions C33_secret_tweak_mul.

Example C33_secret_tweak_mul_example : sk_tweak_mul_assign true (scalar_of 2) (scalar_of ((n + 1) / 2)) = Some (scalar_of 1, Ok tt) /\ 1 <= (n + 1) / 2 < n.
Proof. exact C33_secret_tweak_mul_example_pf. Qed.

(** A cleared (zero) tweak is rejected and the key is unchanged. *)
Theorem C33_secret_tweak_mul_zero : forall dbg k, sk_tweak_mul_assign dbg k (sk_clear k) = Some (k, Err TweakOutOfRange).
Proof. exact C33_secret_tweak_mul_zero_pf. Qed.
Print Assumptions C33_secret_tweak_mul_zero.

Theorem C33_secret_inv : forall dbg d, 1 <= d < n ->
  exists e, sk_inv dbg (scalar_of d) = Some (scalar_of e) /\ 1 <= e < n /\ (e * d) mod n = 1 /\ sk_inv dbg (scalar_of e) = Some (scalar_of d).
Proof. exact C33_secret_inv_pf. Qed.
Print Assumptions C33_secret_inv.

Example C33_secret_inv_example : sk_inv true (scalar_of 2) = Some (scalar_of ((n + 1) / 2)).
Proof. exact C33_secret_inv_example_pf. Qed.

(** Multiplying by t and then by the inverse of t restores the key. *)
Theorem C33_secret_tweak_mul_undo : forall dbg d t, 1 <= d < n -> 1 <= t < n ->
  exists k1 ti, sk_tweak_mul_assign dbg (scalar_of d) (scalar_of t) = Some (k1, Ok tt) /\ sk_inv dbg (scalar_of t) = Some ti /\
    sk_tweak_mul_assign dbg k1 ti = Some (scalar_of d, Ok tt).
Proof. exact C33_secret_tweak_mul_undo_pf. Qed.
Print Assumptions C33_secret_tweak_mul_undo.

Example C33_secret_tweak_mul_undo_example : 1 <= 5 < n /\ 1 <= 7 < n /\ sk_tweak_mul_assign true (scalar_of 5) (scalar_of 7) = Some (scalar_of 35, Ok tt).
Proof. exact C33_secret_tweak_mul_undo_example_pf. Qed.

(** * C39 *)
Theorem C39_default : forall dbg, sk_default dbg = Some (scalar_of 1).
Proof. exact C39_default_pf. Qed.
Print Assumptions C39_default.

(** [random] skips the unusable blocks and returns the first usable one. *)
Theorem C39_random : forall dbg rng i k fuel, (forall j, (j <= k)%nat -> length (rng (i + j)%nat) = 32%nat /\ bytes (rng (i + j)%nat)) ->
  (forall j, (j < k)%nat -> be_val (rng (i + j)%nat) = 0 \/ n <= be_val (rng (i + j)%nat)) ->
  1 <= be_val (rng (i + k)%nat) < n -> (k < fuel)%nat ->
  sk_random dbg fuel rng i = Done (scalar_of (be_val (rng (i + k)%nat))).
Proof. exact C39_random_pf. Qed.
Print Assumptions C39_random.

Example C39_random_example : let rng := fun i : nat => match i with O => repeat 255 32 | S O => repeat 0 32 | _ => repeat 1 32 end in
  sk_random true 3 rng 0 = Done (scalar_of (be_val (repeat 1 32))).
Proof. exact C39_random_example_pf. Qed.

(** Whatever the generator returns, a key that [random] returns is valid; it never panics. *)
Theorem C39_random_valid : forall dbg rng i fuel, (forall j, length (rng j) = 32%nat /\ bytes (rng j)) ->
  sk_random dbg fuel rng i = Running \/ exists d, 1 <= d < n /\ sk_random dbg fuel rng i = Done (scalar_of d).
Proof. exact C39_random_valid_pf. Qed.
Print Assumptions C39_random_valid.

Example C39_random_valid_example : sk_random true 3 (fun _ => repeat 255 32) 0 = Running.
Proof. exact C39_random_valid_example_pf. Qed.

Theorem C39_clear : forall k, s_is_zero (sk_clear k) = true /\ sk_serialize (sk_clear k) = repeat 0 32.
Proof. exact C39_clear_pf. Qed.
Print Assumptions C39_clear.

(** The limbs of n are accepted although they denote a value outside [1, n-1]; the same key is refused by [parse]. *)
Theorem C41_try_from_refuted : exists s, s_u s /\ sk_try_from s = Ok s /\ sv s = n /\ sk_parse true (sk_serialize s) = Some (Err InvalidSecretKey).
Proof. exact C41_try_from_refuted_pf. Qed.
Print Assumptions C41_try_from_refuted.

Theorem C41_try_from_canonical : forall v, 0 <= v < n -> sk_try_from (scalar_of v) = if v =? 0 then Err InvalidSecretKey else Ok (scalar_of v).
Proof. exact C41_try_from_canonical_pf. Qed.
Print Assumptions C41_try_from_canonical.

Example C41_try_from_canonical_example : sk_try_from (scalar_of 0) = Err InvalidSecretKey /\ sk_try_from (scalar_of 5) = Ok (scalar_of 5).
Proof. exact C41_try_from_canonical_example_pf. Qed.
