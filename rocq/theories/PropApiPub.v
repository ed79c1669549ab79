(** Property theorems proved in ApiPub.v (written by tools/gen_props.py). *)
From Coq Require Import Znumtheory Field.
From Verif Require Import Word MField MScalar MGroup MDer MApi WP FieldMul FieldNorm Spec Fp Bits FieldOps FieldCodec FieldStore Denote Curve Group Chain Order Jac JacOps Table Lift Key ApiScalar ApiPub.

(** [parse] accepts a 65-byte string iff its tag is 4, or 6/7 matching the parity of y, and (x, y) is on the curve (both
    coordinates below p); the key then denotes (x, y). *)
Theorem C03_pubkey_parse : forall dbg tag bx b_y, length bx = 32%nat -> length b_y = 32%nat -> bytes (tag :: bx ++ b_y) ->
  (tag_fits tag (be_val b_y) -> on_curve (Aff (be_val bx) (be_val b_y)) ->
     exists k, pk_parse dbg (tag :: bx ++ b_y) = Some (Ok k) /\ key_at k (Aff (be_val bx) (be_val b_y))) /\
  (~ (tag_fits tag (be_val b_y) /\ on_curve (Aff (be_val bx) (be_val b_y))) -> pk_parse dbg (tag :: bx ++ b_y) = Some (Err InvalidPublicKey)).
Proof. exact C03_pubkey_parse_pf. Qed.
Print Assumptions C03_pubkey_parse.

Example C03_pubkey_parse_example : tag_fits 4 gy /\ tag_fits 6 gy /\ ~ tag_fits 7 gy /\ on_curve (Aff gx gy) /\ length (be_bytes 32 gx) = 32%nat /\ be_val (be_bytes 32 gx) = gx /\
  (exists k, pk_parse true (sec1_full gx gy) = Some (Ok k)) /\ pk_parse true (7 :: be_bytes 32 gx ++ be_bytes 32 gy) = Some (Err InvalidPublicKey).
Proof. exact C03_pubkey_parse_example_pf. Qed.

(** [parse_compressed] accepts a 33-byte string iff some point with that x (below p) has y of the parity given by the tag, and the key then
    denotes that point. *)
Theorem C04_pubkey_parse_compressed : forall dbg tag bx, length bx = 32%nat -> bytes (tag :: bx) ->
  (forall y, on_curve (Aff (be_val bx) y) -> tag = 2 + y mod 2 ->
     exists k, pk_parse_compressed dbg (tag :: bx) = Some (Ok k) /\ key_at k (Aff (be_val bx) y)) /\
  ((forall y, on_curve (Aff (be_val bx) y) -> tag <> 2 + y mod 2) -> pk_parse_compressed dbg (tag :: bx) = Some (Err InvalidPublicKey)).
Proof. exact C04_pubkey_parse_compressed_pf. Qed.
Print Assumptions C04_pubkey_parse_compressed.

Example C04_pubkey_parse_compressed_example : on_curve (Aff gx gy) /\ 2 = 2 + gy mod 2 /\ be_val (be_bytes 32 gx) = gx /\ bytes (2 :: be_bytes 32 gx) /\
  pk_parse_compressed true (2 :: be_bytes 32 p) = Some (Err InvalidPublicKey).
Proof. exact C04_pubkey_parse_compressed_example_pf. Qed.

Theorem C05_parse_slice : forall dbg b f,
  (fmt_ok f (length b) Full -> pk_parse_slice dbg b f = pk_parse dbg b) /\
  (fmt_ok f (length b) Raw -> pk_parse_slice dbg b f = pk_parse dbg (4 :: b)) /\
  (fmt_ok f (length b) Compressed -> pk_parse_slice dbg b f = pk_parse_compressed dbg b) /\
  ((forall g, ~ fmt_ok f (length b) g) -> pk_parse_slice dbg b f = Some (Err InvalidInputLength)).
Proof. exact C05_parse_slice_pf. Qed.
Print Assumptions C05_parse_slice.

Example C05_parse_slice_example : fmt_ok None 64 Raw /\ fmt_ok (Some Full) 65 Full /\ (forall g, ~ fmt_ok (Some Full) 33 g) /\ (forall g, ~ fmt_ok None 34 g).
Proof. exact C05_parse_slice_example_pf. Qed.

(** No public-key parser panics, on any byte string of any length and any format argument. *)
Theorem C17_pubkey_total : forall dbg b f, bytes b -> exists r, pk_parse_slice dbg b f = Some r /\ (forall k, r = Ok k -> exists x y, key_at k (Aff x y)).
Proof. exact C17_pubkey_total_pf. Qed.
Print Assumptions C17_pubkey_total.

Example C17_pubkey_total_example : bytes (sec1_full gx gy) /\ bytes [] /\ bytes [255; 0].
Proof. exact C17_pubkey_total_example_pf. Qed.

(** The bytes produced depend only on the point. *)
Theorem C06_serialize : forall dbg k x y, key_at k (Aff x y) ->
  pk_serialize dbg k = Some (sec1_full x y) /\ pk_serialize_compressed dbg k = Some (sec1_compressed x y).
Proof. exact C06_serialize_pf. Qed.
Print Assumptions C06_serialize.

Example C06_serialize_example : key_at AFFINE_G (Aff gx gy) /\ exists k, k <> AFFINE_G /\ key_at k (Aff gx gy).
Proof. exact C06_serialize_example_pf. Qed.

(** Two keys compare equal iff they denote the same point, iff their serializations coincide. *)
Theorem C07_equality : forall dbg k1 k2 x1 y1 x2 y2, key_at k1 (Aff x1 y1) -> key_at k2 (Aff x2 y2) ->
  exists b, pk_eq dbg k1 k2 = Some b /\ (b = true <-> x1 = x2 /\ y1 = y2) /\ (b = true <-> pk_serialize dbg k1 = pk_serialize dbg k2) /\
  (b = true <-> pk_serialize_compressed dbg k1 = pk_serialize_compressed dbg k2).
Proof. exact C07_equality_pf. Qed.
Print Assumptions C07_equality.

Example C07_equality_example : exists k1 k2 x y, k1 <> k2 /\ key_at k1 (Aff x y) /\ key_at k2 (Aff x y).
Proof. exact C07_equality_example_pf. Qed.

(** Parsing what a key serializes to gives back an equal key, in both formats. *)
Theorem C06_roundtrip : forall dbg k x y, key_at k (Aff x y) -> exists b c k1 k2,
  pk_serialize dbg k = Some b /\ pk_parse dbg b = Some (Ok k1) /\ key_at k1 (Aff x y) /\ pk_eq dbg k1 k = Some true /\
  pk_serialize_compressed dbg k = Some c /\ pk_parse_compressed dbg c = Some (Ok k2) /\ key_at k2 (Aff x y) /\ pk_eq dbg k2 k = Some true.
Proof. exact C06_roundtrip_pf. Qed.
Print Assumptions C06_roundtrip.

Example C06_roundtrip_example : key_at AFFINE_G (Aff gx gy).
Proof. exact C06_roundtrip_example_pf. Qed.

(** Serializing what was parsed gives back the bytes (tag 4 for the full form). *)
Theorem C06_parse_serialize : forall dbg,
  (forall b k, length b = 65%nat -> bytes b -> pk_parse dbg b = Some (Ok k) -> pk_serialize dbg k = Some (4 :: tl b)) /\
  (forall c k, length c = 33%nat -> bytes c -> pk_parse_compressed dbg c = Some (Ok k) -> pk_serialize_compressed dbg k = Some c).
Proof. exact C06_parse_serialize_pf. Qed.
Print Assumptions C06_parse_serialize.

Example C06_parse_serialize_example : length (sec1_full gx gy) = 65%nat /\ bytes (sec1_full gx gy) /\ exists k, pk_parse true (sec1_full gx gy) = Some (Ok k).
Proof. exact C06_parse_serialize_example_pf. Qed.

(** The value left by [clear] on a secret key derives the point at infinity; serializing such a key panics in debug builds. *)
Theorem C06_infinity_panics : exists k, key_at k Inf /\ pk_serialize true k = None /\ pk_serialize_compressed true k = None.
Proof. exact C06_infinity_panics_pf. Qed.
Print Assumptions C06_infinity_panics.

(** * C42 *)
Theorem C42_try_from_affine : forall dbg a, fok 8 (af_x a) -> fok 8 (af_y a) ->
  (af_inf a = false -> on_curve (Aff (fv (af_x a) mod p) (fv (af_y a) mod p)) -> pk_try_from dbg a = Some (Ok a)) /\
  (~ (af_inf a = false /\ on_curve (Aff (fv (af_x a) mod p) (fv (af_y a) mod p))) -> pk_try_from dbg a = Some (Err InvalidAffine)).
Proof. exact C42_try_from_affine_pf. Qed.
Print Assumptions C42_try_from_affine.

Example C42_try_from_affine_example : fok 8 (af_x AFFINE_G) /\ fok 8 (af_y AFFINE_G) /\ af_inf AFFINE_G = false /\ fv (af_x AFFINE_G) mod p = gx /\ fv (af_y AFFINE_G) mod p = gy /\ on_curve (Aff gx gy).
Proof. exact C42_try_from_affine_example_pf. Qed.

(** The validity test itself: true exactly on finite points of the curve. *)
Theorem C42_is_valid_var : forall dbg a, fok 8 (af_x a) -> fok 8 (af_y a) ->
  exists b, af_is_valid_var dbg a = Some b /\ (b = true <-> af_inf a = false /\ on_curve (Aff (fv (af_x a) mod p) (fv (af_y a) mod p))).
Proof. exact C42_is_valid_var_pf. Qed.
Print Assumptions C42_is_valid_var.

Example C42_is_valid_var_example : exists a b, fok 8 (af_x a) /\ fok 8 (af_y a) /\ af_is_valid_var true a = Some true /\ fok 8 (af_x b) /\ fok 8 (af_y b) /\ af_is_valid_var true b = Some false.
Proof. exact C42_is_valid_var_example_pf. Qed.

(** Deserializing the serialized form gives an equal key, for the binary and the base64 form, with any codec whose decoder inverts its encoder. *)
Theorem C43_serde : forall dbg enc dec human k x y, (forall b, bytes b -> dec (enc b) = Some b) -> key_at k (Aff x y) ->
  exists v k', pk_ser dbg enc human k = Some v /\ pk_de dbg dec human v = Some (inl k') /\ key_at k' (Aff x y) /\ pk_eq dbg k' k = Some true.
Proof. exact C43_serde_pf. Qed.
Print Assumptions C43_serde.

Example C43_serde_example : exists (enc : list Z -> list Z) (dec : list Z -> option (list Z)), (forall b, bytes b -> dec (enc b) = Some b) /\ key_at AFFINE_G (Aff gx gy).
Proof. exact C43_serde_example_pf. Qed.

(** Whatever is deserialized, from any string, is a finite curve point, and deserialization never panics. *)
Theorem C43_deserialize_valid : forall dbg dec human v, (forall s b, dec s = Some b -> bytes b) -> bytes v ->
  exists r, pk_de dbg dec human v = Some r /\ forall k, r = inl k -> exists x y, key_at k (Aff x y).
Proof. exact C43_deserialize_valid_pf. Qed.
Print Assumptions C43_deserialize_valid.

Example C43_deserialize_valid_example : exists dec : list Z -> option (list Z), (forall s b, dec s = Some b -> bytes b) /\ dec [1] = Some (sec1_full gx gy).
Proof. exact C43_deserialize_valid_example_pf. Qed.

(** Negation gives -P for every representation, in affine and Jacobian coordinates. *)
Theorem C58_affine_neg : forall dbg m a P, aff_at m a P -> m <= 31 -> exists a', af_neg dbg a = Some a' /\ aff_at (Z.max m 2) a' (pneg P).
Proof. exact C58_affine_neg_pf. Qed.
Print Assumptions C58_affine_neg.

Example C58_affine_neg_example : aff_at 6 AFFINE_G (Aff gx gy) /\ pneg (Aff gx gy) <> Aff gx gy.
Proof. exact C58_affine_neg_example_pf. Qed.

Theorem C58_jacobian_neg : forall dbg j P, jac_at j P -> exists j', j_neg dbg j = Some j' /\ jac_at j' (pneg P).
Proof. exact C58_jacobian_neg_pf. Qed.
Print Assumptions C58_jacobian_neg.

Example C58_jacobian_neg_example : exists j, jac_at j (Aff gx gy).
Proof. exact C58_jacobian_neg_example_pf. Qed.

(** Storing and loading preserves the point, for every finite point in every representation. *)
Theorem C58_storage : forall dbg m a x y, aff_at m a (Aff x y) -> m <= 31 -> exists s, af_to_storage dbg a = Some s /\ aff_at 1 (af_from_storage s) (Aff x y).
Proof. exact C58_storage_pf. Qed.
Print Assumptions C58_storage.

Example C58_storage_example : aff_at 1 AFFINE_G (Aff gx gy).
Proof. exact C58_storage_example_pf. Qed.
