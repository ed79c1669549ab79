(** Property theorems proved in ApiBase64.v (written by tools/gen_props.py). *)
From Verif Require Import Word MField MScalar MGroup MDer MApi MBase64 WP Spec Bits Denote Key Base64 ApiScalar ApiPub ApiBase64.

(** The engine is base64 as RFC 4648 defines it: [encode] writes the base64 form of the bytes, and [decode] gives bytes back exactly for the strings that are the base64 form of them. *)
Theorem C73_base64 : (forall b, bytes b -> is_base64 b (b64_encode b)) /\ (forall s b, b64_decode s = Some b <-> bytes b /\ is_base64 b s).
Proof. exact C73_base64_pf. Qed.
Print Assumptions C73_base64.

(** "Man" is TWFu, "Ma" is TWE=, "M" is TQ==, and TWF= has a bit set behind the last byte. *)
Example C73_base64_example : b64_encode [77; 97; 110] = [84; 87; 70; 117] /\ b64_encode [77; 97] = [84; 87; 69; 61] /\ b64_encode [77] = [84; 81; 61; 61] /\ b64_decode [84; 87; 70; 61] = None /\ b64_decode [84; 81] = None.
Proof. exact C73_base64_example_pf. Qed.

(** Bytes have one base64 form, and a string is the base64 form of at most one byte string. *)
Theorem C73_one_to_one : (forall b s s', is_base64 b s -> is_base64 b s' -> s = s') /\ (forall b b' s, bytes b -> bytes b' -> is_base64 b s -> is_base64 b' s -> b = b').
Proof. exact C73_one_to_one_pf. Qed.
Print Assumptions C73_one_to_one.

Example C73_one_to_one_example : is_base64 [77; 97] [84; 87; 69; 61] /\ bytes [77; 97].
Proof. exact C73_one_to_one_example_pf. Qed.

(** In a human-readable format a key is the 88-character base64 form of its 65-byte encoding, in a binary format that encoding itself. *)
Theorem C73_serialize : forall dbg k x y, key_at k (Aff x y) ->
  pk_ser dbg b64_encode false k = Some (sec1_full x y) /\ exists s, pk_ser dbg b64_encode true k = Some s /\ is_base64 (sec1_full x y) s /\ length s = 88%nat.
Proof. exact C73_serialize_pf. Qed.
Print Assumptions C73_serialize.

Example C73_serialize_example : key_at AFFINE_G (Aff gx gy).
Proof. exact C73_serialize_example_pf. Qed.

(** From a human-readable format the key for (x, y) is read exactly from the base64 forms of the byte strings naming (x, y). *)
Theorem C73_deserialize_text : forall dbg s x y,
  (exists k, pk_de dbg b64_decode true s = Some (inl k) /\ key_at k (Aff x y)) <-> (exists b, is_base64 b s /\ names b x y).
Proof. exact C73_deserialize_text_pf. Qed.
Print Assumptions C73_deserialize_text.

Example C73_deserialize_text_example : exists b, is_base64 b (b64_encode (sec1_compressed gx gy)) /\ names b gx gy.
Proof. exact C73_deserialize_text_example_pf. Qed.

(** Any other string is refused, never a panic, and the error tells why: not base64, not a length a key can have, or no point. *)
Theorem C73_text_errors : forall dbg s,
  ((forall b, bytes b -> ~ is_base64 b s) -> pk_de dbg b64_decode true s = Some (inr None)) /\
  (forall b, bytes b -> is_base64 b s -> ~ key_length (length b) -> pk_de dbg b64_decode true s = Some (inr (Some InvalidInputLength))) /\
  (forall b, bytes b -> is_base64 b s -> key_length (length b) -> (forall x y, ~ names b x y) -> pk_de dbg b64_decode true s = Some (inr (Some InvalidPublicKey))).
Proof. exact C73_text_errors_pf. Qed.
Print Assumptions C73_text_errors.

Example C73_text_errors_example : (forall b, bytes b -> ~ is_base64 b [84; 81]) /\ is_base64 [77] [84; 81; 61; 61] /\ ~ key_length (length [77]).
Proof. exact C73_text_errors_example_pf. Qed.

(** From a binary format the key for (x, y) is read exactly from the byte strings naming (x, y); everything else gives the error for an invalid key. *)
Theorem C73_deserialize_binary : forall dbg dec v, bytes v ->
  (forall x y, (exists k, pk_de dbg dec false v = Some (inl k) /\ key_at k (Aff x y)) <-> names v x y) /\
  ((forall x y, ~ names v x y) -> pk_de dbg dec false v = Some (inr (Some InvalidPublicKey))).
Proof. exact C73_deserialize_binary_pf. Qed.
Print Assumptions C73_deserialize_binary.

Example C73_deserialize_binary_example : names (be_bytes 32 gx ++ be_bytes 32 gy) gx gy /\ bytes (be_bytes 32 gx ++ be_bytes 32 gy).
Proof. exact C73_deserialize_binary_example_pf. Qed.

(** Each point is named by exactly four strings, and a string names at most one point. *)
Theorem C73_four_strings : (forall x y, on_curve (Aff x y) -> exists l, NoDup l /\ length l = 4%nat /\ forall s, (exists b, is_base64 b s /\ names b x y) <-> In s l) /\
  (forall s x y x' y', (exists b, is_base64 b s /\ names b x y) -> (exists b, is_base64 b s /\ names b x' y') -> x = x' /\ y = y').
Proof. exact C73_four_strings_pf. Qed.
Print Assumptions C73_four_strings.

Example C73_four_strings_example : on_curve (Aff gx gy).
Proof. exact C73_four_strings_example_pf. Qed.
