(** Property theorems proved in ApiDer.v (written by tools/gen_props.py). *)
From Verif Require Import Word MScalar MDer MApi WP ScalarAcc ScalarMul Spec Fp Bits ScalarOps ScalarRed ScalarMore ScalarBits Denote ApiScalar ApiDer.

(** [serialize_der] writes the DER encoding of (r, s), between 8 and 72 bytes long; there is only one such encoding. *)
Theorem C12_serialize_der : forall r s, 0 <= r < n -> 0 <= s < n ->
  let l := sig_serialize_der (Sig (scalar_of r) (scalar_of s)) in
  der_sig r s l /\ (8 <= length l <= 72)%nat /\ forall l', der_sig r s l' -> l' = l.
Proof. exact C12_serialize_der_pf. Qed.
Print Assumptions C12_serialize_der.

Example C12_serialize_der_example : sig_serialize_der (Sig (scalar_of 128) (scalar_of 1)) = [48; 7; 2; 2; 0; 128; 2; 1; 1] /\ 0 <= 128 < n.
Proof. exact C12_serialize_der_example_pf. Qed.

(** Strict parsing inverts serialization whenever s is not zero. *)
Theorem C13_parse_serialize_der : forall dbg r s, 0 <= r < n -> 1 <= s < n ->
  sig_parse_der dbg (sig_serialize_der (Sig (scalar_of r) (scalar_of s))) = Some (Ok (Sig (scalar_of r) (scalar_of s))).
Proof. exact C13_parse_serialize_der_pf. Qed.
Print Assumptions C13_parse_serialize_der.

Example C13_parse_serialize_der_example : sig_parse_der true [48; 7; 2; 2; 0; 128; 2; 1; 1] = Some (Ok (Sig (scalar_of 128) (scalar_of 1))).
Proof. exact C13_parse_serialize_der_example_pf. Qed.

(** With s = 0 the serialization is refused by the parser, although it is correct DER. *)
Theorem C13_parse_serialize_der_refuted : exists s, 0 <= s < n /\ forall dbg r, 0 <= r < n ->
  der_sig r s (sig_serialize_der (Sig (scalar_of r) (scalar_of s))) /\
  sig_parse_der dbg (sig_serialize_der (Sig (scalar_of r) (scalar_of s))) = Some (Err InvalidSignature) /\
  sig_parse_der_lax dbg (sig_serialize_der (Sig (scalar_of r) (scalar_of s))) = Some (Err InvalidSignature).
Proof. exact C13_parse_serialize_der_refuted_pf. Qed.
Print Assumptions C13_parse_serialize_der_refuted.

(** If strict parsing gives non-zero r and s then the input was the canonical encoding. *)
Theorem C14_der_strict : forall dbg b g, bytes b -> len b < 2 ^ 55 -> sig_parse_der dbg b = Some (Ok g) ->
  exists r s, g = Sig (scalar_of r) (scalar_of s) /\ 0 <= r < n /\ 0 <= s < n /\
    (r <> 0 -> s <> 0 -> b = sig_serialize_der g /\ der_sig r s b).
Proof. exact C14_der_strict_pf. Qed.
Print Assumptions C14_der_strict.

Example C14_der_strict_example : bytes [48; 7; 2; 2; 0; 128; 2; 1; 1] /\ sig_parse_der true [48; 7; 2; 2; 0; 128; 2; 1; 1] = Some (Ok (Sig (scalar_of 128) (scalar_of 1))) /\
  sig_parse_der true [48; 8; 2; 3; 0; 0; 128; 2; 1; 1] = Some (Err InvalidSignature) /\ sig_parse_der true [48; 129; 7; 2; 2; 0; 128; 2; 1; 1] = Some (Err InvalidSignature).
Proof. exact C14_der_strict_example_pf. Qed.

Theorem C14_der_strict_refuted : exists b b' g, b <> b' /\ forall dbg, sig_parse_der dbg b = Some (Ok g) /\ sig_parse_der dbg b' = Some (Ok g).
Proof. exact C14_der_strict_refuted_pf. Qed.
Print Assumptions C14_der_strict_refuted.

(** An accepted input whose r and s are non-zero is a SEQUENCE of two INTEGERs. *)
Theorem C15_der_tiles : forall dbg b r s, bytes b -> len b < 2 ^ 55 -> 1 <= r < n -> 1 <= s < n ->
  sig_parse_der dbg b = Some (Ok (Sig (scalar_of r) (scalar_of s))) -> two_integers b.
Proof. exact C15_der_tiles_pf. Qed.
Print Assumptions C15_der_tiles.

Example C15_der_tiles_example : two_integers [48; 6; 2; 1; 5; 2; 1; 9].
Proof. exact C15_der_tiles_example_pf. Qed.

(** An input that is one INTEGER inside a SEQUENCE is accepted: the content of the INTEGER, not
    skipped on overflow, is read again as the second INTEGER. *)
Theorem C15_der_tiles_refuted : exists b g, bytes b /\ (forall dbg, sig_parse_der dbg b = Some (Ok g)) /\ ~ two_integers b.
Proof. exact C15_der_tiles_refuted_pf. Qed.
Print Assumptions C15_der_tiles_refuted.

(** * C16 *)
Theorem C16_lax_parses_canonical : forall dbg r s, 0 <= r < n -> 1 <= s < n ->
  sig_parse_der_lax dbg (sig_serialize_der (Sig (scalar_of r) (scalar_of s))) = Some (Ok (Sig (scalar_of r) (scalar_of s))).
Proof. exact C16_lax_parses_canonical_pf. Qed.
Print Assumptions C16_lax_parses_canonical.

Example C16_lax_parses_canonical_example : sig_parse_der_lax true [48; 7; 2; 2; 0; 128; 2; 1; 1] = Some (Ok (Sig (scalar_of 128) (scalar_of 1))).
Proof. exact C16_lax_parses_canonical_example_pf. Qed.

Theorem C16_lax_agrees : forall dbg b r s, bytes b -> len b < 2 ^ 55 -> 1 <= r < n -> 1 <= s < n ->
  sig_parse_der dbg b = Some (Ok (Sig (scalar_of r) (scalar_of s))) ->
  sig_parse_der_lax dbg b = Some (Ok (Sig (scalar_of r) (scalar_of s))).
Proof. exact C16_lax_agrees_pf. Qed.
Print Assumptions C16_lax_agrees.

Example C16_lax_agrees_example : exists b g, sig_parse_der true b = Some (Ok g) /\ sig_parse_der_lax true b = Some (Ok g) /\
  sig_parse_der true (b ++ [0]) = Some (Err InvalidSignature) /\ sig_parse_der_lax true (b ++ [0]) = Some (Ok g).
Proof. exact C16_lax_agrees_example_pf. Qed.

(** The DER parsers never panic; they return a signature with r, s < n or [Err(InvalidSignature)]. *)
Theorem C17_der_total : forall dbg b, bytes b -> len b < 2 ^ 55 ->
  (sig_parse_der dbg b = Some (Err InvalidSignature) \/ exists r s, 0 <= r < n /\ 0 <= s < n /\ sig_parse_der dbg b = Some (Ok (Sig (scalar_of r) (scalar_of s)))) /\
  (sig_parse_der_lax dbg b = Some (Err InvalidSignature) \/ exists r s, 0 <= r < n /\ 0 <= s < n /\ sig_parse_der_lax dbg b = Some (Ok (Sig (scalar_of r) (scalar_of s)))).
Proof. exact C17_der_total_pf. Qed.
Print Assumptions C17_der_total.

Example C17_der_total_example : sig_parse_der true [48; 136; 255; 255; 255; 255; 255; 255; 255; 255; 0] = Some (Err InvalidSignature) /\
  sig_parse_der_lax true [48; 136; 255; 255; 255] = Some (Err InvalidSignature).
Proof. exact C17_der_total_example_pf. Qed.
