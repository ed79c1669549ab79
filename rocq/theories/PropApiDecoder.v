(** Property theorems proved in ApiDecoder.v (written by tools/gen_props.py). *)
From Verif Require Import Word MScalar MDer MApi MDecoder WP ScalarAcc ScalarMul Spec Fp Bits ScalarOps ScalarRed ScalarMore ScalarBits Denote ApiScalar ApiDer ApiGrammar ApiDecoder.

(** Any sequence of calls on a decoder, also after errors, neither panics nor moves backwards nor past
    the end of the array. *)
Theorem C71_decoder_calls : forall dbg arr cs pos, bytes arr -> len arr < 2 ^ 55 -> Forall call_ok cs -> 0 <= pos <= len arr ->
  exists pos', calls_pos dbg arr cs pos = Some pos' /\ pos <= pos' <= len arr.
Proof. exact C71_decoder_calls_pf. Qed.
Print Assumptions C71_decoder_calls.

Example C71_decoder_calls_example :
  bytes [48; 6; 2; 1; 5; 2; 1; 9] /\ Forall call_ok [CSequence; CPeek 4; CLen; CInteger; CSkip 9; CIntegerLax] /\
  calls_pos true [48; 6; 2; 1; 5; 2; 1; 9] [CSequence; CPeek 4; CLen; CInteger; CSkip 9; CIntegerLax] 0 = Some 8.
Proof. exact C71_decoder_calls_example_pf. Qed.

(** With an argument no array length allows, [skip] moves backwards in release builds. *)
Theorem C71_decoder_calls_refuted : exists arr k, 0 <= k < 2 ^ 64 /\ bytes arr /\
  calls_pos false arr [CRead; CSkip k] 0 = Some 0 /\ calls_pos true arr [CRead; CSkip k] 0 = None.
Proof. exact C71_decoder_calls_refuted_pf. Qed.
Print Assumptions C71_decoder_calls_refuted.

(** Parsing with the array and the position of the code gives the answers of the model on suffixes. *)
Theorem C71_parse_der : forall dbg b, bytes b -> len b < 2 ^ 55 -> exists x pos,
  D_parse_der dbg b 0 = Some (x, pos) /\ sig_parse_der dbg b = Some x /\ 0 <= pos <= len b.
Proof. exact C71_parse_der_pf. Qed.
Print Assumptions C71_parse_der.

Example C71_parse_der_example : bytes [48; 6; 2; 1; 5; 2; 1; 9] /\ D_parse_der true [48; 6; 2; 1; 5; 2; 1; 9] 0 = Some (Ok (Sig (scalar_of 5) (scalar_of 9)), 8) /\
  D_parse_der true [48; 6; 2; 1; 5; 2; 2; 9] 0 = Some (Err InvalidSignature, 7).
Proof. exact C71_parse_der_example_pf. Qed.

Theorem C71_parse_der_lax : forall dbg b, bytes b -> len b < 2 ^ 63 -> exists x pos,
  D_parse_der_lax dbg b 0 = Some (x, pos) /\ sig_parse_der_lax dbg b = Some x /\ 0 <= pos <= len b.
Proof. exact C71_parse_der_lax_pf. Qed.
Print Assumptions C71_parse_der_lax.

Example C71_parse_der_lax_example : bytes [48; 6; 2; 1; 5; 2; 129; 1; 9; 77] /\ D_parse_der_lax true [48; 6; 2; 1; 5; 2; 129; 1; 9; 77] 0 = Some (Ok (Sig (scalar_of 5) (scalar_of 9)), 9).
Proof. exact C71_parse_der_lax_example_pf. Qed.

(** The signature array [serialize_der] fills holds exactly the encoding, in both builds, without panicking. *)
Theorem C71_signature_array : forall dbg g, exists a,
  sa_serialize_der dbg g = Some a /\ sa_as_ref a = Some (sig_serialize_der g) /\ sa_len a = len (sig_serialize_der g) /\ 8 <= sa_len a <= 72 /\ sa_is_empty a = false.
Proof. exact C71_signature_array_pf. Qed.
Print Assumptions C71_signature_array.

Example C71_signature_array_example : exists a, sa_serialize_der true (Sig (scalar_of 128) (scalar_of 1)) = Some a /\ sa_as_ref a = Some [48; 7; 2; 2; 0; 128; 2; 1; 1].
Proof. exact C71_signature_array_example_pf. Qed.

(** A fresh array of a given size is that many zero bytes; a size over 72 panics when looked at. *)
Theorem C71_array_size : forall size, 0 <= size ->
  sa_len (sa_new size) = size /\ sa_as_ref (sa_new size) = if size <=? 72 then Some (repeat 0 (Z.to_nat size)) else None.
Proof. exact C71_array_size_pf. Qed.
Print Assumptions C71_array_size.

Example C71_array_size_example : sa_as_ref (sa_new 3) = Some [0; 0; 0] /\ sa_as_ref (sa_new 73) = None.
Proof. exact C71_array_size_example_pf. Qed.
