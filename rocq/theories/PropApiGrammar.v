(** Property theorems proved in ApiGrammar.v (written by tools/gen_props.py). *)
From Verif Require Import Word MScalar MDer MApi WP ScalarAcc ScalarMul Spec Fp Bits ScalarOps ScalarRed ScalarMore ScalarBits Denote ApiScalar ApiDer ApiGrammar.

(** The lax parser accepts exactly the strings of its grammar, with the values of the grammar. *)
Theorem C70_lax_grammar : forall dbg b r s, bytes b -> 0 <= r < n -> 0 <= s < n ->
  (sig_parse_der_lax dbg b = Some (Ok (Sig (scalar_of r) (scalar_of s))) <-> lax_sig b r s).
Proof. exact C70_lax_grammar_pf. Qed.
Print Assumptions C70_lax_grammar.

Example C70_lax_grammar_example :
  lax_sig [48; 131; 7; 8; 9; 2; 129; 2; 0; 5; 2; 130; 0; 1; 9; 77] 5 9 /\
  sig_parse_der_lax true [48; 131; 7; 8; 9; 2; 129; 2; 0; 5; 2; 130; 0; 1; 9; 77] = Some (Ok (Sig (scalar_of 5) (scalar_of 9))).
Proof. exact C70_lax_grammar_example_pf. Qed.

(** The strict parser accepts exactly two kinds of strings: two INTEGERs side by side, each the DER of
    a number below 2^256 and the second not 0 (numbers at or above the order read as 0), or a second
    INTEGER overlapped by the content of a first one of 33 to 35 bytes, which reads as r = 0. *)
Theorem C70_strict_grammar : forall dbg b r s, bytes b -> len b < 2 ^ 55 -> 0 <= r < n -> 0 <= s < n ->
  (sig_parse_der dbg b = Some (Ok (Sig (scalar_of r) (scalar_of s))) <-> strict_accepts b r s).
Proof. exact C70_strict_grammar_pf. Qed.
Print Assumptions C70_strict_grammar.

Example C70_strict_grammar_example :
  strict_accepts [48; 7; 2; 2; 0; 128; 2; 1; 1] 128 1 /\ sig_parse_der true [48; 7; 2; 2; 0; 128; 2; 1; 1] = Some (Ok (Sig (scalar_of 128) (scalar_of 1))) /\
  ~ strict_accepts [48; 6; 2; 1; 1; 2; 1; 0] 1 0.
Proof. exact C70_strict_grammar_example_pf. Qed.

(** Whatever the strict parser accepts has 8 to 72 bytes and is read the same by the lax parser. *)
Theorem C70_strict_is_lax : forall dbg b g, bytes b -> len b < 2 ^ 55 -> sig_parse_der dbg b = Some (Ok g) ->
  8 <= len b <= 72 /\ sig_parse_der_lax dbg b = Some (Ok g).
Proof. exact C70_strict_is_lax_pf. Qed.
Print Assumptions C70_strict_is_lax.

Example C70_strict_is_lax_example : bytes [48; 7; 2; 2; 0; 128; 2; 1; 1] /\ exists g, sig_parse_der false [48; 7; 2; 2; 0; 128; 2; 1; 1] = Some (Ok g).
Proof. exact C70_strict_is_lax_example_pf. Qed.

(** Bytes behind a string the lax parser accepts change nothing. *)
Theorem C70_lax_trailing : forall dbg b x g, bytes b -> bytes x -> sig_parse_der_lax dbg b = Some (Ok g) ->
  sig_parse_der_lax dbg (b ++ x) = Some (Ok g).
Proof. exact C70_lax_trailing_pf. Qed.
Print Assumptions C70_lax_trailing.

Example C70_lax_trailing_example : exists g, bytes [48; 6; 2; 1; 5; 2; 1; 9] /\ bytes [2; 255] /\ sig_parse_der_lax true [48; 6; 2; 1; 5; 2; 1; 9] = Some (Ok g).
Proof. exact C70_lax_trailing_example_pf. Qed.

(** Both readers: a string with no reading in its grammar gives [Err(InvalidSignature)]. *)
Theorem C70_refused : forall dbg b, bytes b -> len b < 2 ^ 55 ->
  ((forall r s, 0 <= r < n -> 0 <= s < n -> ~ strict_accepts b r s) <-> sig_parse_der dbg b = Some (Err InvalidSignature)) /\
  ((forall r s, 0 <= r < n -> 0 <= s < n -> ~ lax_sig b r s) <-> sig_parse_der_lax dbg b = Some (Err InvalidSignature)).
Proof. exact C70_refused_pf. Qed.
Print Assumptions C70_refused.

Example C70_refused_example : bytes [48; 6; 2; 1; 129; 2; 1; 9] /\ sig_parse_der true [48; 6; 2; 1; 129; 2; 1; 9] = Some (Err InvalidSignature) /\
  bytes [48; 3; 2; 4; 1] /\ sig_parse_der_lax true [48; 3; 2; 4; 1] = Some (Err InvalidSignature).
Proof. exact C70_refused_example_pf. Qed.
