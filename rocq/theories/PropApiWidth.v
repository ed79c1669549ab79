(** Property theorems proved in ApiWidth.v (written by tools/gen_props.py). *)
From Verif Require Import Word MScalar MEcdsa MDer MApi MWidth WP ScalarAcc ScalarMul Spec Fp Bits ScalarOps ScalarRed ScalarMore ScalarBits Denote ApiScalar ApiDer ApiGrammar ApiWidth.

(** The parsers written for a pointer size of 8 bytes are the parsers of the other theorems. *)
Theorem C93_width_64 : forall dbg b, sig_parse_der_w dbg 8 b = sig_parse_der dbg b /\ sig_parse_der_lax_w dbg 8 b = sig_parse_der_lax dbg b.
Proof. exact C93_width_64_pf. Qed.
Print Assumptions C93_width_64.

(** The strict parser on 32-bit targets, for every array such a target can hold: in release builds it gives what 64-bit targets give; in debug builds too,
    except that it may panic on an array which 64-bit targets refuse and which contains a length field standing for 2^32 - 1 followed by 16 MiB or more. *)
Theorem C93_strict : forall b, bytes b -> len b < 2 ^ 31 ->
  sig_parse_der_w false 4 b = sig_parse_der false b /\
  (sig_parse_der_w true 4 b = sig_parse_der true b \/
   (sig_parse_der_w true 4 b = None /\ sig_parse_der true b = Some (Err InvalidSignature) /\ huge_field b)).
Proof. exact C93_strict_pf. Qed.
Print Assumptions C93_strict.

Example C93_strict_example : bytes [48; 7; 2; 2; 0; 128; 2; 1; 1] /\ len [48; 7; 2; 2; 0; 128; 2; 1; 1] < 2 ^ 31 /\
  sig_parse_der_w true 4 [48; 7; 2; 2; 0; 128; 2; 1; 1] = Some (Ok (Sig (scalar_of 128) (scalar_of 1))).
Proof. exact C93_strict_example_pf. Qed.

(** The panic exists: a SEQUENCE whose length field stands for 2^32 - 1, followed by 16 MiB or more of anything, stops a 32-bit debug build; a release build and
    64-bit targets return an error. *)
Theorem C93_strict_panics : forall rest, bytes rest -> 2 ^ 24 <= len rest < 2 ^ 31 ->
  sig_parse_der_w true 4 ([48; 132; 255; 255; 255; 255] ++ rest) = None /\
  sig_parse_der_w false 4 ([48; 132; 255; 255; 255; 255] ++ rest) = Some (Err InvalidSignature) /\
  (forall dbg, sig_parse_der dbg ([48; 132; 255; 255; 255; 255] ++ rest) = Some (Err InvalidSignature)).
Proof. exact C93_strict_panics_pf. Qed.
Print Assumptions C93_strict_panics.

Example C93_strict_panics_example : exists rest, bytes rest /\ 2 ^ 24 <= len rest < 2 ^ 31.
Proof. exact C93_strict_panics_example_pf. Qed.

(** "The strict parser never panics" is false on 32-bit targets in debug builds. *)
Theorem C93_no_panic_32_refuted : exists b, bytes b /\ len b < 2 ^ 31 /\ sig_parse_der_w true 4 b = None.
Proof. exact C93_no_panic_32_refuted_pf. Qed.
Print Assumptions C93_no_panic_32_refuted.

(** The lax parser on 32-bit targets: it never panics, what it accepts is accepted by 64-bit targets with the same result, and it refuses something they accept
    only if the array is longer than 16 MiB. *)
Theorem C93_lax : forall dbg b, bytes b ->
  sig_parse_der_lax_w dbg 4 b = sig_parse_der_lax dbg b \/
  (sig_parse_der_lax_w dbg 4 b = Some (Err InvalidSignature) /\ 2 ^ 24 < len b /\ exists g, sig_parse_der_lax dbg b = Some (Ok g)).
Proof. exact C93_lax_pf. Qed.
Print Assumptions C93_lax.

Example C93_lax_example : bytes [48; 6; 2; 1; 5; 2; 129; 1; 9; 77] /\ sig_parse_der_lax_w true 4 [48; 6; 2; 1; 5; 2; 129; 1; 9; 77] = Some (Ok (Sig (scalar_of 5) (scalar_of 9))).
Proof. exact C93_lax_example_pf. Qed.

(** "Both kinds of targets accept the same arrays" is false for the lax parser: an INTEGER padded with 2^24 zero bytes is read on 64-bit targets only. *)
Theorem C93_lax_same_refuted : exists b, bytes b /\ len b < 2 ^ 31 /\
  (forall dbg, sig_parse_der_lax dbg b = Some (Ok (Sig (scalar_of 5) (scalar_of 1)))) /\
  (forall dbg, sig_parse_der_lax_w dbg 4 b = Some (Err InvalidSignature)).
Proof. exact C93_lax_same_refuted_pf. Qed.
Print Assumptions C93_lax_same_refuted.

(** For arrays of up to 16 MiB the two parsers do not depend on the pointer size at all. *)
Theorem C93_small : forall dbg b, bytes b -> len b <= 2 ^ 24 ->
  sig_parse_der_w dbg 4 b = sig_parse_der dbg b /\ sig_parse_der_lax_w dbg 4 b = sig_parse_der_lax dbg b.
Proof. exact C93_small_pf. Qed.
Print Assumptions C93_small.

Example C93_small_example : bytes [48; 7; 2; 2; 0; 128; 2; 1; 1] /\ len [48; 7; 2; 2; 0; 128; 2; 1; 1] <= 2 ^ 24.
Proof. exact C93_small_example_pf. Qed.
