(** Property theorems proved in ApiDebug.v (written by tools/gen_props.py). *)
From Coq Require Import String Ascii.
From Verif Require Import Word MField MScalar MGroup MGenSrc MApi MDebug WP FieldMul FieldNorm FieldZero Spec Fp Bits FieldOps FieldCodec FieldStore ScalarAcc ScalarMul ScalarOps Denote Curve Group Chain Order Jac JacOps Lift Key Ctx ApiScalar ApiPub ApiGroup ApiArith ApiMore ApiGen ApiDebug.

(** The text of a secret key discloses it: the numbers in it are the base-2^32 digits of the key, least significant first. *)
Theorem C81_secret : forall dbg b sk, length b = 32%nat -> bytes b -> sk_parse dbg b = Some (Ok sk) -> be_bytes 32 (digits_val (2 ^ 32) (numbers (sk_debug sk))) = b.
Proof. exact C81_secret_pf. Qed.
Print Assumptions C81_secret.

Example C81_secret_example : sk_parse true (be_bytes 32 (2 ^ 32 * 7 + 5)) = Some (Ok (scalar_of (2 ^ 32 * 7 + 5))) /\
  sk_debug (scalar_of (2 ^ 32 * 7 + 5)) = "SecretKey(Scalar([5, 7, 0, 0, 0, 0, 0, 0]))".
Proof. exact C81_secret_example_pf. Qed.

(** Messages, signatures, recovery ids, shared secrets and errors have the same text exactly if they are equal, for every value they can hold. *)
Theorem C81_text_equal :
  (forall a b, 0 <= a < 2 ^ 256 -> 0 <= b < 2 ^ 256 -> (sk_debug (scalar_of a) = sk_debug (scalar_of b) <-> a = b) /\ (msg_debug (scalar_of a) = msg_debug (scalar_of b) <-> a = b)) /\
  (forall r s r' s', 0 <= r < 2 ^ 256 -> 0 <= s < 2 ^ 256 -> 0 <= r' < 2 ^ 256 -> 0 <= s' < 2 ^ 256 ->
     (sig_debug (Sig (scalar_of r) (scalar_of s)) = sig_debug (Sig (scalar_of r') (scalar_of s')) <-> r = r' /\ s = s')) /\
  (forall a b, 0 <= a < 256 -> 0 <= b < 256 -> (rid_debug a = rid_debug b <-> a = b)) /\
  (forall a b, bytes a -> bytes b -> (ss_debug a = ss_debug b <-> a = b)) /\
  (forall a b, error_debug a = error_debug b <-> a = b).
Proof. exact C81_text_equal_pf. Qed.
Print Assumptions C81_text_equal.

Example C81_text_equal_example : sig_debug (Sig (scalar_of 1) (scalar_of 2)) = "Signature { r: Scalar([1, 0, 0, 0, 0, 0, 0, 0]), s: Scalar([2, 0, 0, 0, 0, 0, 0, 0]) }" /\
  rid_debug 3 = "RecoveryId(3)" /\ ss_debug [12; 255] = "SharedSecret([12, 255])" /\ error_debug InvalidSignature = "InvalidSignature".
Proof. exact C81_text_equal_example_pf. Qed.

(** The text of a public key gives its coordinates: the numbers in it are ten base-2^26 digits of x, a bookkeeping number, ten digits of y and another such number;
    the values of the digits are the coordinates modulo p. *)
Theorem C81_public : forall k x y, key_at k (Aff x y) -> exists lx mx ly my, numbers (pk_debug k) = lx ++ [mx] ++ ly ++ [my] /\
  length lx = 10%nat /\ length ly = 10%nat /\ digits_val (2 ^ 26) lx mod p = x /\ digits_val (2 ^ 26) ly mod p = y.
Proof. exact C81_public_pf. Qed.
Print Assumptions C81_public.

Example C81_public_example : key_at AFFINE_G (Aff gx gy) /\
  numbers (pk_debug AFFINE_G) = [49813400; 10507973; 42833311; 57456440; 50502652; 60932801; 33958236; 49197398; 41875932; 1994649; 1;
                                 51434680; 32777214; 21076420; 19044885; 16586676; 58999338; 38780864; 51484022; 41363107; 1183414; 1].
Proof. exact C81_public_example_pf. Qed.

(** The same public key parsed from its two standard encodings compares equal. The two values print the same text exactly when the y coordinate is a square modulo p:
    otherwise the compressed parser leaves y as a negated, unnormalised square root. *)
Theorem C81_forms : forall dbg x y, on_curve (Aff x y) -> exists kc kf, pk_parse_compressed dbg (sec1_compressed x y) = Some (Ok kc) /\ pk_parse dbg (sec1_full x y) = Some (Ok kf) /\
  pk_eq dbg kc kf = Some true /\ (pk_debug kc = pk_debug kf <-> square y).
Proof. exact C81_forms_pf. Qed.
Print Assumptions C81_forms.

Example C81_forms_example : on_curve (Aff gx gy) /\ on_curve (Aff gx (p - gy)) /\ square gy /\ ~ square (p - gy).
Proof. exact C81_forms_example_pf. Qed.

(** "Equal public keys print the same text" is false. *)
Theorem C81_public_refuted : forall dbg, exists kc kf, key_at kc (Aff gx (p - gy)) /\ key_at kf (Aff gx (p - gy)) /\ pk_eq dbg kc kf = Some true /\ pk_debug kc <> pk_debug kf.
Proof. exact C81_public_refuted_pf. Qed.
Print Assumptions C81_public_refuted.

(** The words, names and punctuation of each text, with # for each number: they depend only on the flags of field elements and points. *)
Theorem C81_shape :
  (forall s, shape (sk_debug s) = "SecretKey(Scalar([#, #, #, #, #, #, #, #]))") /\
  (forall s, shape (msg_debug s) = "Message(Scalar([#, #, #, #, #, #, #, #]))") /\
  (forall r s, shape (sig_debug (Sig r s)) = "Signature { r: Scalar([#, #, #, #, #, #, #, #]), s: Scalar([#, #, #, #, #, #, #, #]) }") /\
  (forall v, shape (rid_debug v) = "RecoveryId(#)") /\
  (forall l, shape (ss_debug l) = ("SharedSecret([" ++ hashes (length l) ++ "])")%string) /\
  (forall f, shape (f_debug f) = field_text (f_norm f)) /\
  (forall a, shape (pk_debug a) = ("PublicKey(Affine { x: " ++ field_text (f_norm (af_x a)) ++ ", y: " ++ field_text (f_norm (af_y a)) ++ ", infinity: " ++ (if af_inf a then "true" else "false") ++ " })")%string) /\
  (forall a, shape (j_debug a) = ("Jacobian { x: " ++ field_text (f_norm (j_x a)) ++ ", y: " ++ field_text (f_norm (j_y a)) ++ ", z: " ++ field_text (f_norm (j_z a)) ++ ", infinity: " ++ (if j_inf a then "true" else "false") ++ " }")%string) /\
  (forall x y, shape (as_debug (As x y)) = "AffineStorage { x: FieldStorage([#, #, #, #, #, #, #, #]), y: FieldStorage([#, #, #, #, #, #, #, #]) }") /\
  (forall e, shape (error_debug e) = error_debug e).
Proof. exact C81_shape_pf. Qed.
Print Assumptions C81_shape.

Example C81_shape_example : shape "RecoveryId(13), 007" = "RecoveryId(#), #" /\ hashes 3 = "#, #, #" /\ shape (f_debug (f_default)) = field_text (f_norm f_default).
Proof. exact C81_shape_example_pf. Qed.

Theorem C81_numbers :
  (forall s, Forall u32b (s_limbs s) -> numbers (s_debug s) = s_limbs s) /\
  (forall f, Forall u32b (field_numbers f) -> numbers (f_debug f) = field_numbers f) /\
  (forall a, Forall u32b (field_numbers (af_x a)) -> Forall u32b (field_numbers (af_y a)) -> numbers (af_debug a) = field_numbers (af_x a) ++ field_numbers (af_y a)) /\
  (forall a, Forall u32b (field_numbers (j_x a)) -> Forall u32b (field_numbers (j_y a)) -> Forall u32b (field_numbers (j_z a)) ->
     numbers (j_debug a) = field_numbers (j_x a) ++ field_numbers (j_y a) ++ field_numbers (j_z a)) /\
  (forall f, Forall u32b (storage_numbers f) -> numbers (fs_debug f) = storage_numbers f) /\
  (forall x y, Forall u32b (storage_numbers x) -> Forall u32b (storage_numbers y) -> numbers (as_debug (As x y)) = storage_numbers x ++ storage_numbers y).
Proof. exact C81_numbers_pf. Qed.
Print Assumptions C81_numbers.

Example C81_numbers_example : Forall u32b (field_numbers (af_x AFFINE_G)) /\ Forall u32b (storage_numbers (Fs 4294967295 0 0 0 0 0 0 1)) /\
  fs_debug (Fs 4294967295 0 0 0 0 0 0 1) = "FieldStorage([4294967295, 0, 0, 0, 0, 0, 0, 1])".
Proof. exact C81_numbers_example_pf. Qed.

(** A number is written in decimal without leading zeros. *)
Theorem C81_decimal : forall v, 0 <= v < 2 ^ 32 -> numbers (dec_u32 v) = [v] /\ shape (dec_u32 v) = "#" /\ (v = 0 -> dec_u32 v = "0") /\ (v <> 0 -> exists c t, dec_u32 v = String c t /\ c <> "0"%char).
Proof. exact C81_decimal_pf. Qed.
Print Assumptions C81_decimal.

Example C81_decimal_example : dec_u32 4294967295 = "4294967295" /\ dec_u32 10 = "10".
Proof. exact C81_decimal_example_pf. Qed.
