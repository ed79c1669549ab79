(** Property theorems proved in ApiEq.v (written by tools/gen_props.py). *)
From Verif Require Import Word MField MScalar MGroup MEcmult MDer MApi MEq WP FieldMul FieldNorm FieldOps FieldStore ScalarOps Spec Bits Denote Fp Key Ctx ApiScalar ApiDer ApiPub ApiGroup ApiEcdsa ApiKeys ApiArith ApiEq.

(** Two secret keys are equal exactly if they serialize to the same bytes, for every value a scalar can hold; so are two messages. *)
Theorem C75_secret_message : forall a b, 0 <= a < 2 ^ 256 -> 0 <= b < 2 ^ 256 ->
  (sk_eqb (scalar_of a) (scalar_of b) = true <-> sk_serialize (scalar_of a) = sk_serialize (scalar_of b)) /\
  (msg_eqb (scalar_of a) (scalar_of b) = true <-> msg_serialize (scalar_of a) = msg_serialize (scalar_of b)).
Proof. exact C75_secret_message_pf. Qed.
Print Assumptions C75_secret_message.

Example C75_secret_message_example : sk_eqb (scalar_of 5) (scalar_of (n + 5)) = false /\ sk_eqb (scalar_of 5) (scalar_of 5) = true.
Proof. exact C75_secret_message_example_pf. Qed.

(** Two signatures are equal exactly if their 64-byte forms are, for every value the two scalars can hold; and, where the DER form can be read back, exactly if the DER forms are. *)
Theorem C75_signature : forall r s r' s', 0 <= r < 2 ^ 256 -> 0 <= s < 2 ^ 256 -> 0 <= r' < 2 ^ 256 -> 0 <= s' < 2 ^ 256 ->
  let g := Sig (scalar_of r) (scalar_of s) in let g' := Sig (scalar_of r') (scalar_of s') in
  (sig_eqb g g' = true <-> sig_serialize g = sig_serialize g') /\
  (r < n -> 1 <= s < n -> r' < n -> 1 <= s' < n -> (sig_eqb g g' = true <-> sig_serialize_der g = sig_serialize_der g')).
Proof. exact C75_signature_pf. Qed.
Print Assumptions C75_signature.

Example C75_signature_example : sig_eqb (Sig (scalar_of 5) (scalar_of 7)) (Sig (scalar_of 7) (scalar_of 5)) = false /\ sig_eqb (Sig (scalar_of 5) (scalar_of 7)) (Sig (scalar_of 5) (scalar_of 8)) = false /\
  sig_eqb (Sig (scalar_of 5) (scalar_of 7)) (Sig (scalar_of 5) (scalar_of 7)) = true.
Proof. exact C75_signature_example_pf. Qed.

(** What was read from two byte strings is equal exactly if the byte strings are: secret keys, 64-byte signatures, recovery ids in either numbering, and digests of shared secrets. *)
Theorem C75_parsed : forall dbg,
  (forall a b k l, length a = 32%nat -> length b = 32%nat -> bytes a -> bytes b -> sk_parse dbg a = Some (Ok k) -> sk_parse dbg b = Some (Ok l) -> (sk_eqb k l = true <-> a = b)) /\
  (forall a b g h, length a = 64%nat -> length b = 64%nat -> bytes a -> bytes b -> sig_parse_standard dbg a = Some (Ok g) -> sig_parse_standard dbg b = Some (Ok h) -> (sig_eqb g h = true <-> a = b)) /\
  (forall a b i j, 0 <= a < 256 -> 0 <= b < 256 -> rid_parse a = Ok i -> rid_parse b = Ok j -> (rid_eqb i j = true <-> a = b)) /\
  (forall a b i j, 0 <= a < 256 -> 0 <= b < 256 -> rid_parse_rpc a = Ok i -> rid_parse_rpc b = Ok j -> (rid_eqb i j = true <-> a = b)) /\
  (forall a b, ss_eqb a b = true <-> a = b).
Proof. exact C75_parsed_pf. Qed.
Print Assumptions C75_parsed.

Example C75_parsed_example : sk_parse true (be_bytes 32 5) = Some (Ok (scalar_of 5)) /\ rid_parse 3 = Ok 3 /\ rid_parse_rpc 30 = Ok 3 /\ ss_eqb [1; 2] [1; 2; 3] = false /\ ss_eqb [1; 2] [1; 2] = true.
Proof. exact C75_parsed_example_pf. Qed.

(** The public keys of two secret keys are equal exactly if the secret keys are. *)
Theorem C75_public_secret : forall dbg ctx ctx' d e, gen_ctx ctx -> gen_ctx ctx' -> 1 <= d < n -> 1 <= e < n ->
  exists k k', pk_from_secret_key dbg ctx (scalar_of d) = Some k /\ pk_from_secret_key dbg ctx' (scalar_of e) = Some k' /\ pk_eq dbg k k' = Some (sk_eqb (scalar_of d) (scalar_of e)).
Proof. exact C75_public_secret_pf. Qed.
Print Assumptions C75_public_secret.

Example C75_public_secret_example : (exists ctx, gen_ctx ctx) /\ 1 <= n - 1 < n.
Proof. exact C75_public_secret_example_pf. Qed.

(** On normalized field elements the order is that of the values, and agrees with equality. *)
Theorem C75_field_order : forall dbg f g, fcan f -> fcan g -> exists c, f_cmp dbg f g = Some c /\ f_partial_cmp dbg f g = Some (Some c) /\
  (c = Eq <-> f_eq dbg f g = Some true) /\ (c = Eq <-> fv f = fv g) /\ (c = Lt <-> fv f < fv g) /\ (c = Gt <-> fv g < fv f) /\ f_cmp dbg g f = Some (CompOpp c).
Proof. exact C75_field_order_pf. Qed.
Print Assumptions C75_field_order.

Example C75_field_order_example : fcan (Fe 0 1 0 0 0 0 0 0 0 0 1 true) /\ f_cmp true (Fe 67108863 0 0 0 0 0 0 0 0 0 1 true) (Fe 0 1 0 0 0 0 0 0 0 0 1 true) = Some Lt.
Proof. exact C75_field_order_example_pf. Qed.

(** Without normalization it is not: a release build finds 0 and p equal but 0 below p, and a debug build panics. *)
Theorem C75_field_order_refuted : exists f g, fok 1 f /\ fok 1 g /\ f_eq false f g = Some true /\ f_cmp false f g = Some Lt /\ f_cmp true f g = None.
Proof. exact C75_field_order_refuted_pf. Qed.
Print Assumptions C75_field_order_refuted.

(** Two affine values denoting the point at infinity can be unequal: the unused coordinates are compared too. *)
Theorem C75_infinity_refuted : forall dbg, exists a b, key_at a Inf /\ key_at b Inf /\ af_eq dbg a b = Some false.
Proof. exact C75_infinity_refuted_pf. Qed.
Print Assumptions C75_infinity_refuted.

(** Two stored points are equal exactly if they are the same point. *)
Theorem C75_stored : forall s s' P P', stored_at s P -> stored_at s' P' -> (as_eqb s s' = true <-> P = P').
Proof. exact C75_stored_pf. Qed.
Print Assumptions C75_stored.

Example C75_stored_example : exists ctx s, verify_ctx ctx /\ stored_at s G.
Proof. exact C75_stored_example_pf. Qed.
