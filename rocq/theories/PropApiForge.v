(** Property theorems proved in ApiForge.v (written by tools/gen_props.py). *)
From Coq Require Import Znumtheory Zdiv.
From Verif Require Import Word MField MScalar MGroup MEcmult MEcdsa MDer MApi WP FieldMul FieldNorm FieldZero Spec Fp Bits FieldOps FieldCodec FieldStore ScalarMul ScalarOps ScalarMore ScalarBits Denote Unred Curve Group Chain Order Jac JacOps Table Ecmult Lift Gen Key Ctx ApiScalar ApiDer ApiPub ApiGroup Ecdsa ApiEcdsa ApiKeys ApiArith ApiMore ApiUnred ApiNonce ApiBij ApiUniform ApiForge.

(** Any u and v give a message and a signature that verifies, by operations on the public key only. *)
Theorem C92_forgery : forall dbg ctx k Q u v x y, verify_ctx ctx -> key_at k Q -> Q <> Inf -> 0 <= u < n -> 1 <= v < n ->
  padd (smul u G) (smul v Q) = Aff x y -> x mod n <> 0 ->
  let r := x mod n in let s := (r * inv_mod n v) mod n in let z := (u * s) mod n in
  verify dbg ctx (scalar_of z) (Sig (scalar_of r) (scalar_of s)) k = Some true.
Proof. exact C92_forgery_pf. Qed.
Print Assumptions C92_forgery.

Example C92_forgery_example : exists ctx, verify_ctx ctx /\ key_at AFFINE_G G /\ G <> Inf /\ padd (smul 0 G) (smul 1 G) = Aff gx gy /\ gx mod n <> 0 /\ (exists x y, padd (smul 1 G) (smul 1 G) = Aff x y /\ x mod n <> 0).
Proof. exact C92_forgery_example_pf. Qed.

(** Every accepted message and signature is of this form, for exactly one u and v. *)
Theorem C92_all_forgeries : forall dbg ctx k Q z r s, verify_ctx ctx -> key_at k Q -> Q <> Inf -> 0 <= z < n -> 0 <= r < n -> 0 <= s < n ->
  verify dbg ctx (scalar_of z) (Sig (scalar_of r) (scalar_of s)) k = Some true ->
  exists u v, 0 <= u < n /\ 1 <= v < n /\ (exists x y, padd (smul u G) (smul v Q) = Aff x y /\ r = x mod n) /\ r <> 0 /\ s = (r * inv_mod n v) mod n /\ z = (u * s) mod n /\
    forall u' v', 0 <= u' < n -> 1 <= v' < n -> s = (r * inv_mod n v') mod n -> z = (u' * s) mod n -> u' = u /\ v' = v.
Proof. exact C92_all_forgeries_pf. Qed.
Print Assumptions C92_all_forgeries.

Example C92_all_forgeries_example : exists ctx, verify_ctx ctx /\ key_at AFFINE_G G /\ verify true ctx (scalar_of 0) (Sig (scalar_of gx) (scalar_of gx)) AFFINE_G = Some true.
Proof. exact C92_all_forgeries_example_pf. Qed.

(** "Whoever made an accepted signature knew the secret key" is false: the x coordinate of the key, twice, is a signature of the message 0. *)
Theorem C92_signer_needed_refuted : exists forge : Z -> Z -> Z * Z * Z, forall dbg ctx k x y, verify_ctx ctx -> key_at k (Aff x y) -> x mod n <> 0 ->
  let '(z, r, s) := forge x y in 0 <= z < n /\ 1 <= r < n /\ 1 <= s < n /\ verify dbg ctx (scalar_of z) (Sig (scalar_of r) (scalar_of s)) k = Some true.
Proof. exact C92_signer_needed_refuted_pf. Qed.
Print Assumptions C92_signer_needed_refuted.

(** The same with calls of the API: 32 zero bytes as message, and the 32 bytes after the tag of the compressed key twice as signature. *)
Theorem C92_zero_message : forall dbg ctx k x y, verify_ctx ctx -> key_at k (Aff x y) -> x mod n <> 0 ->
  exists c m g, pk_serialize_compressed dbg k = Some c /\ msg_parse dbg (repeat 0 32) = Some m /\ sig_parse_overflowing dbg (tl c ++ tl c) = Some g /\ verify dbg ctx m g k = Some true.
Proof. exact C92_zero_message_pf. Qed.
Print Assumptions C92_zero_message.

Example C92_zero_message_example : (exists ctx, verify_ctx ctx) /\ key_at AFFINE_G (Aff gx gy) /\ gx mod n <> 0.
Proof. exact C92_zero_message_example_pf. Qed.

(** A signature is accepted under the key with t added exactly when it is accepted, for the message moved by r*t, under the key itself. *)
Theorem C92_added_tweak : forall dbg dbg' ctx k Q t k1, verify_ctx ctx -> key_at k Q -> Q <> Inf -> 1 <= t < n -> pk_tweak_add_assign dbg' ctx k (scalar_of t) = Some (k1, Ok tt) ->
  forall z r s, 0 <= z < n -> 0 <= r < n -> 0 <= s < n ->
  verify dbg ctx (scalar_of z) (Sig (scalar_of r) (scalar_of s)) k1 = verify dbg ctx (scalar_of ((z + r * t) mod n)) (Sig (scalar_of r) (scalar_of s)) k.
Proof. exact C92_added_tweak_pf. Qed.
Print Assumptions C92_added_tweak.

Example C92_added_tweak_example : exists ctx k1, verify_ctx ctx /\ key_at AFFINE_G G /\ 1 <= 1 < n /\ pk_tweak_add_assign true ctx AFFINE_G (scalar_of 1) = Some (k1, Ok tt).
Proof. exact C92_added_tweak_example_pf. Qed.

(** Multiplying the key, the message and s by the same number keeps the verdict. *)
Theorem C92_multiplied_tweak : forall dbg dbg' ctx k Q t k1, verify_ctx ctx -> key_at k Q -> Q <> Inf -> 1 <= t < n -> pk_tweak_mul_assign dbg' ctx k (scalar_of t) = Some (k1, Ok tt) ->
  forall z r s, 0 <= z < n -> 0 <= r < n -> 0 <= s < n ->
  verify dbg ctx (scalar_of ((z * t) mod n)) (Sig (scalar_of r) (scalar_of ((s * t) mod n))) k1 = verify dbg ctx (scalar_of z) (Sig (scalar_of r) (scalar_of s)) k.
Proof. exact C92_multiplied_tweak_pf. Qed.
Print Assumptions C92_multiplied_tweak.

Example C92_multiplied_tweak_example : exists ctx k1, verify_ctx ctx /\ key_at AFFINE_G G /\ 1 <= 2 < n /\ pk_tweak_mul_assign true ctx AFFINE_G (scalar_of 2) = Some (k1, Ok tt) /\
  verify true ctx (scalar_of 0) (Sig (scalar_of gx) (scalar_of ((gx * 2) mod n))) k1 = Some true.
Proof. exact C92_multiplied_tweak_example_pf. Qed.
