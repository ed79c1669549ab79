(** Property theorems proved in ApiLaws.v (written by tools/gen_props.py). *)
From Coq Require Import Znumtheory Zdiv Permutation.
From Verif Require Import Word MField MScalar MGroup MEcmult MEcdsa MApi WP FieldMul FieldNorm Spec Fp Bits FieldOps FieldCodec Denote Curve Group Chain Order Jac JacOps Table Ecmult Lift Gen Key Ctx ApiScalar ApiPub ApiGroup Ecdsa ApiEcdsa ApiKeys ApiLaws.

(** Combining the public keys of several secret keys gives the public key of the sum of the secrets modulo n, and is refused iff that sum is 0. *)
Theorem C80_combine_secrets : forall dbg dbg' ctx ds ks, gen_ctx ctx -> Forall (fun d => 1 <= d < n) ds -> Forall2 (fun d k => pk_from_secret_key dbg' ctx (scalar_of d) = Some k) ds ks ->
  let t := fold_right Z.add 0 ds mod n in
  (t = 0 -> pk_combine dbg ks = Some (Err InvalidPublicKey)) /\
  (t <> 0 -> exists k k', pk_combine dbg ks = Some (Ok k) /\ pk_from_secret_key dbg' ctx (scalar_of t) = Some k' /\ pk_eq dbg k k' = Some true).
Proof. exact C80_combine_secrets_pf. Qed.
Print Assumptions C80_combine_secrets.

Example C80_combine_secrets_example : exists ctx k1 k2 k3, gen_ctx ctx /\ Forall (fun d => 1 <= d < n) [1; n - 1; 1] /\ Forall2 (fun d k => pk_from_secret_key true ctx (scalar_of d) = Some k) [1; n - 1; 1] [k1; k2; k3] /\
  fold_right Z.add 0 [1; n - 1; 1] mod n = 1 /\ fold_right Z.add 0 [1; n - 1] mod n = 0.
Proof. exact C80_combine_secrets_example_pf. Qed.

(** Adding a tweak to a public key and combining it with the tweak's own public key agree; the two refusals also coincide. *)
Theorem C80_tweak_combine : forall dbg dbg' vctx gctx k P t kt, verify_ctx vctx -> gen_ctx gctx -> key_at k P -> P <> Inf -> 1 <= t < n -> pk_from_secret_key dbg' gctx (scalar_of t) = Some kt ->
  (pk_tweak_add_assign dbg vctx k (scalar_of t) = Some (k, Err TweakOutOfRange) /\ pk_combine dbg [k; kt] = Some (Err InvalidPublicKey)) \/
  exists k1 k2, pk_tweak_add_assign dbg vctx k (scalar_of t) = Some (k1, Ok tt) /\ pk_combine dbg [k; kt] = Some (Ok k2) /\ pk_eq dbg k1 k2 = Some true.
Proof. exact C80_tweak_combine_pf. Qed.
Print Assumptions C80_tweak_combine.

Example C80_tweak_combine_example : exists vctx gctx kt, verify_ctx vctx /\ gen_ctx gctx /\ key_at AFFINE_G G /\ pk_from_secret_key true gctx (scalar_of (n - 1)) = Some kt /\
  padd G (smul (n - 1) G) = Inf /\ padd G (smul 1 G) <> Inf.
Proof. exact C80_tweak_combine_example_pf. Qed.

(** Combining m copies of a key is multiplying it by m. *)
Theorem C80_combine_copies : forall dbg vctx k P m, verify_ctx vctx -> key_at k P -> P <> Inf -> 1 <= Z.of_nat m < n ->
  exists k1 k2, pk_combine dbg (repeat k m) = Some (Ok k1) /\ pk_tweak_mul_assign dbg vctx k (scalar_of (Z.of_nat m)) = Some (k2, Ok tt) /\ pk_eq dbg k1 k2 = Some true.
Proof. exact C80_combine_copies_pf. Qed.
Print Assumptions C80_combine_copies.

Example C80_combine_copies_example : exists vctx, verify_ctx vctx /\ key_at AFFINE_G G /\ G <> Inf /\ 1 <= Z.of_nat 3 < n.
Proof. exact C80_combine_copies_example_pf. Qed.

(** Blinding: a factor multiplied into the public key or into the secret key gives the same shared secret. *)
Theorem C80_ecdh_factor : forall dbg dbg' vctx D k P d t k1 d1, verify_ctx vctx -> key_at k P -> P <> Inf -> 1 <= d < n -> 1 <= t < n ->
  pk_tweak_mul_assign dbg vctx k (scalar_of t) = Some (k1, Ok tt) -> sk_tweak_mul_assign dbg (scalar_of d) (scalar_of t) = Some (d1, Ok tt) ->
  shared_secret_new dbg D k1 (scalar_of d) = shared_secret_new dbg' D k d1 /\ exists h, shared_secret_new dbg' D k d1 = Some (Ok h).
Proof. exact C80_ecdh_factor_pf. Qed.
Print Assumptions C80_ecdh_factor.

Example C80_ecdh_factor_example : exists vctx k1 d1, verify_ctx vctx /\ key_at AFFINE_G G /\ G <> Inf /\ 1 <= 2 < n /\
  pk_tweak_mul_assign true vctx AFFINE_G (scalar_of 2) = Some (k1, Ok tt) /\ sk_tweak_mul_assign true (scalar_of 2) (scalar_of 2) = Some (d1, Ok tt).
Proof. exact C80_ecdh_factor_example_pf. Qed.

(** Unblinding: multiplying a key by t and running Diffie-Hellman with the inverse of t gives the digest of the original key. *)
Theorem C80_ecdh_unblind : forall dbg vctx D k x y t k1 ti b, verify_ctx vctx -> key_at k (Aff x y) -> 1 <= t < n ->
  pk_tweak_mul_assign dbg vctx k (scalar_of t) = Some (k1, Ok tt) -> sk_inv dbg (scalar_of t) = Some ti -> pk_serialize_compressed dbg k = Some b ->
  shared_secret_new dbg D k1 ti = Some (Ok (D b)).
Proof. exact C80_ecdh_unblind_pf. Qed.
Print Assumptions C80_ecdh_unblind.

Example C80_ecdh_unblind_example : exists vctx k1 ti b, verify_ctx vctx /\ key_at AFFINE_G (Aff gx gy) /\ 1 <= 2 < n /\
  pk_tweak_mul_assign true vctx AFFINE_G (scalar_of 2) = Some (k1, Ok tt) /\ sk_inv true (scalar_of 2) = Some ti /\ pk_serialize_compressed true AFFINE_G = Some b.
Proof. exact C80_ecdh_unblind_example_pf. Qed.

(** Distributivity: adding t and multiplying by u is multiplying by u and adding t*u; the refusals coincide. *)
Theorem C80_distributes : forall dbg vctx k P t u ku, verify_ctx vctx -> key_at k P -> P <> Inf -> 1 <= t < n -> 1 <= u < n ->
  pk_tweak_mul_assign dbg vctx k (scalar_of u) = Some (ku, Ok tt) ->
  (pk_tweak_add_assign dbg vctx k (scalar_of t) = Some (k, Err TweakOutOfRange) /\ pk_tweak_add_assign dbg vctx ku (scalar_of ((t * u) mod n)) = Some (ku, Err TweakOutOfRange)) \/
  exists k1 k2 k3, pk_tweak_add_assign dbg vctx k (scalar_of t) = Some (k1, Ok tt) /\ pk_tweak_mul_assign dbg vctx k1 (scalar_of u) = Some (k2, Ok tt) /\
    pk_tweak_add_assign dbg vctx ku (scalar_of ((t * u) mod n)) = Some (k3, Ok tt) /\ pk_eq dbg k2 k3 = Some true.
Proof. exact C80_distributes_pf. Qed.
Print Assumptions C80_distributes.

Example C80_distributes_example : exists vctx ku, verify_ctx vctx /\ key_at AFFINE_G G /\ G <> Inf /\ 1 <= n - 1 < n /\ 1 <= 2 < n /\ pk_tweak_mul_assign true vctx AFFINE_G (scalar_of 2) = Some (ku, Ok tt) /\
  padd G (smul (n - 1) G) = Inf /\ padd G (smul 1 G) <> Inf.
Proof. exact C80_distributes_example_pf. Qed.

(** Derived keys: whoever holds only the public key can compute, from the tweak, the key under which the owner's signatures with the tweaked secret key verify. *)
Theorem C80_derived_signature : forall dbg dbg' drbg fuel gctx vctx k d t d1 k1 z g id, gen_ctx gctx -> verify_ctx vctx -> 1 <= d < n -> 1 <= t < n -> 0 <= z < n -> key_at k (smul d G) ->
  stream (drbg (s_b32 d1) (be_bytes 32 z)) ->
  (sk_tweak_add_assign dbg (scalar_of d) (scalar_of t) = Some (d1, Ok tt) /\ pk_tweak_add_assign dbg' vctx k (scalar_of t) = Some (k1, Ok tt)) \/
  (sk_tweak_mul_assign dbg (scalar_of d) (scalar_of t) = Some (d1, Ok tt) /\ pk_tweak_mul_assign dbg' vctx k (scalar_of t) = Some (k1, Ok tt)) ->
  sign dbg drbg fuel gctx (scalar_of z) d1 = Done (g, id) -> s_is_zero (sig_r g) = false ->
  verify dbg' vctx (scalar_of z) g k1 = Some true.
Proof. exact C80_derived_signature_pf. Qed.
Print Assumptions C80_derived_signature.

(** The owner of d = 2 signs with d + (n - 1) = 1 modulo n. *)
Example C80_derived_signature_example : exists drbg gctx vctx k d1 k1 g id, gen_ctx gctx /\ verify_ctx vctx /\ 1 <= 2 < n /\ 1 <= n - 1 < n /\ key_at k (smul 2 G) /\ stream (drbg (s_b32 d1) (be_bytes 32 1)) /\
  sk_tweak_add_assign true (scalar_of 2) (scalar_of (n - 1)) = Some (d1, Ok tt) /\ pk_tweak_add_assign true vctx k (scalar_of (n - 1)) = Some (k1, Ok tt) /\
  sign true drbg 2 gctx (scalar_of 1) d1 = Done (g, id) /\ s_is_zero (sig_r g) = false.
Proof. exact C80_derived_signature_example_pf. Qed.
