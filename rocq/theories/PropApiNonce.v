(** Property theorems proved in ApiNonce.v (written by tools/gen_props.py). *)
From Coq Require Import Znumtheory Field Zdiv.
From Verif Require Import Word MField MScalar MGroup MEcmult MEcdsa MDer MApi WP FieldMul FieldNorm FieldZero Spec Fp Bits FieldOps FieldCodec FieldStore ScalarMul ScalarOps ScalarMore ScalarBits Denote Unred Curve Group Chain Order Jac JacOps Table Ecmult Lift Gen Key Ctx ApiScalar ApiDer ApiPub ApiGroup Ecdsa ApiEcdsa ApiKeys ApiArith ApiMore ApiUnred ApiNonce.

Theorem C82_any_integers : forall dbg ctx d z k, gen_ctx ctx -> 0 <= d < 2 ^ 256 -> 0 <= z < 2 ^ 256 -> 0 <= k < 2 ^ 256 ->
  (k mod n <> 0 -> sign_raw dbg ctx (scalar_of d) (scalar_of z) (scalar_of k) = sign_raw dbg ctx (scalar_of (d mod n)) (scalar_of (z mod n)) (scalar_of (k mod n))) /\
  (k mod n = 0 -> sign_raw dbg ctx (scalar_of d) (scalar_of z) (scalar_of k) = if dbg then None else Some (Err InvalidMessage)).
Proof. exact C82_any_integers_pf. Qed.
Print Assumptions C82_any_integers.

Example C82_any_integers_example : (exists ctx, gen_ctx ctx) /\ 0 <= n + 1 < 2 ^ 256 /\ (n + 1) mod n <> 0 /\ 0 <= n < 2 ^ 256 /\ n mod n = 0.
Proof. exact C82_any_integers_example_pf. Qed.

(** A nonce and its negative give the same outcome, except for the two signatures whose s is next to n/2: each of them is exchanged for the other, with the other recovery id. *)
Theorem C82_negated_nonce : forall dbg ctx d z k, gen_ctx ctx -> 0 <= d < n -> 0 <= z < n -> 1 <= k < n ->
  let o v := sign_raw dbg ctx (scalar_of d) (scalar_of z) (scalar_of v) in
  (o k = None <-> o (n - k) = None) /\ (forall e, o k = Some (Err e) <-> o (n - k) = Some (Err e)) /\
  (forall r s id, 0 <= s < n -> o k = Some (Ok (scalar_of r, scalar_of s, id)) ->
    o (n - k) = Some (Ok (if (s =? (n - 1) / 2) || (s =? (n + 1) / 2) then (scalar_of r, scalar_of (n - s), flip_id id) else (scalar_of r, scalar_of s, id)))).
Proof. exact C82_negated_nonce_pf. Qed.
Print Assumptions C82_negated_nonce.

(** The exception occurs. *)
Theorem C82_negated_nonce_refuted : exists ctx d z k, gen_ctx ctx /\ 1 <= d < n /\ 0 <= z < n /\ 1 <= k < n /\ forall dbg, sign_raw dbg ctx (scalar_of d) (scalar_of z) (scalar_of k) <> None /\
  sign_raw dbg ctx (scalar_of d) (scalar_of z) (scalar_of k) <> sign_raw dbg ctx (scalar_of d) (scalar_of z) (scalar_of (n - k)).
Proof. exact C82_negated_nonce_refuted_pf. Qed.
Print Assumptions C82_negated_nonce_refuted.

Example C82_negated_nonce_example : exists ctx, gen_ctx ctx /\ 0 <= 1 < n /\ 1 <= 1 < n /\ exists r s id, signature_for 1 1 1 r s id.
Proof. exact C82_negated_nonce_example_pf. Qed.

(** Who knows the nonce of a signature knows the key, and who knows the key knows the nonce, up to sign. *)
Theorem C82_key_or_nonce : forall dbg ctx d z k r s id, gen_ctx ctx -> 0 <= d < n -> 0 <= z < n -> 1 <= k < n -> 0 <= r < n -> 0 <= s < n ->
  sign_raw dbg ctx (scalar_of d) (scalar_of z) (scalar_of k) = Some (Ok (scalar_of r, scalar_of s, id)) ->
  (r <> 0 -> In d [key_from z k r s; key_from z (n - k) r s]) /\ In k [nonce_from d z r s; n - nonce_from d z r s].
Proof. exact C82_key_or_nonce_pf. Qed.
Print Assumptions C82_key_or_nonce.

Example C82_key_or_nonce_example : exists ctx r s id, gen_ctx ctx /\ 0 <= s < n /\ sign_raw true ctx (scalar_of 1) (scalar_of 1) (scalar_of 1) = Some (Ok (scalar_of r, scalar_of s, id)) /\ 1 <= r < n.
Proof. exact C82_key_or_nonce_example_pf. Qed.

Theorem C82_same_r : forall dbg dbg' ctx ctx' d1 z1 k1 r1 s1 id1 d2 z2 k2 r2 s2 id2, gen_ctx ctx -> gen_ctx ctx' -> 0 <= d1 < n -> 0 <= z1 < n -> 1 <= k1 < n -> 0 <= d2 < n -> 0 <= z2 < n -> 1 <= k2 < n ->
  0 <= r1 < n -> 0 <= r2 < n ->
  sign_raw dbg ctx (scalar_of d1) (scalar_of z1) (scalar_of k1) = Some (Ok (scalar_of r1, s1, id1)) -> sign_raw dbg' ctx' (scalar_of d2) (scalar_of z2) (scalar_of k2) = Some (Ok (scalar_of r2, s2, id2)) ->
  (r1 = r2 /\ id1 / 2 = id2 / 2 <-> k2 = k1 \/ k2 = n - k1).
Proof. exact C82_same_r_pf. Qed.
Print Assumptions C82_same_r.

Example C82_same_r_example : exists ctx r s id, gen_ctx ctx /\ 0 <= s < n /\ sign_raw true ctx (scalar_of 1) (scalar_of 1) (scalar_of 1) = Some (Ok (scalar_of r, scalar_of s, id)) /\ 1 <= r < n.
Proof. exact C82_same_r_example_pf. Qed.

(** Two signatures made by [sign] with one key on different messages that show the same r and the same high id bit disclose the key: it is one of two numbers computed from what is public. *)
Theorem C82_reused_nonce : forall dbg dbg' drbg drbg' fuel fuel' ctx ctx' d z1 z2 r s1 s2 id1 id2, gen_ctx ctx -> gen_ctx ctx' -> 0 <= d < n -> 0 <= z1 < n -> 0 <= z2 < n -> z1 <> z2 ->
  stream (drbg (be_bytes 32 d) (be_bytes 32 z1)) -> stream (drbg' (be_bytes 32 d) (be_bytes 32 z2)) -> 1 <= r < n -> 0 <= s1 < n -> 0 <= s2 < n ->
  sign dbg drbg fuel ctx (scalar_of z1) (scalar_of d) = Done (Sig (scalar_of r) (scalar_of s1), id1) ->
  sign dbg' drbg' fuel' ctx' (scalar_of z2) (scalar_of d) = Done (Sig (scalar_of r) (scalar_of s2), id2) -> id1 / 2 = id2 / 2 ->
  In d [key_from_two 1 r z1 s1 z2 s2; key_from_two (-1) r z1 s1 z2 s2].
Proof. exact C82_reused_nonce_pf. Qed.
Print Assumptions C82_reused_nonce.

Example C82_reused_nonce_example : exists ctx r s1 s2 id1 id2, gen_ctx ctx /\ stream one_stream /\ 1 <= r < n /\ 0 <= s1 < n /\ 0 <= s2 < n /\
  sign true (fun _ _ => one_stream) 2 ctx (scalar_of 1) (scalar_of 1) = Done (Sig (scalar_of r) (scalar_of s1), id1) /\
  sign true (fun _ _ => one_stream) 2 ctx (scalar_of 2) (scalar_of 1) = Done (Sig (scalar_of r) (scalar_of s2), id2) /\ id1 / 2 = id2 / 2.
Proof. exact C82_reused_nonce_example_pf. Qed.
