(** Property theorems proved in ApiEdge.v (written by tools/gen_props.py). *)
From Coq Require Import Znumtheory Zdiv.
From Verif Require Import Word MField MScalar MGroup MEcmult MEcdsa MApi WP FieldMul FieldNorm Spec Fp Bits FieldOps FieldCodec ScalarAcc ScalarMul ScalarOps ScalarRed ScalarMore ScalarBits Denote Unred Curve Group Chain Order Jac JacOps Table Wnaf WnafC Ecmult Lift Gen Key Ctx ApiScalar ApiPub ApiGroup Ecdsa ApiEcdsa ApiKeys ApiUnred ApiEdge.

(** The two scalars left out by [C68_ecdh_release]: rounding the secret up to an odd number wraps to zero, one digit misses the table, and
    the stale entry makes the multiple 29 for 2^256 - 2 and 30 for 2^256 - 1, whatever the point. *)
Theorem C68_ecdh_edge : forall D k P d, key_at k P -> P <> Inf -> 2 ^ 256 - 2 <= d < 2 ^ 256 ->
  exists x y, smul (31 - (2 ^ 256 - d)) P = Aff x y /\ shared_secret_new false D k (scalar_of d) = Some (Ok (D (sec1_compressed x y))).
Proof. exact C68_ecdh_edge_pf. Qed.
Print Assumptions C68_ecdh_edge.

Example C68_ecdh_edge_example : key_at AFFINE_G G /\ G <> Inf /\ 2 ^ 256 - 2 <= 2 ^ 256 - 1 < 2 ^ 256 /\ sk_try_from (scalar_of (2 ^ 256 - 1)) = Ok (scalar_of (2 ^ 256 - 1)).
Proof. exact C68_ecdh_edge_example_pf. Qed.

(** The release build takes r - p for the x-coordinate, and finds no key when the id has its second bit set. *)
Theorem C68_recover_release : forall ctx z r s id, verify_ctx ctx -> p <= r < 2 ^ 256 -> 0 <= s < 2 ^ 256 -> 0 <= z < 2 ^ 256 -> 0 <= id < 4 ->
  (exists k Q, recover false ctx (scalar_of z) (Sig (scalar_of r) (scalar_of s)) id = Some (Ok k) /\ key_at k Q /\ recovers_wrapped z r s id Q) \/
  (recover false ctx (scalar_of z) (Sig (scalar_of r) (scalar_of s)) id = Some (Err InvalidSignature) /\ forall Q, ~ recovers_wrapped z r s id Q).
Proof. exact C68_recover_release_pf. Qed.
Print Assumptions C68_recover_release.

Example C68_recover_release_example : (exists ctx, verify_ctx ctx) /\ p <= p + 1 < 2 ^ 256 /\ exists Q, recovers_wrapped 0 (p + 1) 1 (one_y mod 2) Q.
Proof. exact C68_recover_release_example_pf. Qed.
