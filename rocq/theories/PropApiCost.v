(** Property theorems proved in ApiCost.v (written by tools/gen_props.py). *)
From Coq Require Import Znumtheory Field.
From Verif Require Import Word MField MScalar MGroup MEcmult MEcdsa MCore MApi MCost CostLib WP FieldMul FieldNorm Spec Fp Bits FieldOps FieldCodec FieldStore ScalarMul ScalarOps ScalarMore ScalarBits Denote Unred Curve Group Chain Order Jac JacOps Table Ecmult Lift Gen Key Ctx ApiScalar ApiPub ApiGroup Ecdsa ApiEcdsa ApiKeys ApiGen ApiEq ApiBij ApiCost.

(** * C90 *)
Theorem C90_same_results : forall dbg,
  (forall ctx a na ng, cres (ecmult_c dbg ctx a na ng) = ecmult dbg ctx a na ng) /\
  (forall ctx r s k z, cres (verify_raw_c dbg ctx r s k z) = verify_raw dbg ctx r s k z) /\
  (forall ctx r s id z, cres (recover_raw_c dbg ctx r s id z) = recover_raw dbg ctx r s id z) /\
  (forall ctx d z k, cres (sign_raw_c dbg ctx d z k) = sign_raw dbg ctx d z k) /\
  (forall drbg fuel ctx z d, cores (sign_c dbg drbg fuel ctx z d) = sign dbg drbg fuel ctx z d) /\
  (forall D P d, cres (ecdh_raw_c dbg D P d) = ecdh_raw dbg D P d) /\
  (forall ctx d, cres (pk_from_secret_key_c dbg ctx d) = pk_from_secret_key dbg ctx d) /\
  (forall ctx k t, cres (pk_tweak_add_assign_c dbg ctx k t) = pk_tweak_add_assign dbg ctx k t) /\
  (forall ctx k t, cres (pk_tweak_mul_assign_c dbg ctx k t) = pk_tweak_mul_assign dbg ctx k t) /\
  (forall keys, cres (pk_combine_c dbg keys) = pk_combine dbg keys).
Proof. exact C90_same_results_pf. Qed.
Print Assumptions C90_same_results.

(** The double multiplication, whatever the table and the point: one doubling and seven additions for the table of odd multiples, then one doubling per digit of the longer
    recoding and one addition per nonzero digit; recodings have at most 256 digits and at most 52 and 16 nonzero ones. *)
Theorem C90_double_multiplication : forall dbg ctx a na ng r c, 0 <= na < n -> 0 <= ng < n -> ecmult_c dbg ctx a (scalar_of na) (scalar_of ng) = Some (r, c) ->
  exists l1 b1 l2 b2, ecmult_wnaf dbg 256 (scalar_of na) 5 = Some (l1, b1) /\ ecmult_wnaf dbg 256 (scalar_of ng) 16 = Some (l2, b2) /\
    c = Cost (1 + Z.max b1 b2) (7 + nonzeros l1 + nonzeros l2) 0 0 0 /\ b1 <= 256 /\ b2 <= 256 /\ nonzeros l1 <= 52 /\ nonzeros l2 <= 16.
Proof. exact C90_double_multiplication_pf. Qed.
Print Assumptions C90_double_multiplication.

(** Verification of any signature with any key and table. *)
Theorem C90_verify : forall dbg ctx k z r s b c, 0 <= r < n -> 0 <= s < n -> 0 <= z < n -> verify_raw_c dbg ctx (scalar_of r) (scalar_of s) k (scalar_of z) = Some (b, c) -> within c 257 75 0 0 1.
Proof. exact C90_verify_pf. Qed.
Print Assumptions C90_verify.

(** Recovery, for any id. *)
Theorem C90_recover : forall dbg ctx z r s id o c, 0 <= r < n -> 0 <= s < n -> 0 <= z < n -> recover_raw_c dbg ctx (scalar_of r) (scalar_of s) id (scalar_of z) = Some (o, c) -> within c 257 75 1 1 1.
Proof. exact C90_recover_pf. Qed.
Print Assumptions C90_recover.

(** Tweaking a public key, with any tweak, key and table. *)
Theorem C90_public_tweaks : forall dbg ctx k t o c, 0 <= t < n ->
  (pk_tweak_add_assign_c dbg ctx k (scalar_of t) = Some (o, c) -> within c 257 24 1 0 0) /\ (pk_tweak_mul_assign_c dbg ctx k (scalar_of t) = Some (o, c) -> within c 257 59 1 0 0).
Proof. exact C90_public_tweaks_pf. Qed.
Print Assumptions C90_public_tweaks.

(** One addition per key, and one inversion unless the sum is the point at infinity. *)
Theorem C90_combine : forall dbg keys o c, pk_combine_c dbg keys = Some (o, c) -> c = Cost 0 (Z.of_nat (length keys)) (match o with Ok _ => 1 | Err _ => 0 end) 0 0.
Proof. exact C90_combine_pf. Qed.
Print Assumptions C90_combine.

(** Where secrets are involved the numbers are fixed: they do not depend on the key, the nonce, the message or the point. *)
Theorem C90_secrets : forall dbg ctx d z k D P c, gen_ctx ctx ->
  (forall o, pk_from_secret_key_c dbg ctx d = Some (o, c) -> c = Cost 0 64 1 0 0) /\
  (forall o, sign_raw_c dbg ctx d z k = Some (o, c) -> c = Cost 0 64 1 0 1) /\
  (forall o, ecdh_raw_c dbg D P d = Some (Some o, c) -> c = Cost 258 72 2 0 0).
Proof. exact C90_secrets_pf. Qed.
Print Assumptions C90_secrets.

(** Signing: one multiplication with its inversion and one inversion of a scalar for every block in the range of nonces up to the first usable one. *)
Theorem C90_sign : forall dbg drbg fuel ctx d z v c, gen_ctx ctx -> 0 <= d < n -> 0 <= z < n -> let gen := drbg (be_bytes 32 d) (be_bytes 32 z) in stream gen ->
  sign_c dbg drbg fuel ctx (scalar_of z) (scalar_of d) = Done (v, c) ->
  exists j, (j < fuel)%nat /\ (forall l, (l < j)%nat -> ~ usable d z (nonce gen l)) /\ usable d z (nonce gen j) /\ c = Cost 0 (64 * tries gen 0 j) (tries gen 0 j) 0 (tries gen 0 j) /\ 1 <= tries gen 0 j <= Z.of_nat j + 1.
Proof. exact C90_sign_pf. Qed.
Print Assumptions C90_sign.

(** Every bound above is reached, in both builds, with a right table and the generator as the key. *)
Theorem C90_attained : exists ctx r z, verify_ctx ctx /\ 1 <= r < n /\ 0 <= z < n /\ exists r' s' z' t5 t16, 1 <= r' < n /\ 1 <= s' < n /\ 0 <= z' < n /\ 1 <= t5 < n /\ 1 <= t16 < n /\ forall dbg,
  (exists b, verify_raw_c dbg ctx (scalar_of r) (scalar_of 1) AFFINE_G (scalar_of z) = Some (b, Cost 257 75 0 0 1)) /\
  (exists id k, recover_raw_c dbg ctx (scalar_of r') (scalar_of s') id (scalar_of z') = Some (Ok k, Cost 257 75 1 1 1)) /\
  (exists k, pk_tweak_add_assign_c dbg ctx AFFINE_G (scalar_of t16) = Some ((k, Ok tt), Cost 257 24 1 0 0)) /\
  (exists k, pk_tweak_mul_assign_c dbg ctx AFFINE_G (scalar_of t5) = Some ((k, Ok tt), Cost 257 59 1 0 0)).
Proof. exact C90_attained_pf. Qed.
Print Assumptions C90_attained.

(** That tweaking a public key takes the same work for every tweak is false, so these functions are not meant for secret tweaks. *)
Theorem C90_fixed_tweak_work_refuted : exists ctx t1 t2, verify_ctx ctx /\ 1 <= t1 < n /\ 1 <= t2 < n /\ forall dbg, exists k1 k2 k3 k4,
  pk_tweak_mul_assign_c dbg ctx AFFINE_G (scalar_of t1) = Some ((k1, Ok tt), Cost 257 59 1 0 0) /\ pk_tweak_mul_assign_c dbg ctx AFFINE_G (scalar_of t2) = Some ((k2, Ok tt), Cost 2 8 1 0 0) /\
  pk_tweak_add_assign_c dbg ctx AFFINE_G (scalar_of wide16) = Some ((k3, Ok tt), Cost 257 24 1 0 0) /\ pk_tweak_add_assign_c dbg ctx AFFINE_G (scalar_of t2) = Some ((k4, Ok tt), Cost 2 9 1 0 0).
Proof. exact C90_fixed_tweak_work_refuted_pf. Qed.
Print Assumptions C90_fixed_tweak_work_refuted.

(** * Examples *)
Example C90_double_multiplication_example : exists ctx j, verify_ctx ctx /\ jac_at j G /\ 0 <= n - 1 < n /\ forall dbg, exists r c, ecmult_c dbg ctx j (scalar_of (n - 1)) (scalar_of (n - 1)) = Some (r, c).
Proof. exact C90_double_multiplication_example_pf. Qed.

Example C90_verify_example : exists ctx r z, verify_ctx ctx /\ 0 <= r < n /\ 0 <= 1 < n /\ 0 <= z < n /\ forall dbg, exists b c, verify_raw_c dbg ctx (scalar_of r) (scalar_of 1) AFFINE_G (scalar_of z) = Some (b, c).
Proof. exact C90_verify_example_pf. Qed.

Example C90_recover_example : exists ctx r s z, verify_ctx ctx /\ 0 <= r < n /\ 0 <= s < n /\ 0 <= z < n /\ forall dbg, exists id k c, recover_raw_c dbg ctx (scalar_of r) (scalar_of s) id (scalar_of z) = Some (Ok k, c).
Proof. exact C90_recover_example_pf. Qed.

Example C90_public_tweaks_example : exists ctx t, verify_ctx ctx /\ 0 <= t < n /\ forall dbg, (exists o c, pk_tweak_add_assign_c dbg ctx AFFINE_G (scalar_of t) = Some (o, c)) /\ exists o c, pk_tweak_mul_assign_c dbg ctx AFFINE_G (scalar_of t) = Some (o, c).
Proof. exact C90_public_tweaks_example_pf. Qed.

Example C90_combine_example : forall dbg, (exists k c, pk_combine_c dbg [AFFINE_G; AFFINE_G] = Some (Ok k, c)) /\ exists e c, pk_combine_c dbg [] = Some (Err e, c).
Proof. exact C90_combine_example_pf. Qed.

Example C90_secrets_example : exists ctx, gen_ctx ctx /\ forall dbg D, (exists o c, pk_from_secret_key_c dbg ctx (scalar_of (n - 1)) = Some (o, c)) /\ (exists o c, sign_raw_c dbg ctx (scalar_of 1) (scalar_of 1) (scalar_of 1) = Some (o, c)) /\
  exists o c, ecdh_raw_c dbg D AFFINE_G (scalar_of (n - 1)) = Some (Some o, c).
Proof. exact C90_secrets_example_pf. Qed.

Example C90_sign_example : exists ctx z, gen_ctx ctx /\ 0 <= 1 < n /\ 0 <= z < n /\ stream two_tries /\ forall dbg, exists v, sign_c dbg (fun _ _ => two_tries) 2 ctx (scalar_of z) (scalar_of 1) = Done (v, Cost 0 128 2 0 2).
Proof. exact C90_sign_example_pf. Qed.
