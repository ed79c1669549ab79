(** Property theorems proved in ApiOvf.v (written by tools/gen_props.py). *)
From Verif Require Import Word MField MScalar MGroup MEcmult MEcdsa MDer MApi MEq MMachine MClient MDrbg Mono XField XScalar XGroup XEcmult XEcdsa XDer XApi XMachine XClient Builds BuildsQ WP FieldMul FieldNorm Spec Fp Bits FieldOps FieldCodec FieldStore Denote Wnaf WnafC Curve Group Chain Order Jac JacOps Table Ecmult Lift Gen Key Ctx ApiScalar ApiDer ApiPub ApiGroup Ecdsa ApiEcdsa ApiKeys ApiMachine ApiClient ApiDrbg ApiTotal ApiBuilds NoOvf ApiOvf.

(** Any program, from any state, with any contexts: turning a check off never changes a result, and a debug build panics exactly when one kind of check alone does. *)
Theorem C95_programs : forall gctx vctx D drbg fuel st q, every_outcome (run_calls true gctx vctx D drbg fuel st q) (run_calls false gctx vctx D drbg fuel st q) (fun c => run_calls_x c gctx vctx D drbg fuel st q).
Proof. exact C95_programs_pf. Qed.
Print Assumptions C95_programs.

Example C95_programs_example : exists q, forall gctx vctx D drbg fuel, gen_ctx gctx -> verify_ctx vctx -> (forall s s', stream (drbg s s')) -> (forall b, small (D b)) ->
  run_calls_x (true, true) gctx vctx D drbg fuel [] q = Panic /\ run_calls_x (true, false) gctx vctx D drbg fuel [] q = Panic /\ run_calls_x (false, true) gctx vctx D drbg fuel [] q <> Panic.
Proof. exact C95_programs_example_pf. Qed.

(** Programs of moderate values: overflow checks never make a difference, in builds with debug assertions and in builds without. *)
Theorem C95_overflow_checks : forall gctx vctx D drbg fuel st q, gen_ctx gctx -> verify_ctx vctx -> (forall b, small (D b)) -> (forall s s', stream (drbg s s')) -> Forall call_ok q -> Forall mild st ->
  (forall a o, run_calls_x (a, o) gctx vctx D drbg fuel st q = run_calls a gctx vctx D drbg fuel st q) /\
  (run_calls false gctx vctx D drbg fuel st q = Running \/ exists st', run_calls false gctx vctx D drbg fuel st q = Done st' /\ Forall mild st').
Proof. exact C95_overflow_checks_pf. Qed.
Print Assumptions C95_overflow_checks.

Example C95_overflow_checks_example : Forall mild [CPub odd_key; CSec (scalar_of 0); CMsg (scalar_of (n - 1)); CSig (Sig (scalar_of 5) (scalar_of 0)); CRid 3; CPub AFFINE_INFINITY] /\
  Forall call_ok [Do (PkTweakAdd 0 1); Do (Ecdh 0 1); Do (Verify 2 3 0); Do (PkCombine [0%nat; 5%nat]); SkClear 1; Do (Sign 2 1)] /\ (exists gctx, gen_ctx gctx) /\ (exists vctx, verify_ctx vctx).
Proof. exact C95_overflow_checks_example_pf. Qed.

(** Of any values this is false. *)
Theorem C95_any_values_refuted : exists st q, Forall call_ok q /\ forall gctx vctx D drbg fuel, run_calls_x (false, true) gctx vctx D drbg fuel st q = Panic /\ run_calls_x (true, false) gctx vctx D drbg fuel st q <> Panic.
Proof. exact C95_any_values_refuted_pf. Qed.
Print Assumptions C95_any_values_refuted.

(** The library as it is shipped, from an empty state. *)
Theorem C95_library : forall fuel q, Forall call_ok q -> exists gctx vctx, ecmult_gen_context_new true = Some gctx /\ ecmult_context_new true = Some vctx /\
  (forall a o, run_calls_x (a, o) gctx vctx sha256 (sign_drbg (hmac sha256)) fuel [] q = run_calls a gctx vctx sha256 (sign_drbg (hmac sha256)) fuel [] q) /\ (forall o, run_calls_x (false, o) gctx vctx sha256 (sign_drbg (hmac sha256)) fuel [] q <> Panic).
Proof. exact C95_library_pf. Qed.
Print Assumptions C95_library.

Example C95_library_example : Forall call_ok [Do SkDefault; Do (PkFromSecret 0); SkClear 0; Do (PkFromSecret 0); Do (PkCombine [1%nat; 2%nat]); Do (PkSerialize 3)].
Proof. exact C95_library_example_pf. Qed.

(** Multiplication without debug assertions: any point whose coordinates have magnitude at most 6, on the curve or not, and any reduced scalars. *)
Theorem C95_multiplication : forall o gctx vctx a j s t, gen_ctx gctx -> verify_ctx vctx -> 0 <= s < n -> 0 <= t < n -> am a -> jm j ->
  (exists r, ecmult_x (false, o) vctx j (scalar_of s) (scalar_of t) = Some r /\ ecmult false vctx j (scalar_of s) (scalar_of t) = Some r /\ jm r) /\
  (exists r, ecmult_const_x (false, o) a (scalar_of s) = Some r /\ ecmult_const false a (scalar_of s) = Some r /\ jm r) /\
  (exists r, ecmult_gen_x (false, o) gctx (scalar_of s) = Some r /\ ecmult_gen false gctx (scalar_of s) = Some r /\ jm r).
Proof. exact C95_multiplication_pf. Qed.
Print Assumptions C95_multiplication.

Example C95_multiplication_example : (exists gctx, gen_ctx gctx) /\ (exists vctx, verify_ctx vctx) /\ am odd_key /\ jm (Ja (af_x odd_key) (af_y odd_key) FE1 false) /\ af_is_valid_var true odd_key = Some false /\ 0 <= 0 < n.
Proof. exact C95_multiplication_example_pf. Qed.

(** Without debug assertions these two have no effect on any of the following functions, with overflow checks or without. *)
Theorem C95_bookkeeping : forall o a b k m t m' t',
  f_mul_x (false, o) (retag m t a) (retag m' t' b) = f_mul_x (false, o) a b /\
  f_sqr_x (false, o) (retag m t a) = f_sqr_x (false, o) a /\
  f_inv_x (false, o) (retag m t a) = f_inv_x (false, o) a /\
  f_neg_x (false, o) (retag m t a) k = f_neg_x (false, o) a k /\
  f_normalize_x (false, o) (retag m t a) = f_normalize_x (false, o) a /\
  f_normalize_var_x (false, o) (retag m t a) = f_normalize_var_x (false, o) a /\
  f_normalizes_to_zero_x (false, o) (retag m t a) = f_normalizes_to_zero_x (false, o) a /\
  f_normalizes_to_zero_var_x (false, o) (retag m t a) = f_normalizes_to_zero_var_x (false, o) a /\
  f_is_zero_x (false, o) (retag m t a) = f_is_zero_x (false, o) a /\
  f_is_odd_x (false, o) (retag m t a) = f_is_odd_x (false, o) a /\
  f_cmp_var_x (false, o) (retag m t a) (retag m' t' b) = f_cmp_var_x (false, o) a b /\
  f_b32_x (false, o) (retag m t a) = f_b32_x (false, o) a /\
  f_to_storage_x (false, o) (retag m t a) = f_to_storage_x (false, o) a.
Proof. exact C95_bookkeeping_pf. Qed.
Print Assumptions C95_bookkeeping.

Example C95_bookkeeping_example : f_mul_x (true, false) (retag 9 false FE1) FE1 = None /\ exists r, f_mul_x (false, true) (retag 9 false FE1) FE1 = Some r.
Proof. exact C95_bookkeeping_example_pf. Qed.

(** Comparing is not among them: it negates by the recorded magnitude, so that two elements of the same value compare equal or not depending on it, in a release build. *)
Theorem C95_equality_bookkeeping_refuted : exists d b m, let a := f_new_raw 0 0 0 0 0 0 0 0 0 d in 0 <= d < 2 ^ 32 /\ fv a = fv b /\ f_eq_x (false, false) a b = Some false /\ f_eq_x (false, true) a b = None /\ f_eq_x (false, false) (retag m false a) b = Some true.
Proof. exact C95_equality_bookkeeping_refuted_pf. Qed.
Print Assumptions C95_equality_bookkeeping_refuted.
