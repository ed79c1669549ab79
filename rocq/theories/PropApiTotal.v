(** Property theorems proved in ApiTotal.v (written by tools/gen_props.py). *)
From Verif Require Import Word MField MScalar MGroup MEcmult MEcdsa MDer MApi MEq MMachine MClient MDrbg WP FieldNorm ScalarMul ScalarOps ScalarBits ScalarMore Spec Fp Bits FieldOps Denote Wnaf WnafC Curve Group Chain Order Jac JacOps Lift Key Ecmult Heap Ctx Unred ApiScalar ApiDer ApiGrammar ApiPub ApiGroup ApiEcdsa ApiKeys ApiMore ApiUnred ApiEdge ApiWire ApiDrbg ApiClear ApiMachine ApiClient Total ApiTotal.

(** No program panics in a release build, whatever values it starts from. *)
Theorem C86_release_total : forall gctx vctx D drbg fuel p st, sized_g gctx -> sized_v vctx -> (forall b, small (D b)) -> (forall s s', stream (drbg s s')) -> Forall call_ok p -> Forall held st ->
  run_calls false gctx vctx D drbg fuel st p = Running \/ exists st', run_calls false gctx vctx D drbg fuel st p = Done st' /\ Forall held st'.
Proof. exact C86_release_total_pf. Qed.
Print Assumptions C86_release_total.

Example C86_release_total_example : Forall held [CPub (Af (Fe 1 2 3 4 5 6 7 8 9 4294967295 77 true) (Fe 0 0 0 0 0 0 0 0 0 0 0 false) true); CSec (scalar_of (2 ^ 256 - 1)); CMsg (scalar_of n); CSig (Sig (scalar_of p) (scalar_of (n + 1)))] /\
  Forall call_ok [Do (PkTweakAdd 0 1); Do (Ecdh 0 1); Do (Verify 2 3 0); Do (PkCombine [0%nat; 0%nat]); SkClear 1; Do (Sign 2 1)] /\ (exists gctx, gen_ctx gctx /\ sized_g gctx) /\ (exists vctx, verify_ctx vctx /\ sized_v vctx).
Proof. exact C86_release_total_example_pf. Qed.

(** In a debug build some do. *)
Theorem C86_debug_total_refuted : exists q, Forall call_ok q /\ forall gctx vctx D drbg fuel, gen_ctx gctx -> run_calls true gctx vctx D drbg fuel [] q = Panic.
Proof. exact C86_debug_total_refuted_pf. Qed.
Print Assumptions C86_debug_total_refuted.

(** The library as it is shipped. *)
Theorem C86_library : forall fuel p, Forall call_ok p -> exists gctx vctx, ecmult_gen_context_new false = Some gctx /\ ecmult_context_new false = Some vctx /\ run_calls false gctx vctx sha256 (sign_drbg (hmac sha256)) fuel [] p <> Panic.
Proof. exact C86_library_pf. Qed.
Print Assumptions C86_library.

Example C86_library_example : Forall call_ok [Do SkDefault; Do (PkFromSecret 0); SkClear 0; Do (PkFromSecret 0); Do (PkCombine [1%nat; 2%nat]); Do (PkSerialize 3)].
Proof. exact C86_library_example_pf. Qed.

(** Multiplication: any point, also off the curve, with any limbs; any scalars of 256 bits; tables of the right size with any entries. *)
Theorem C86_multiplication : forall gctx vctx a j s t, sized_g gctx -> sized_v vctx -> s_u s -> s_u t ->
  (exists r, ecmult false vctx j s t = Some r) /\ (exists r, ecmult_const false a s = Some r) /\ (exists r, ecmult_gen false gctx s = Some r).
Proof. exact C86_multiplication_pf. Qed.
Print Assumptions C86_multiplication.

Example C86_multiplication_example : sized_v (Ctx (repeat as_default (Z.to_nat 16384))) /\ sized_g (GCtx (repeat [] 64) (scalar_of (2 ^ 256 - 1)) j_set_infinity) /\ s_u (scalar_of (2 ^ 256 - 1)).
Proof. exact C86_multiplication_example_pf. Qed.

(** Field elements: any limbs, magnitudes and flags. *)
Theorem C86_field : forall a b m, (exists r, f_add false a b = Some r) /\ (exists r, f_mul false a b = Some r) /\ (exists r, f_sqr false a = Some r) /\ (exists r, f_neg false a m = Some r) /\ (exists r, f_mul_int false a m = Some r) /\
  (exists r, f_inv false a = Some r) /\ (exists r, f_sqrt false a = Some r) /\ (exists r, f_is_quad_var false a = Some r) /\ (exists r, f_normalize false a = Some r) /\ (exists r, f_normalize_weak false a = Some r) /\ (exists r, f_normalize_var false a = Some r) /\
  (exists r, f_normalizes_to_zero false a = Some r) /\ (exists r, f_normalizes_to_zero_var false a = Some r) /\ (exists r, f_set_int false m = Some r) /\ (exists r, f_is_zero false a = Some r) /\ (exists r, f_is_odd false a = Some r) /\
  (exists r, f_cmp_var false a b = Some r) /\ (exists r, f_eq false a b = Some r) /\ (exists r, f_b32 false a = Some r) /\ (exists r, f_to_storage false a = Some r).
Proof. exact C86_field_pf. Qed.
Print Assumptions C86_field.

Example C86_field_example : f_mul true (Fe 1 0 0 0 0 0 0 0 0 0 9 false) (Fe 1 0 0 0 0 0 0 0 0 0 1 true) = None.
Proof. exact C86_field_example_pf. Qed.

(** Points: any coordinates and flags. *)
Theorem C86_group : forall (a b : jac) (g h : affine) (f z : field) (o : bool) (rzr : option field),
  (exists r, j_add_var false a b rzr = Some r) /\ (exists r, j_add_ge_var false a g rzr = Some r) /\ (exists r, j_add_ge false a g = Some r) /\ (exists r, j_add_zinv_var false a g z = Some r) /\ (exists r, j_double_var false a rzr = Some r) /\ (exists r, j_neg false a = Some r) /\
  (exists r, j_rescale false a f = Some r) /\ (exists r, j_eq_x_var false a f = Some r) /\ (exists r, j_has_quad_y_var false a = Some r) /\ (exists r, j_set_ge false g = Some r) /\ (exists r, af_set_gej false a = Some r) /\ (exists r, af_set_gej_var false g a = Some r) /\
  (exists r, af_set_xo_var false f o = Some r) /\ (exists r, af_set_xquad false f = Some r) /\ (exists r, af_is_valid_var false g = Some r) /\ (exists r, af_neg false g = Some r) /\ (exists r, af_eq false g h = Some r) /\ (exists r, af_to_storage false g = Some r).
Proof. exact C86_group_pf. Qed.
Print Assumptions C86_group.

Example C86_group_example : j_add_ge true j_set_infinity (Af f_default f_default true) = None /\ exists r, j_add_ge false j_set_infinity (Af f_default f_default true) = Some r.
Proof. exact C86_group_example_pf. Qed.
