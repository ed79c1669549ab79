(** Property theorems proved in ApiLimits.v (written by tools/gen_props.py). *)
From Verif Require Import Word MField WP FieldMul FieldNorm FieldOps ApiArith ApiLimits.

(** Whatever the limbs: an addition or multiplication by an integer whose magnitudes would exceed 32, a negation of an element above the stated magnitude or
    to a magnitude above 32, and a product or square of an element of magnitude above 8 all stop a debug build. *)
Theorem C44_limits : forall f g,
  (32 < f_mag f + f_mag g -> f_add true f g = None) /\ (forall a, 32 < f_mag f * a -> f_mul_int true f a = None) /\
  (forall m, m < f_mag f \/ 31 < m -> f_neg true f m = None) /\ (8 < f_mag f \/ 8 < f_mag g -> f_mul true f g = None) /\ (8 < f_mag f -> f_sqr true f = None).
Proof. exact C44_limits_pf. Qed.
Print Assumptions C44_limits.

Example C44_limits_example : 32 < f_mag (top_field 17) + f_mag (top_field 16) /\ f_add true (top_field 17) (top_field 15) <> None /\ 8 < f_mag (top_field 9) /\ f_sqr true (top_field 8) <> None.
Proof. exact C44_limits_example_pf. Qed.
