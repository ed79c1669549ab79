(** Debug builds refuse every field operation outside the limits on magnitudes. *)
From Verif Require Import Word MField WP FieldMul FieldNorm FieldOps ApiArith.

Lemma verify_mag n0 n1 n2 n3 n4 n5 n6 n7 n8 n9 mag : 32 < mag -> f_verify (Fe n0 n1 n2 n3 n4 n5 n6 n7 n8 n9 mag false) = false.
Proof. intros H. cbn [f_verify]. rewrite (proj2 (Z.leb_gt (2 * mag) 64)) by lia. reflexivity. Qed.
Ltac go := repeat lazymatch goal with
  | |- bind (dassert _ _) _ = None => fail
  | |- bind (Some ?x) ?f = None => change (bind (Some x) f) with (f x); cbv beta
  | |- bind ?o ?f = None => let E := fresh "E" in destruct o eqn:E; [|reflexivity]
  end.
Lemma uchk_val w a c : uchk w true a = Some c -> c = a.
Proof. unfold uchk. destruct ((0 <=? a) && (a <? 2 ^ w)); [|discriminate]. intros H. injection H as <-. reflexivity. Qed.

(** Whatever the limbs: an addition or multiplication by an integer whose magnitudes would exceed 32, a negation of an element above the stated magnitude or
    to a magnitude above 32, and a product or square of an element of magnitude above 8 all stop a debug build. *)
Lemma C44_limits_pf : forall f g,
  (32 < f_mag f + f_mag g -> f_add true f g = None) /\ (forall a, 32 < f_mag f * a -> f_mul_int true f a = None) /\
  (forall m, m < f_mag f \/ 31 < m -> f_neg true f m = None) /\ (8 < f_mag f \/ 8 < f_mag g -> f_mul true f g = None) /\ (8 < f_mag f -> f_sqr true f = None).
Proof.
  intros f g. split; [|split; [|split; [|split]]].
  - destruct f as [a0 a1 a2 a3 a4 a5 a6 a7 a8 a9 ma na], g as [b0 b1 b2 b3 b4 b5 b6 b7 b8 b9 mb nb]. cbn [f_mag]. intros H. unfold f_add. go. apply uchk_val in E9. subst. rewrite verify_mag by lia. reflexivity.
  - destruct f as [a0 a1 a2 a3 a4 a5 a6 a7 a8 a9 ma na]. cbn [f_mag]. intros a H. unfold f_mul_int. go. apply uchk_val in E9. subst. rewrite verify_mag by lia. reflexivity.
  - intros m H. unfold f_neg. destruct (Z.leb_spec (f_mag f) m) as [LE|GT]; [|reflexivity]. change (bind (dassert true true) ?k) with (k tt). cbv beta. destruct (f_verify f); [|reflexivity]. change (bind (dassert true true) ?k) with (k tt). cbv beta.
    destruct f as [a0 a1 a2 a3 a4 a5 a6 a7 a8 a9 ma na]. go. apply uchk_val in E. subst. rewrite verify_mag by lia. reflexivity.
  - intros H. unfold f_mul. destruct (Z.leb_spec (f_mag f) 8) as [L1|G1]; [|reflexivity]. destruct (Z.leb_spec (f_mag g) 8) as [L2|G2]; [lia | reflexivity].
  - intros H. unfold f_sqr. rewrite (proj2 (Z.leb_gt (f_mag f) 8)) by exact H. reflexivity.
Qed.
Lemma C44_limits_example_pf : 32 < f_mag (top_field 17) + f_mag (top_field 16) /\ f_add true (top_field 17) (top_field 15) <> None /\ 8 < f_mag (top_field 9) /\ f_sqr true (top_field 8) <> None.
Proof. split; [vm_compute; reflexivity|]. split; [vm_compute; discriminate|]. split; [vm_compute; reflexivity | vm_compute; discriminate]. Qed.
