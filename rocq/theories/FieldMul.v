(** Correctness of [Field::mul_inner] and [Field::sqr_inner]. *)
From Verif Require Import Word WP MField.

Definition fp : Z := 2 ^ 256 - 2 ^ 32 - 977.
Definition val10 (n0 n1 n2 n3 n4 n5 n6 n7 n8 n9 : Z) : Z :=
  n0 + n1 * 2 ^ 26 + n2 * 2 ^ 52 + n3 * 2 ^ 78 + n4 * 2 ^ 104 + n5 * 2 ^ 130 + n6 * 2 ^ 156
  + n7 * 2 ^ 182 + n8 * 2 ^ 208 + n9 * 2 ^ 234.
Definition fv (f : field) : Z :=
  match f with Fe n0 n1 n2 n3 n4 n5 n6 n7 n8 n9 _ _ => val10 n0 n1 n2 n3 n4 n5 n6 n7 n8 n9 end.

(** limbs small enough to be multiplied *)
Definition mulable (f : field) : Prop :=
  match f with Fe n0 n1 n2 n3 n4 n5 n6 n7 n8 n9 _ _ =>
    0 <= n0 <= 1073741823 /\ 0 <= n1 <= 1073741823 /\ 0 <= n2 <= 1073741823 /\
    0 <= n3 <= 1073741823 /\ 0 <= n4 <= 1073741823 /\ 0 <= n5 <= 1073741823 /\
    0 <= n6 <= 1073741823 /\ 0 <= n7 <= 1073741823 /\ 0 <= n8 <= 1073741823 /\
    0 <= n9 <= 67108863 end.


(** limbs of a product: magnitude 1 *)
Definition mag1 (f : field) : Prop :=
  match f with Fe n0 n1 n2 n3 n4 n5 n6 n7 n8 n9 m nrm =>
    0 <= n0 <= 67108863 /\ 0 <= n1 <= 67108863 /\ 0 <= n2 <= 68157440 /\
    0 <= n3 <= 67108863 /\ 0 <= n4 <= 67108863 /\ 0 <= n5 <= 67108863 /\
    0 <= n6 <= 67108863 /\ 0 <= n7 <= 67108863 /\ 0 <= n8 <= 67108863 /\
    0 <= n9 <= 4194303 /\ m = 1 /\ nrm = false end.

Ltac clear_bounds := repeat match goal with H : 0 <= _ <= _ |- _ => clear H end.

Lemma f_mul_inner_ok dbg a b : mulable a -> mulable b ->
  wp (f_mul_inner dbg a b) (fun r => mag1 r /\ exists k, fv r = fv a * fv b - k * fp).
Proof.
  destruct a as [a0 a1 a2 a3 a4 a5 a6 a7 a8 a9 ma na], b as [b0 b1 b2 b3 b4 b5 b6 b7 b8 b9 mb nb].
  unfold mulable; intros (?&?&?&?&?&?&?&?&?&?) (?&?&?&?&?&?&?&?&?&?).
  unfold f_mul_inner; unfold_words.
  change (Z.shiftr 67108863 4) with 4194303.
  change (Z.shiftr 15632 4) with 977.
  change (Z.shiftr 1024 4) with 64.
  change (Z.shiftl 1024 4 mod 2 ^ 64) with 16384.
  repeat wauto1.
  apply wp_some; split; [unfold mag1; repeat (split; [assumption|]); split; reflexivity |].
  exists (16 * val10 x4 x14 x24 x34 x44 x54 x64 x74 x84 x85 + x103).
  clear_bounds; unfold fv, val10, fp.
  subst. ring.
Qed.

Lemma f_sqr_inner_ok dbg a : mulable a ->
  wp (f_sqr_inner dbg a) (fun r => mag1 r /\ exists k, fv r = fv a * fv a - k * fp).
Proof.
  destruct a as [a0 a1 a2 a3 a4 a5 a6 a7 a8 a9 ma na].
  unfold mulable; intros (?&?&?&?&?&?&?&?&?&?).
  unfold f_sqr_inner; unfold_words.
  change (Z.shiftr 67108863 4) with 4194303.
  change (Z.shiftr 15632 4) with 977.
  change (Z.shiftr 1024 4) with 64.
  change (Z.shiftl 1024 4 mod 2 ^ 64) with 16384.
  repeat wauto1.
  apply wp_some; split; [unfold mag1; repeat (split; [assumption|]); split; reflexivity |].
  exists (16 * val10 x13 x28 x42 x57 x71 x86 x100 x115 x129 x130 + x148).
  clear_bounds; unfold fv, val10, fp.
  subst. ring.
Qed.
