(** The integers denoted by scalars.

    [scalar_of v] is the eight-word little-endian representation of [v]; every scalar value with
    words below 2^32 is [scalar_of v] for exactly one [0 <= v < 2^256], and the canonical ones
    (those the API hands out) are [scalar_of v] for [0 <= v < n]. *)
From Verif Require Import Word MScalar WP ScalarAcc ScalarMul Spec Fp Bits ScalarOps ScalarRed ScalarMore ScalarBits.

Definition scalar_of (v : Z) : scalar :=
  Sc (v mod 2 ^ 32) (v / 2 ^ 32 mod 2 ^ 32) (v / 2 ^ 64 mod 2 ^ 32) (v / 2 ^ 96 mod 2 ^ 32)
     (v / 2 ^ 128 mod 2 ^ 32) (v / 2 ^ 160 mod 2 ^ 32) (v / 2 ^ 192 mod 2 ^ 32) (v / 2 ^ 224 mod 2 ^ 32).

Lemma scalar_of_u v : s_u (scalar_of v).
Proof.
  unfold scalar_of. cbn [s_u]. unfold u32x8, u32.
  change (2 ^ 32) with 4294967296.
  assert (H : forall x, 0 <= x mod 4294967296 <= 4294967295) by (intros x; pose proof (Z.mod_pos_bound x 4294967296 ltac:(lia)); lia).
  auto 10.
Qed.
Lemma scalar_of_sv v : 0 <= v < 2 ^ 256 -> sv (scalar_of v) = v.
Proof.
  intros H. unfold scalar_of. cbn [sv]. unfold val8.
  assert (S : forall a b x, 0 < a -> x / a = x / a mod b + b * (x / (a * b))  \/ b <= 0).
  { intros a b x A. destruct (Z_le_gt_dec b 0); [right; assumption | left]. rewrite <- Z.div_div by lia. rewrite Z.add_comm. apply Z.div_mod. lia. }
  assert (E0 : v = v mod 2 ^ 32 + 2 ^ 32 * (v / 2 ^ 32)) by (rewrite Z.add_comm; apply Z.div_mod; discriminate).
  destruct (S (2 ^ 32) (2 ^ 32) v eq_refl) as [E1|X]; [|exfalso; apply X; reflexivity].
  destruct (S (2 ^ 64) (2 ^ 32) v eq_refl) as [E2|X]; [|exfalso; apply X; reflexivity].
  destruct (S (2 ^ 96) (2 ^ 32) v eq_refl) as [E3|X]; [|exfalso; apply X; reflexivity].
  destruct (S (2 ^ 128) (2 ^ 32) v eq_refl) as [E4|X]; [|exfalso; apply X; reflexivity].
  destruct (S (2 ^ 160) (2 ^ 32) v eq_refl) as [E5|X]; [|exfalso; apply X; reflexivity].
  destruct (S (2 ^ 192) (2 ^ 32) v eq_refl) as [E6|X]; [|exfalso; apply X; reflexivity].
  destruct (S (2 ^ 224) (2 ^ 32) v eq_refl) as [E7|X]; [|exfalso; apply X; reflexivity].
  assert (E8 : v / (2 ^ 224 * 2 ^ 32) = 0) by (apply Z.div_small; change (2 ^ 224 * 2 ^ 32) with (2 ^ 256); exact H).
  rewrite E8 in E7. clear E8 S H.
  change (2 ^ 32 * 2 ^ 32) with (2 ^ 64) in E1. change (2 ^ 64 * 2 ^ 32) with (2 ^ 96) in E2. change (2 ^ 96 * 2 ^ 32) with (2 ^ 128) in E3.
  change (2 ^ 128 * 2 ^ 32) with (2 ^ 160) in E4. change (2 ^ 160 * 2 ^ 32) with (2 ^ 192) in E5. change (2 ^ 192 * 2 ^ 32) with (2 ^ 224) in E6.
  set (r0 := v mod 2 ^ 32) in *. set (r1 := v / 2 ^ 32 mod 2 ^ 32) in *. set (r2 := v / 2 ^ 64 mod 2 ^ 32) in *. set (r3 := v / 2 ^ 96 mod 2 ^ 32) in *.
  set (r4 := v / 2 ^ 128 mod 2 ^ 32) in *. set (r5 := v / 2 ^ 160 mod 2 ^ 32) in *. set (r6 := v / 2 ^ 192 mod 2 ^ 32) in *. set (r7 := v / 2 ^ 224 mod 2 ^ 32) in *.
  clearbody r0 r1 r2 r3 r4 r5 r6 r7.
  set (q1 := v / 2 ^ 32) in *. set (q2 := v / 2 ^ 64) in *. set (q3 := v / 2 ^ 96) in *. set (q4 := v / 2 ^ 128) in *.
  set (q5 := v / 2 ^ 160) in *. set (q6 := v / 2 ^ 192) in *. set (q7 := v / 2 ^ 224) in *. clearbody q1 q2 q3 q4 q5 q6 q7.
  p2. lia.
Qed.
Lemma scalar_of_id s : s_u s -> s = scalar_of (sv s).
Proof. intros U. apply sv_inj; [exact U | apply scalar_of_u | rewrite scalar_of_sv; [reflexivity | apply sv_range, U]]. Qed.
Lemma scan_of s : scan s -> s = scalar_of (sv s). Proof. intros [U _]. apply scalar_of_id, U. Qed.
Lemma n_lt : n < 2 ^ 256. Proof. apply n_lt_2_256. Qed.
Lemma scalar_of_val v : 0 <= v < n -> sv (scalar_of v) = v.
Proof. intros. pose proof n_lt. apply scalar_of_sv. lia. Qed.
Lemma scalar_of_scan v : 0 <= v < n -> scan (scalar_of v).
Proof. intros. split; [apply scalar_of_u | rewrite scalar_of_val; lia]. Qed.
Lemma scalar_of_inj a b : 0 <= a < 2 ^ 256 -> 0 <= b < 2 ^ 256 -> scalar_of a = scalar_of b -> a = b.
Proof. intros A B E. rewrite <- (scalar_of_sv a A), <- (scalar_of_sv b B), E. reflexivity. Qed.
Lemma wp_scalar (o : option scalar) v : wp o (fun r => scan r /\ sv r = v) -> o = Some (scalar_of v).
Proof. intros H. apply wp_inv in H. destruct H as (a & -> & S & <-). rewrite <- scan_of by exact S. reflexivity. Qed.
Lemma modn_range a : 0 <= a mod n < n. Proof. apply Z.mod_pos_bound, n_pos. Qed.

(** the scalar operations as equations *)
Section B.
Variable dbg : bool.
Lemma s_add_eq a b : 0 <= a < n -> 0 <= b < n -> s_add dbg (scalar_of a) (scalar_of b) = Some (scalar_of ((a + b) mod n)).
Proof.
  intros A B. apply wp_scalar. pose proof (s_add_ok dbg _ _ (scalar_of_scan a A) (scalar_of_scan b B)) as H.
  rewrite !scalar_of_val in H by assumption. exact H.
Qed.
Lemma s_mul_eq a b : 0 <= a < 2 ^ 256 -> 0 <= b < 2 ^ 256 -> s_mul dbg (scalar_of a) (scalar_of b) = Some (scalar_of ((a * b) mod n)).
Proof.
  intros A B. apply wp_scalar. pose proof (s_mul_ok dbg _ _ (scalar_of_u a) (scalar_of_u b)) as H.
  rewrite !scalar_of_sv in H by assumption. exact H.
Qed.
Lemma s_sqr_eq a : 0 <= a < 2 ^ 256 -> s_sqr dbg (scalar_of a) = Some (scalar_of ((a * a) mod n)).
Proof.
  intros A. apply wp_scalar. pose proof (s_sqr_ok dbg _ (scalar_of_u a)) as H.
  rewrite !scalar_of_sv in H by assumption. exact H.
Qed.
Lemma s_neg_eq a : 0 <= a < n -> s_neg dbg (scalar_of a) = Some (scalar_of ((- a) mod n)).
Proof.
  intros A. apply wp_scalar. pose proof (s_neg_ok dbg _ (scalar_of_scan a A)) as H.
  rewrite scalar_of_val in H by assumption. exact H.
Qed.
Lemma s_cond_neg_eq a f : 0 <= a < n -> s_cond_neg dbg (scalar_of a) f = Some (scalar_of (if f then (- a) mod n else a)).
Proof.
  intros A. apply wp_scalar. pose proof (s_cond_neg_ok dbg _ f (scalar_of_scan a A)) as H.
  rewrite scalar_of_val in H by assumption. exact H.
Qed.
Lemma s_inv_eq a : 0 <= a < 2 ^ 256 -> s_inv dbg (scalar_of a) = Some (scalar_of (inv_mod n a)).
Proof.
  intros A. apply wp_scalar. pose proof (s_inv_ok dbg _ (scalar_of_u a)) as H.
  rewrite scalar_of_sv in H by assumption. exact H.
Qed.
Lemma s_set_b32_eq l : length l = 32%nat -> bytes l -> s_set_b32 dbg l = Some (scalar_of (be_val l mod n), n <=? be_val l).
Proof.
  intros L B. pose proof (s_set_b32_ok dbg l L B) as H. apply wp_inv in H. destruct H as ([s o] & -> & S & V & ->).
  rewrite <- V, <- scan_of by exact S. reflexivity.
Qed.
End B.
Lemma s_b32_eq a : 0 <= a < 2 ^ 256 -> s_b32 (scalar_of a) = be_bytes 32 a.
Proof. intros A. rewrite s_b32_ok by apply scalar_of_u. rewrite scalar_of_sv by exact A. reflexivity. Qed.
Lemma s_is_zero_eq a : 0 <= a < 2 ^ 256 -> s_is_zero (scalar_of a) = (a =? 0).
Proof. intros A. rewrite s_is_zero_ok by apply scalar_of_u. rewrite scalar_of_sv by exact A. reflexivity. Qed.
Lemma s_is_high_eq a : 0 <= a < 2 ^ 256 -> s_is_high (scalar_of a) = ((n - 1) / 2 <=? a).
Proof. intros A. rewrite s_is_high_ok by apply scalar_of_u. rewrite scalar_of_sv by exact A. reflexivity. Qed.
Lemma scalar_of_0 : scalar_of 0 = s_default. Proof. reflexivity. Qed.
Lemma scalar_of_1 : scalar_of 1 = s_from_int 1. Proof. reflexivity. Qed.
