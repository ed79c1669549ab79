(** Scalar operations of the model are arithmetic modulo the group order. *)
From Coq Require Import Znumtheory.
From Verif Require Import Word MScalar WP ScalarAcc ScalarMul Spec Bits.

Lemma NC_n : 2 ^ 256 - n = NC. Proof. reflexivity. Qed.
(** a reduced scalar: eight 32-bit words, value below the order *)
Definition scan (s : scalar) : Prop := s_u s /\ sv s < n.

Lemma sv_range s : s_u s -> 0 <= sv s < 2 ^ 256.
Proof.
  destruct s as [d0 d1 d2 d3 d4 d5 d6 d7]. cbn [s_u sv]. unfold u32x8, u32, val8. intros. 
  repeat match goal with |- context [2 ^ ?k] => let c := eval vm_compute in (2 ^ k) in change (2 ^ k) with c end. lia.
Qed.
Lemma scan_range s : scan s -> 0 <= sv s < n.
Proof. intros [U L]. pose proof (sv_range s U). lia. Qed.
Lemma sv_inj a b : s_u a -> s_u b -> sv a = sv b -> a = b.
Proof.
  destruct a as [a0 a1 a2 a3 a4 a5 a6 a7], b as [b0 b1 b2 b3 b4 b5 b6 b7].
  cbn [s_u sv]. unfold u32x8, u32, val8.
  repeat match goal with |- context [2 ^ ?k] => let c := eval vm_compute in (2 ^ k) in change (2 ^ k) with c end.
  intros A B E.
  assert (a0 = b0) by lia. assert (a1 = b1) by lia. assert (a2 = b2) by lia. assert (a3 = b3) by lia.
  assert (a4 = b4) by lia. assert (a5 = b5) by lia. assert (a6 = b6) by lia. assert (a7 = b7) by lia. congruence.
Qed.
Lemma s_eqb_eq a b : s_eqb a b = true <-> a = b.
Proof.
  destruct a as [a0 a1 a2 a3 a4 a5 a6 a7], b as [b0 b1 b2 b3 b4 b5 b6 b7]. cbn [s_eqb].
  rewrite !andb_true_iff, !Z.eqb_eq. split; [intros; f_equal; tauto | intros H; injection H; tauto].
Qed.

Ltac p2 := repeat match goal with |- context [2 ^ ?k] => let c := eval vm_compute in (2 ^ k) in change (2 ^ k) with c end.
Ltac p2h := repeat match goal with H : context [2 ^ ?k] |- _ => let c := eval vm_compute in (2 ^ k) in change (2 ^ k) with c in H end.
Ltac cases_ltb := repeat (match goal with
  | |- context [?x <? ?y] => destruct (Z.ltb_spec x y)
  | |- context [?x <=? ?y] => destruct (Z.leb_spec x y)
  end; cbn [orb andb negb]).

(** lexicographic comparison with a constant, word by word *)
Lemma s_check_overflow_ok s : s_u s -> s_check_overflow s = (n <=? sv s).
Proof.
  destruct s as [d0 d1 d2 d3 d4 d5 d6 d7]. cbn [s_u sv]. unfold u32x8, u32. intros (?&?&?&?&?&?&?&?).
  unfold s_check_overflow, N_0, N_1, N_2, N_3, N_4, N_5, N_6, N_7. cbn [orb].
  symmetry. unfold n, val8. p2.
  destruct (Z.ltb_spec d7 4294967295); cbn [orb andb negb]; [rewrite ?andb_false_r; cbn; apply Z.leb_gt; lia|].
  destruct (Z.ltb_spec d6 4294967295); cbn [orb andb negb]; [rewrite ?andb_false_r; cbn; apply Z.leb_gt; lia|].
  destruct (Z.ltb_spec d5 4294967295); cbn [orb andb negb]; [rewrite ?andb_false_r; cbn; apply Z.leb_gt; lia|].
  destruct (Z.ltb_spec d4 4294967294); cbn [orb andb negb]; [rewrite ?andb_false_r; cbn; apply Z.leb_gt; lia|].
  destruct (Z.ltb_spec 4294967294 d4); cbn [orb andb negb]; [rewrite ?andb_false_r; cbn; apply Z.leb_le; lia|].
  destruct (Z.ltb_spec d3 3132021990); cbn [orb andb negb]; [rewrite ?andb_false_r; cbn; apply Z.leb_gt; lia|].
  destruct (Z.ltb_spec 3132021990 d3); cbn [orb andb negb]; [rewrite ?andb_false_r; cbn; apply Z.leb_le; lia|].
  destruct (Z.ltb_spec d2 2940772411); cbn [orb andb negb]; [rewrite ?andb_false_r; cbn; apply Z.leb_gt; lia|].
  destruct (Z.ltb_spec 2940772411 d2); cbn [orb andb negb]; [rewrite ?andb_false_r; cbn; apply Z.leb_le; lia|].
  destruct (Z.ltb_spec d1 3218235020); cbn [orb andb negb]; [rewrite ?andb_false_r; cbn; apply Z.leb_gt; lia|].
  destruct (Z.ltb_spec 3218235020 d1); cbn [orb andb negb]; [rewrite ?andb_false_r; cbn; apply Z.leb_le; lia|].
  destruct (Z.leb_spec 3493216577 d0); cbn [orb andb negb]; [apply Z.leb_le; lia | apply Z.leb_gt; lia].
Qed.
(** the threshold of [is_high] is (n-1)/2 itself, which counts as high *)
Lemma s_is_high_ok s : s_u s -> s_is_high s = ((n - 1) / 2 <=? sv s).
Proof.
  destruct s as [d0 d1 d2 d3 d4 d5 d6 d7]. cbn [s_u sv]. unfold u32x8, u32. intros (?&?&?&?&?&?&?&?).
  unfold s_is_high, N_H_0, N_H_1, N_H_2, N_H_3, N_H_4, N_H_5, N_H_6, N_H_7. cbn [orb].
  symmetry. change ((n - 1) / 2) with 57896044618658097711785492504343953926418782139537452191302581570759080747168. unfold val8. p2.
  destruct (Z.ltb_spec d7 2147483647); cbn [orb andb negb]; [rewrite ?andb_false_r; cbn; apply Z.leb_gt; lia|].
  destruct (Z.ltb_spec 2147483647 d7); cbn [orb andb negb]; [rewrite ?andb_false_r; cbn; apply Z.leb_le; lia|].
  destruct (Z.ltb_spec d6 4294967295); cbn [orb andb negb]; [rewrite ?andb_false_r; cbn; apply Z.leb_gt; lia|].
  destruct (Z.ltb_spec d5 4294967295); cbn [orb andb negb]; [rewrite ?andb_false_r; cbn; apply Z.leb_gt; lia|].
  destruct (Z.ltb_spec d4 4294967295); cbn [orb andb negb]; [rewrite ?andb_false_r; cbn; apply Z.leb_gt; lia|].
  destruct (Z.ltb_spec d3 1566010995); cbn [orb andb negb]; [rewrite ?andb_false_r; cbn; apply Z.leb_gt; lia|].
  destruct (Z.ltb_spec 1566010995 d3); cbn [orb andb negb]; [rewrite ?andb_false_r; cbn; apply Z.leb_le; lia|].
  destruct (Z.ltb_spec d2 1470386205); cbn [orb andb negb]; [rewrite ?andb_false_r; cbn; apply Z.leb_gt; lia|].
  destruct (Z.ltb_spec 1470386205 d2); cbn [orb andb negb]; [rewrite ?andb_false_r; cbn; apply Z.leb_le; lia|].
  destruct (Z.ltb_spec d1 3756601158); cbn [orb andb negb]; [rewrite ?andb_false_r; cbn; apply Z.leb_gt; lia|].
  destruct (Z.ltb_spec 3756601158 d1); cbn [orb andb negb]; [rewrite ?andb_false_r; cbn; apply Z.leb_le; lia|].
  destruct (Z.leb_spec 1746608288 d0); cbn [orb andb negb]; [apply Z.leb_le; lia | apply Z.leb_gt; lia].
Qed.
Lemma s_is_zero_ok s : s_u s -> s_is_zero s = (sv s =? 0).
Proof.
  destruct s as [d0 d1 d2 d3 d4 d5 d6 d7]. cbn [s_u sv s_is_zero]. unfold u32x8, u32, val8. intros U.
  apply eq_true_iff_eq. rewrite !Z.eqb_eq, !Z.lor_eq_0_iff. p2. lia.
Qed.
Lemma s_is_one_ok s : s_u s -> s_is_one s = (sv s =? 1).
Proof.
  destruct s as [d0 d1 d2 d3 d4 d5 d6 d7]. cbn [s_u sv s_is_one]. unfold u32x8, u32, val8. intros U.
  apply eq_true_iff_eq. rewrite !Z.eqb_eq, !Z.lor_eq_0_iff, Z.lxor_eq_0_iff. p2. lia.
Qed.
Lemma s_is_even_ok s : s_u s -> s_is_even s = Z.even (sv s).
Proof.
  destruct s as [d0 d1 d2 d3 d4 d5 d6 d7]. cbn [s_u sv s_is_even]. unfold u32x8, u32, val8. intros U.
  replace (d0 + d1 * 2 ^ 32 + d2 * 2 ^ 64 + d3 * 2 ^ 96 + d4 * 2 ^ 128 + d5 * 2 ^ 160 + d6 * 2 ^ 192 + d7 * 2 ^ 224)
    with (d0 + 2 * (d1 * 2 ^ 31 + d2 * 2 ^ 63 + d3 * 2 ^ 95 + d4 * 2 ^ 127 + d5 * 2 ^ 159 + d6 * 2 ^ 191 + d7 * 2 ^ 223)) by ring.
  rewrite Z.even_add_mul_2. rewrite (land_mod d0 1 1) by (reflexivity || lia). change (2 ^ 1) with 2.
  rewrite Zmod_even. destruct (Z.even d0); reflexivity.
Qed.

Lemma bind_dassert_true {B} dbg (f : unit -> option B) : bind (dassert dbg true) f = f tt.
Proof. destruct dbg; reflexivity. Qed.

Section B.
Variable dbg : bool.

Ltac ncs := change N_C_0 with 801750719 in *; change N_C_1 with 1076732275 in *;
  change N_C_2 with 1354194884 in *; change N_C_3 with 1162945305 in *; change N_C_4 with 1 in *.

Lemma s_reduce_ok s o : s_u s -> 0 <= o <= 1 ->
  wp (s_reduce dbg s o) (fun r => s_u r /\ sv r = (sv s + o * NC) mod 2 ^ 256).
Proof.
  destruct s as [d0 d1 d2 d3 d4 d5 d6 d7]. cbn [s_u sv]. unfold u32x8, u32. intros (?&?&?&?&?&?&?&?) Ho.
  unfold s_reduce. unfold_words. ncs.
  repeat wauto1.
  apply wp_some. cbn [s_u sv].
  lazymatch goal with |- u32x8 ?e0 ?e1 ?e2 ?e3 ?e4 ?e5 ?e6 ?e7 /\ _ =>
    assert (U : u32x8 e0 e1 e2 e3 e4 e5 e6 e7) by (unfold u32x8, u32; repeat split; lia);
    assert (R : 0 <= val8 e0 e1 e2 e3 e4 e5 e6 e7 < 2 ^ 256) by (apply (sv_range (Sc e0 e1 e2 e3 e4 e5 e6 e7)), U);
    lazymatch goal with E : e7 = ?l |- _ =>
      lazymatch goal with E' : l = _ - _ * ?h |- _ => split; [exact U | apply Zmod_unique with h; [exact R|]] end
    end
  end.
  clear R U. unfold val8, NC. p2. subst. lia.
Qed.
End B.
