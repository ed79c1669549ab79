(** Bit packing: masks, shifts and disjoint unions as integer arithmetic; big-endian bytes. *)
From Verif Require Import Word WP Spec.

Lemma land_lor_disjoint a b k : 0 <= k -> 0 <= a < 2 ^ k -> Z.land a (b * 2 ^ k) = 0.
Proof.
  intros Hk Ha. apply Z.bits_inj'. intros i Hi. rewrite Z.land_spec, Z.bits_0.
  destruct (Z.lt_ge_cases i k) as [L|L].
  - rewrite Z.mul_pow2_bits_low by lia. apply andb_false_r.
  - assert (Z.testbit a i = false) as ->; [|reflexivity].
    destruct (Z.eq_dec a 0) as [->|N]; [apply Z.bits_0|].
    apply Z.bits_above_log2; [lia|]. apply Z.log2_lt_pow2; [lia|].
    apply Z.lt_le_trans with (2 ^ k); [lia | apply Z.pow_le_mono_r; lia].
Qed.
Lemma lor_add a b k : 0 <= k -> 0 <= a < 2 ^ k -> Z.lor a (b * 2 ^ k) = a + b * 2 ^ k.
Proof.
  intros Hk Ha. pose proof (land_lor_disjoint a b k Hk Ha) as D.
  rewrite (Z.add_nocarry_lxor _ _ D). symmetry. apply Z.lxor_lor. exact D.
Qed.
Lemma lor_shl32 a b k : 0 <= a < 2 ^ k -> 0 <= k -> 0 <= b -> b * 2 ^ k < 2 ^ 32 ->
  Z.lor a (shl32 b k) = a + b * 2 ^ k.
Proof.
  intros Ha Hk Hb B. unfold shl32. rewrite Z.shiftl_mul_pow2 by lia.
  rewrite Z.mod_small; [apply lor_add; assumption|]. split; [apply Z.mul_nonneg_nonneg; lia | exact B].
Qed.
Lemma land_mod x m k : 0 <= k -> m = 2 ^ k - 1 -> Z.land x m = x mod 2 ^ k.
Proof. intros Hk ->. rewrite <- Z.land_ones by exact Hk. rewrite Z.ones_equiv, Z.sub_1_r. reflexivity. Qed.

Lemma be_val_app l1 l2 : be_val (l1 ++ l2) = be_val l1 * 256 ^ Z.of_nat (length l2) + be_val l2.
Proof.
  induction l1 as [|b t IH]; cbn [app be_val]; [lia|].
  rewrite IH, app_length, Nat2Z.inj_add, Z.pow_add_r by lia. ring.
Qed.
Lemma be_val_range l : bytes l -> 0 <= be_val l < 256 ^ Z.of_nat (length l).
Proof.
  induction l as [|b t IH]; intros H.
  - cbn. lia.
  - inversion_clear H as [|? ? Hb Ht]. specialize (IH Ht).
    cbn [be_val length]. rewrite Nat2Z.inj_succ, Z.pow_succ_r by lia. nia.
Qed.
Lemma be_bytes_length k v : length (be_bytes k v) = k.
Proof. induction k; cbn [be_bytes length]; congruence. Qed.
Lemma be_bytes_bytes k v : bytes (be_bytes k v).
Proof.
  induction k; cbn [be_bytes]; constructor; auto. apply Z.mod_pos_bound. lia.
Qed.
Lemma be_val_be_bytes k v : be_val (be_bytes k v) = v mod 256 ^ Z.of_nat k.
Proof.
  induction k as [|k IH].
  - cbn [be_bytes be_val]. change (256 ^ Z.of_nat 0) with 1. rewrite Z.mod_1_r. reflexivity.
  - cbn [be_bytes be_val]. rewrite be_bytes_length, IH, Nat2Z.inj_succ, Z.pow_succ_r by lia.
    assert (0 < 256 ^ Z.of_nat k) by (apply Z.pow_pos_nonneg; lia).
    rewrite (Z.mul_comm 256), Z.rem_mul_r by lia. ring.
Qed.
Lemma be_val_bytes_id k v : 0 <= v < 256 ^ Z.of_nat k -> be_val (be_bytes k v) = v.
Proof. intros H. rewrite be_val_be_bytes. apply Z.mod_small. exact H. Qed.
Lemma be_val_inj l1 : forall l2, length l1 = length l2 -> bytes l1 -> bytes l2 -> be_val l1 = be_val l2 -> l1 = l2.
Proof.
  induction l1 as [|a t IH]; intros [|b u]; cbn [length]; intros L H1 H2 E; try discriminate; [reflexivity|].
  inversion_clear H1 as [|? ? Ha Ht]; inversion_clear H2 as [|? ? Hb Hu].
  injection L as L. cbn [be_val] in E. rewrite L in E.
  pose proof (be_val_range t Ht). pose proof (be_val_range u Hu). rewrite L in *.
  assert (a = b) as -> by nia. f_equal. apply IH; auto. lia.
Qed.
Lemma be_bytes_be_val l : bytes l -> be_bytes (length l) (be_val l) = l.
Proof.
  intros H. apply be_val_inj.
  - apply be_bytes_length.
  - apply be_bytes_bytes.
  - exact H.
  - apply be_val_bytes_id. apply be_val_range. exact H.
Qed.
Lemma be_bytes_unique k l v : length l = k -> bytes l -> be_val l = v -> l = be_bytes k v.
Proof. intros <- H <-. symmetry. apply be_bytes_be_val. exact H. Qed.

(** destruct a list of known length *)
Lemma list_len_S {A} (l : list A) k : length l = S k -> exists a t, l = a :: t /\ length t = k.
Proof. destruct l as [|a t]; intros H; [discriminate|]. injection H as H. eauto. Qed.
Ltac destruct_len l :=
  repeat match goal with
  | H : length l = S _ |- _ =>
      let a := fresh "a" in let t := fresh "t" in let E := fresh in
      apply list_len_S in H; destruct H as (a & t & E & H); subst l; rename t into l
  | H : length l = O |- _ => apply length_zero_iff_nil in H; subst l
  end.
Ltac inv_bytes :=
  repeat match goal with
  | H : bytes (_ :: _) |- _ => let B := fresh "B" in inversion_clear H as [|? ? B ?]
  | H : Forall _ (_ :: _) |- _ => let B := fresh "B" in inversion_clear H as [|? ? B ?]
  | H : bytes [] |- _ => clear H
  | H : Forall _ [] |- _ => clear H
  end.
