(** Bit extraction, bit addition and shifts of scalars. *)
From Verif Require Import Word MScalar WP ScalarAcc ScalarMul Spec Fp Bits ScalarOps ScalarRed ScalarMore.

Lemma pow2_ge1 k : 0 <= k -> 1 <= 2 ^ k. Proof. intros. pose proof (Z.pow_pos_nonneg 2 k). lia. Qed.
Lemma land31 x : Z.land x 31 = x mod 32.
Proof. change 31 with (Z.ones 5). rewrite Z.land_ones by lia. reflexivity. Qed.
Lemma shr5 x : Z.shiftr x 5 = x / 32. Proof. rewrite Z.shiftr_div_pow2 by lia. reflexivity. Qed.

(** word [k] of the limb array is bits 32k..32k+31 of the value *)
Lemma limb_at lo B d hi V : (0 <? B) = true -> 0 <= lo < B -> 0 <= d <= 4294967295 -> V = lo + B * (d + 4294967296 * hi) -> Some d = Some ((V / B) mod 4294967296).
Proof.
  intros HB Hl Hd ->. apply Z.ltb_lt in HB. f_equal.
  rewrite (Z.mul_comm B), Z.div_add, Z.div_small, Z.add_0_l by lia.
  rewrite Z.mul_comm, Z_mod_plus_full, Z.mod_small by lia. reflexivity.
Qed.
Lemma limb_idx s k : s_u s -> 0 <= k < 8 -> idx (s_limbs s) k = Some ((sv s / 2 ^ (32 * k)) mod 2 ^ 32).
Proof.
  destruct s as [d0 d1 d2 d3 d4 d5 d6 d7]. intros (U0&U1&U2&U3&U4&U5&U6&U7) K. unfold u32 in *.
  assert (k = 0 \/ k = 1 \/ k = 2 \/ k = 3 \/ k = 4 \/ k = 5 \/ k = 6 \/ k = 7) as C by lia.
  cbn [sv]. unfold val8. p2.
  destruct C as [-> |[-> |[-> |[-> |[-> |[-> |[-> | ->]]]]]]];
  match goal with |- idx _ ?k = _ => let c := eval vm_compute in (2 ^ (32 * k)) in change (2 ^ (32 * k)) with c end;
  unfold idx; cbn [s_limbs Z.ltb Z.compare Z.to_nat Pos.to_nat Pos.iter_op nth_error Init.Nat.add].
  - apply (limb_at (0) 1 d0 (0 + d1 * 1 + d2 * 4294967296 + d3 * 18446744073709551616 + d4 * 79228162514264337593543950336 + d5 * 340282366920938463463374607431768211456 + d6 * 1461501637330902918203684832716283019655932542976 + d7 * 6277101735386680763835789423207666416102355444464034512896)); [reflexivity | lia | lia | ring].
  - apply (limb_at (0 + d0 * 1) 4294967296 d1 (0 + d2 * 1 + d3 * 4294967296 + d4 * 18446744073709551616 + d5 * 79228162514264337593543950336 + d6 * 340282366920938463463374607431768211456 + d7 * 1461501637330902918203684832716283019655932542976)); [reflexivity | lia | lia | ring].
  - apply (limb_at (0 + d0 * 1 + d1 * 4294967296) 18446744073709551616 d2 (0 + d3 * 1 + d4 * 4294967296 + d5 * 18446744073709551616 + d6 * 79228162514264337593543950336 + d7 * 340282366920938463463374607431768211456)); [reflexivity | lia | lia | ring].
  - apply (limb_at (0 + d0 * 1 + d1 * 4294967296 + d2 * 18446744073709551616) 79228162514264337593543950336 d3 (0 + d4 * 1 + d5 * 4294967296 + d6 * 18446744073709551616 + d7 * 79228162514264337593543950336)); [reflexivity | lia | lia | ring].
  - apply (limb_at (0 + d0 * 1 + d1 * 4294967296 + d2 * 18446744073709551616 + d3 * 79228162514264337593543950336) 340282366920938463463374607431768211456 d4 (0 + d5 * 1 + d6 * 4294967296 + d7 * 18446744073709551616)); [reflexivity | lia | lia | ring].
  - apply (limb_at (0 + d0 * 1 + d1 * 4294967296 + d2 * 18446744073709551616 + d3 * 79228162514264337593543950336 + d4 * 340282366920938463463374607431768211456) 1461501637330902918203684832716283019655932542976 d5 (0 + d6 * 1 + d7 * 4294967296)); [reflexivity | lia | lia | ring].
  - apply (limb_at (0 + d0 * 1 + d1 * 4294967296 + d2 * 18446744073709551616 + d3 * 79228162514264337593543950336 + d4 * 340282366920938463463374607431768211456 + d5 * 1461501637330902918203684832716283019655932542976) 6277101735386680763835789423207666416102355444464034512896 d6 (0 + d7 * 1)); [reflexivity | lia | lia | ring].
  - apply (limb_at (0 + d0 * 1 + d1 * 4294967296 + d2 * 18446744073709551616 + d3 * 79228162514264337593543950336 + d4 * 340282366920938463463374607431768211456 + d5 * 1461501637330902918203684832716283019655932542976 + d6 * 6277101735386680763835789423207666416102355444464034512896) 26959946667150639794667015087019630673637144422540572481103610249216 d7 (0)); [reflexivity | lia | lia | ring].
Qed.

Lemma land_ones_sub w c : 0 <= c -> Z.land w (2 ^ c - 1) = w mod 2 ^ c.
Proof. intros. replace (2 ^ c - 1) with (Z.ones c) by (rewrite Z.ones_equiv; lia). apply Z.land_ones; lia. Qed.

Lemma bda {A : Type} dbg b (f : unit -> option A) : b = true -> bind (dassert dbg b) f = f tt.
Proof. intros ->. unfold dassert. destruct dbg; reflexivity. Qed.

Section B.
Variable dbg : bool.

Lemma mask_ok c : 0 <= c < 32 -> (let* q3 := shlc32 dbg 1 c in sub32 dbg q3 1) = Some (2 ^ c - 1).
Proof.
  intros H. unfold shlc32. destruct (Z.ltb_spec c 32); [|lia]. cbn [bind].
  assert (2 ^ c < 2 ^ 32) by (apply Z.pow_lt_mono_r; lia). pose proof (pow2_ge1 c ltac:(lia)).
  unfold shl32. rewrite Z.shiftl_mul_pow2, Z.mul_1_l by lia. rewrite Z.mod_small by lia.
  unfold sub32. rewrite uchk_ok by lia. reflexivity.
Qed.

Lemma bind_assoc {A B C : Type} (m : option A) (f : A -> option B) (g : B -> option C) :
  bind (bind m f) g = bind m (fun x => bind (f x) g).
Proof. destruct m; reflexivity. Qed.

Lemma bits_sub V a b r c : 0 <= a -> 0 <= r -> 0 <= c -> r + c <= b ->
  ((V / 2 ^ a) mod 2 ^ b / 2 ^ r) mod 2 ^ c = (V / 2 ^ (a + r)) mod 2 ^ c.
Proof.
  intros. rewrite <- !Z.land_ones, <- !Z.shiftr_div_pow2 by lia.
  apply Z.bits_inj'. intros i Hi.
  rewrite !Z.land_spec, !Z.shiftr_spec, Z.land_spec, Z.shiftr_spec by lia.
  destruct (Z.lt_ge_cases i c).
  - rewrite !Z.ones_spec_low by lia. rewrite !andb_true_r. f_equal. lia.
  - rewrite (Z.ones_spec_high c i) by lia. rewrite !andb_false_r. reflexivity.
Qed.

Lemma s_bits_ok s off c : s_u s -> 0 <= off -> 0 < c < 32 -> off + c <= 256 -> (off + c - 1) / 32 = off / 32 ->
  wp (s_bits dbg s off c) (fun r => r = (sv s / 2 ^ off) mod 2 ^ c).
Proof.
  intros U O C OC W. unfold s_bits.
  assert (Q : 0 <= off / 32 < 8) by (split; [apply Z.div_pos; lia | apply Z.div_lt_upper_bound; lia]).
  assert (R : off mod 32 + c <= 32) by (Z.to_euclidean_division_equations; lia).
  assert (A : (if dbg then let* q1 := add64 dbg off c in let* q2 := sub64 dbg q1 1 in dassert dbg (Z.shiftr q2 5 =? Z.shiftr off 5) else Some tt) = Some tt).
  { destruct dbg; [|reflexivity]. unfold add64. rewrite uchk_ok by (change (2 ^ 64) with 18446744073709551616; lia). cbn [bind].
    unfold sub64. rewrite uchk_ok by (change (2 ^ 64) with 18446744073709551616; lia). cbn [bind].
    rewrite !shr5, W, Z.eqb_refl. reflexivity. }
  rewrite A. clear A. cbn [bind]. rewrite shr5, limb_idx by assumption. cbn [bind].
  rewrite <- bind_assoc, mask_ok by lia. cbn [bind]. apply wp_some.
  pose proof (Z.mod_pos_bound off 32 ltac:(lia)).
  rewrite land_ones_sub, land31, Z.shiftr_div_pow2, bits_sub by lia. do 3 f_equal. Z.to_euclidean_division_equations. lia.
Qed.

Lemma two_words V r c : 0 < r < 32 -> 0 < c < 32 -> 0 <= V ->
  Z.land (Z.lor (Z.shiftr (V mod 2 ^ 32) r) (shl32 ((V / 2 ^ 32) mod 2 ^ 32) (32 - r))) (2 ^ c - 1) = (V / 2 ^ r) mod 2 ^ c.
Proof.
  intros. rewrite land_ones_sub by lia. unfold shl32.
  rewrite <- !Z.land_ones, <- !Z.shiftr_div_pow2 by lia.
  apply Z.bits_inj'. intros i Hi.
  rewrite !Z.land_spec, Z.lor_spec, Z.land_spec, !Z.shiftr_spec, Z.land_spec by lia.
  destruct (Z.lt_ge_cases i c); [|rewrite (Z.ones_spec_high c i) by lia; rewrite !andb_false_r; reflexivity].
  rewrite (Z.ones_spec_low c i), (Z.ones_spec_low 32 i), !andb_true_r by lia.
  destruct (Z.lt_ge_cases i (32 - r)).
  - rewrite Z.shiftl_spec_low by lia. rewrite Z.ones_spec_low by lia. rewrite andb_true_r, orb_false_r. reflexivity.
  - rewrite Z.shiftl_spec by lia. rewrite Z.ones_spec_high by lia. rewrite andb_false_r, orb_false_l.
    rewrite Z.land_spec, Z.shiftr_spec by lia. rewrite Z.ones_spec_low by lia. rewrite andb_true_r. f_equal. lia.
Qed.

Lemma s_bits_var_ok s off c : s_u s -> 0 <= off -> 0 < c < 32 -> off + c <= 256 ->
  wp (s_bits_var dbg s off c) (fun r => r = (sv s / 2 ^ off) mod 2 ^ c).
Proof.
  intros U O C OC. unfold s_bits_var.
  rewrite bda by (apply Z.ltb_lt; lia).
  assert (A : (if dbg then let* q := add64 dbg off c in dassert dbg (q <=? 256) else Some tt) = Some tt).
  { destruct dbg; [|reflexivity]. unfold add64. rewrite uchk_ok by (change (2 ^ 64) with 18446744073709551616; lia). cbn [bind].
    destruct (Z.leb_spec (off + c) 256); [reflexivity | lia]. }
  rewrite A. clear A. cbn [bind].
  unfold add64 at 1. rewrite uchk_ok by (change (2 ^ 64) with 18446744073709551616; lia). cbn [bind].
  unfold sub64 at 1. rewrite uchk_ok by (change (2 ^ 64) with 18446744073709551616; lia). cbn [bind].
  rewrite !shr5. destruct (Z.eqb_spec ((off + c - 1) / 32) (off / 32)) as [E|E].
  - apply s_bits_ok; assumption.
  - pose proof (Z.mod_pos_bound off 32 ltac:(lia)).
    assert (Q : 0 <= off / 32 < 7) by (Z.to_euclidean_division_equations; lia).
    assert (R : 0 < off mod 32) by (Z.to_euclidean_division_equations; lia).
    rewrite bda by (apply Z.ltb_lt; lia).
    rewrite !limb_idx by (assumption || lia). cbn [bind].
    rewrite land31. unfold shlc32 at 1. destruct (Z.ltb_spec (32 - off mod 32) 32); [|lia]. cbn [bind].
    rewrite <- bind_assoc, mask_ok by lia. cbn [bind]. apply wp_some.
    pose proof (sv_range s U).
    replace (32 * (off / 32 + 1)) with (32 * (off / 32) + 32) by lia.
    rewrite Z.pow_add_r, <- Z.div_div by (try lia; apply Z.pow_pos_nonneg; lia).
    assert (0 <= sv s / 2 ^ (32 * (off / 32))) by (apply Z.div_pos; [lia | apply Z.pow_pos_nonneg; lia]).
    rewrite two_words by lia.
    rewrite Z.div_div, <- Z.pow_add_r by (try lia; try apply Z.pow_pos_nonneg; try apply Z.pow_nonzero; lia).
    do 3 f_equal. Z.to_euclidean_division_equations. lia.
Qed.

(** the bits at [off], [off+1], ... of a value and the next group *)
Lemma cadd_step_ok t d bit i : 0 <= t <= 1 -> u32 d -> 0 <= bit ->
  wp (cadd_step dbg t d bit i) (fun '(e, t') => u32 e /\ 0 <= t' <= 1 /\ e + 4294967296 * t' = t + d + b2z (bit / 32 =? i) * 2 ^ (bit mod 32)).
Proof.
  unfold u32. intros Ht Hd Hb. unfold cadd_step, add64.
  rewrite shr5, land31. pose proof (Z.mod_pos_bound bit 32 ltac:(lia)).
  rewrite Z.shiftl_mul_pow2 by lia.
  assert (2 ^ (bit mod 32) <= 2 ^ 31) as B by (apply Z.pow_le_mono_r; lia). pose proof (pow2_ge1 (bit mod 32) ltac:(lia)).
  change (2 ^ 31) with 2147483648 in B.
  assert (0 <= b2z (bit / 32 =? i) * 2 ^ (bit mod 32) <= 2147483648) as B' by (destruct (bit / 32 =? i); cbn [b2z]; lia).
  set (x := b2z (bit / 32 =? i) * 2 ^ (bit mod 32)) in *. clearbody x.
  rewrite uchk_ok by (change (2 ^ 64) with 18446744073709551616; lia). cbn [bind].
  rewrite uchk_ok by (change (2 ^ 64) with 18446744073709551616; lia). cbn [bind]. apply wp_some.
  destruct (split32 (t + (d + x)) 8589934591 ltac:(lia) ltac:(reflexivity)) as [-> ->].
  Z.to_euclidean_division_equations. lia.
Qed.

Lemma s_cadd_bit_ok s bit flag : s_u s -> 0 <= bit < 256 -> sv s + b2z flag * 2 ^ bit < n ->
  wp (s_cadd_bit dbg s bit flag) (fun r => scan r /\ sv r = sv s + b2z flag * 2 ^ bit).
Proof.
  intros U B L. pose proof (sv_range s U) as RS. destruct s as [d0 d1 d2 d3 d4 d5 d6 d7].
  destruct U as (D0&D1&D2&D3&D4&D5&D6&D7). unfold s_cadd_bit.
  rewrite bda by (apply Z.ltb_lt; lia).
  unfold add64 at 1. rewrite uchk_ok by (change (2 ^ 64) with 18446744073709551616; destruct flag; lia). cbn [bind].
  set (bt := bit + (if flag then 0 else 256)).
  assert (Hbt : 0 <= bt) by (unfold bt; destruct flag; lia).
  assert (T0 : 0 <= 0 <= 1) by lia.
  do 8 (eapply wp_bind; [apply cadd_step_ok; [first [eassumption | lia] | assumption | assumption]|];
        let e := fresh "e" in let t := fresh "t" in let U := fresh "U" in let T := fresh "T" in let E := fresh "E" in
        intros [e t] (U & T & E); cbv beta iota).
  assert (Us : s_u (Sc e e0 e1 e2 e3 e4 e5 e6)) by (cbn [s_u]; unfold u32x8; tauto).
  pose proof (sv_range _ Us) as Rs.
  assert (W : b2z (bt / 32 =? 0) * 2 ^ (bt mod 32) + 2 ^ 32 * (b2z (bt / 32 =? 1) * 2 ^ (bt mod 32))
            + 2 ^ 64 * (b2z (bt / 32 =? 2) * 2 ^ (bt mod 32)) + 2 ^ 96 * (b2z (bt / 32 =? 3) * 2 ^ (bt mod 32))
            + 2 ^ 128 * (b2z (bt / 32 =? 4) * 2 ^ (bt mod 32)) + 2 ^ 160 * (b2z (bt / 32 =? 5) * 2 ^ (bt mod 32))
            + 2 ^ 192 * (b2z (bt / 32 =? 6) * 2 ^ (bt mod 32)) + 2 ^ 224 * (b2z (bt / 32 =? 7) * 2 ^ (bt mod 32)) = b2z flag * 2 ^ bit).
  { unfold bt. destruct flag; cbn [b2z].
    - rewrite Z.add_0_r, Z.mul_1_l. pose proof (Z.mod_pos_bound bit 32 ltac:(lia)).
      assert (E8 : bit = 32 * (bit / 32) + bit mod 32) by (apply Z.div_mod; lia).
      assert (0 <= bit / 32 < 8) by (Z.to_euclidean_division_equations; lia).
      rewrite E8 at 17. rewrite Z.pow_add_r by lia. set (x := 2 ^ (bit mod 32)). clearbody x. set (q := bit / 32) in *. clearbody q.
      assert (q = 0 \/ q = 1 \/ q = 2 \/ q = 3 \/ q = 4 \/ q = 5 \/ q = 6 \/ q = 7) as C by lia.
      destruct C as [-> |[-> |[-> |[-> |[-> |[-> |[-> | ->]]]]]]]; cbn [Z.eqb b2z Pos.eqb]; match goal with |- context [2 ^ (32 * ?k)] => let c := eval vm_compute in (32 * k) in change (32 * k) with c end; ring.
    - assert (8 <= (bit + 256) / 32) by (Z.to_euclidean_division_equations; lia).
      set (q := (bit + 256) / 32) in *. clearbody q.
      rewrite !(proj2 (Z.eqb_neq _ _)) by lia. cbn [b2z]. ring. }
  assert (V : sv (Sc e e0 e1 e2 e3 e4 e5 e6) + t6 * 2 ^ 256 = sv (Sc d0 d1 d2 d3 d4 d5 d6 d7) + b2z flag * 2 ^ bit).
  { rewrite <- W. clear RS Rs L W. cbn [sv]. unfold val8.
    repeat match goal with |- context [b2z (bt / 32 =? ?i) * ?y] => let x := fresh "w" in set (x := b2z (bt / 32 =? i) * y) in *; clearbody x end.
    p2. lia. }
  pose proof n_lt_2_256. assert (t6 = 0) by lia. subst t6. cbn [Z.eqb].
  rewrite bda by reflexivity. refine (wp_let_any _ _ _ _); cbv beta.
  rewrite s_check_overflow_ok by exact Us. rewrite bda by (apply negb_true_iff, Z.leb_gt; lia).
  apply wp_some. split; [split; [exact Us|] |]; lia.
Qed.

Lemma shr_step_ok lo hi k : u32 lo -> u32 hi -> 0 < k < 16 ->
  wp (shr_step dbg lo hi k) (fun r => r = lo / 2 ^ k + 2 ^ (32 - k) * (hi mod 2 ^ k)).
Proof.
  unfold u32. intros L H K. unfold shr_step, shrc32, shlc32, sub64.
  destruct (Z.ltb_spec k 32); [|lia]. cbn [bind].
  rewrite uchk_ok by (change (2 ^ 64) with 18446744073709551616; lia). cbn [bind].
  destruct (Z.ltb_spec (32 - k) 32); [|lia]. cbn [bind].
  unfold shl32. rewrite Z.shiftr_div_pow2, Z.shiftl_mul_pow2 by lia.
  assert (P : 2 ^ 32 = 2 ^ (32 - k) * 2 ^ k) by (rewrite <- Z.pow_add_r by lia; f_equal; lia).
  pose proof (pow2_ge1 k ltac:(lia)). pose proof (pow2_ge1 (32 - k) ltac:(lia)).
  rewrite P, (Z.mul_comm hi), Zmult_mod_distr_l.
  pose proof (Z.mod_pos_bound hi (2 ^ k) ltac:(lia)).
  assert (lo / 2 ^ k < 2 ^ (32 - k)).
  { apply Z.div_lt_upper_bound; [lia|]. rewrite Z.mul_comm, <- P. change (2 ^ 32) with 4294967296. lia. }
  assert (0 <= lo / 2 ^ k) by (apply Z.div_pos; lia).
  unfold add32. rewrite uchk_ok by (rewrite P; nia). reflexivity.
Qed.

Lemma s_shr_int_ok s k : s_u s -> 0 < k < 16 ->
  wp (s_shr_int dbg s k) (fun '(r, b) => s_u r /\ sv r = sv s / 2 ^ k /\ b = sv s mod 2 ^ k).
Proof.
  intros U K. destruct s as [d0 d1 d2 d3 d4 d5 d6 d7]. destruct U as (D0&D1&D2&D3&D4&D5&D6&D7).
  unfold s_shr_int.
  rewrite !bda by (apply Z.ltb_lt; lia).
  rewrite <- bind_assoc, mask_ok by lia. cbn [bind].
  rewrite land_ones_sub by lia.
  do 7 (eapply wp_bind; [apply shr_step_ok; assumption|]; let e := fresh "e" in intros e ->).
  unfold shrc32. destruct (Z.ltb_spec k 32); [|lia]. cbn [bind]. apply wp_some.
  rewrite Z.shiftr_div_pow2 by lia.
  assert (P : 2 ^ 32 = 2 ^ (32 - k) * 2 ^ k) by (rewrite <- Z.pow_add_r by lia; f_equal; lia).
  pose proof (pow2_ge1 k ltac:(lia)) as P1. pose proof (pow2_ge1 (32 - k) ltac:(lia)) as P2.
  assert (Dv : forall d, d = 2 ^ k * (d / 2 ^ k) + d mod 2 ^ k) by (intros; apply Z.div_mod; lia).
  assert (Md : forall d, 0 <= d mod 2 ^ k < 2 ^ k) by (intros; apply Z.mod_pos_bound; lia).
  assert (Hd : forall d, u32 d -> 0 <= d / 2 ^ k < 2 ^ (32 - k)).
  { intros d Hd. unfold u32 in Hd. split; [apply Z.div_pos; lia|]. apply Z.div_lt_upper_bound; [lia|]. rewrite Z.mul_comm, <- P. change (2 ^ 32) with 4294967296. lia. }
  assert (Hu : forall d d', u32 d -> u32 (d / 2 ^ k + 2 ^ (32 - k) * (d' mod 2 ^ k))).
  { intros d d' H1. pose proof (Hd d H1). pose proof (Md d'). unfold u32.
    assert (2 ^ (32 - k) * (d' mod 2 ^ k) <= 2 ^ (32 - k) * (2 ^ k - 1)) by nia.
    assert (0 <= 2 ^ (32 - k) * (d' mod 2 ^ k)) by nia.
    change 4294967295 with (2 ^ 32 - 1). rewrite P. nia. }
  assert (Hz : forall d, u32 d -> u32 (d / 2 ^ k)).
  { intros d H1. replace (d / 2 ^ k) with (d / 2 ^ k + 2 ^ (32 - k) * (0 mod 2 ^ k)) by (rewrite Z.mod_0_l by lia; lia). apply Hu, H1. }
  split; [cbn [s_u]; unfold u32x8; auto 10|].
  assert (V : sv (Sc d0 d1 d2 d3 d4 d5 d6 d7) = 2 ^ k * sv
   (Sc (d0 / 2 ^ k + 2 ^ (32 - k) * (d1 mod 2 ^ k)) (d1 / 2 ^ k + 2 ^ (32 - k) * (d2 mod 2 ^ k))
     (d2 / 2 ^ k + 2 ^ (32 - k) * (d3 mod 2 ^ k)) (d3 / 2 ^ k + 2 ^ (32 - k) * (d4 mod 2 ^ k))
     (d4 / 2 ^ k + 2 ^ (32 - k) * (d5 mod 2 ^ k)) (d5 / 2 ^ k + 2 ^ (32 - k) * (d6 mod 2 ^ k))
     (d6 / 2 ^ k + 2 ^ (32 - k) * (d7 mod 2 ^ k)) (d7 / 2 ^ k)) + d0 mod 2 ^ k).
  { cbn [sv]. unfold val8.
    pose proof (Dv d0) as E0. pose proof (Dv d1) as E1. pose proof (Dv d2) as E2. pose proof (Dv d3) as E3.
    pose proof (Dv d4) as E4. pose proof (Dv d5) as E5. pose proof (Dv d6) as E6. pose proof (Dv d7) as E7.
    clear Dv Md Hd Hu Hz D0 D1 D2 D3 D4 D5 D6 D7.
    repeat match goal with |- context [?a / 2 ^ k] => let x := fresh "u" in set (x := a / 2 ^ k) in *; clearbody x end.
    repeat match goal with H : context [?a mod 2 ^ k] |- _ => let x := fresh "v" in set (x := a mod 2 ^ k) in *; clearbody x end.
    rewrite E0, E1, E2, E3, E4, E5, E6, E7.
    replace (2 ^ 64) with (2 ^ 32 * 2 ^ 32) by reflexivity. replace (2 ^ 96) with (2 ^ 32 * 2 ^ 32 * 2 ^ 32) by reflexivity.
    replace (2 ^ 128) with (2 ^ 32 * 2 ^ 32 * 2 ^ 32 * 2 ^ 32) by reflexivity. replace (2 ^ 160) with (2 ^ 32 * 2 ^ 32 * 2 ^ 32 * 2 ^ 32 * 2 ^ 32) by reflexivity.
    replace (2 ^ 192) with (2 ^ 32 * 2 ^ 32 * 2 ^ 32 * 2 ^ 32 * 2 ^ 32 * 2 ^ 32) by reflexivity.
    replace (2 ^ 224) with (2 ^ 32 * 2 ^ 32 * 2 ^ 32 * 2 ^ 32 * 2 ^ 32 * 2 ^ 32 * 2 ^ 32) by reflexivity.
    rewrite P. ring. }
  pose proof (Md d0) as M0. split.
  - apply (Z.div_unique _ _ _ (d0 mod 2 ^ k)); [left; exact M0 | exact V].
  - apply (Z.mod_unique _ _ _ _ (or_introl M0) V).
Qed.
End B.

(** [from_int] *)
Lemma s_from_int_ok v : u32 v -> scan (s_from_int v) /\ sv (s_from_int v) = v.
Proof.
  intros H. assert (E : sv (s_from_int v) = v) by (cbn [s_from_int sv]; unfold val8; ring).
  split; [|exact E]. split; [cbn [s_from_int s_u]; unfold u32x8; unfold u32 in *; lia|]. rewrite E. unfold u32 in H. rewrite n_eq. lia.
Qed.
Lemma s_default_ok : scan s_default /\ sv s_default = 0.
Proof. apply (s_from_int_ok 0). split; discriminate. Qed.

(** the lower-case hexadecimal form prints the words least significant first *)
Lemma s_lower_hex_ok s : s_u s ->
  s_lower_hex s = flat_map (fun k => flat_map hex_byte (be_bytes 4 ((sv s / 2 ^ (32 * Z.of_nat k)) mod 2 ^ 32))) (seq 0 8).
Proof.
  intros U. unfold s_lower_hex.
  assert (E : s_limbs s = map (fun k => (sv s / 2 ^ (32 * Z.of_nat k)) mod 2 ^ 32) (seq 0 8)).
  { assert (X : forall k, (k < 8)%nat -> nth_error (s_limbs s) k = Some ((sv s / 2 ^ (32 * Z.of_nat k)) mod 2 ^ 32)).
    { intros k K. pose proof (limb_idx s (Z.of_nat k) U ltac:(lia)) as I. unfold idx in I.
      destruct (Z.ltb_spec (Z.of_nat k) 0); [lia|]. rewrite Nat2Z.id in I. exact I. }
    destruct s as [d0 d1 d2 d3 d4 d5 d6 d7]. cbn [s_limbs] in *. cbn [seq map].
    pose proof (X 0%nat ltac:(lia)) as X0. pose proof (X 1%nat ltac:(lia)) as X1. pose proof (X 2%nat ltac:(lia)) as X2. pose proof (X 3%nat ltac:(lia)) as X3.
    pose proof (X 4%nat ltac:(lia)) as X4. pose proof (X 5%nat ltac:(lia)) as X5. pose proof (X 6%nat ltac:(lia)) as X6. pose proof (X 7%nat ltac:(lia)) as X7.
    clear X U. cbn [nth_error] in *.
    assert (J : forall a b : Z, Some a = Some b -> a = b) by (intros a b Q; injection Q; auto).
    apply J in X0, X1, X2, X3, X4, X5, X6, X7.
    etransitivity; [|rewrite <- X0, <- X1, <- X2, <- X3, <- X4, <- X5, <- X6, <- X7; reflexivity].
    reflexivity. }
  rewrite E. rewrite flat_map_concat_map, map_map, <- flat_map_concat_map. apply flat_map_ext. intros k.
  f_equal. set (w := (sv s / 2 ^ (32 * Z.of_nat k)) mod 2 ^ 32).
  assert (W : u32 w) by (unfold u32, w; pose proof (Z.mod_pos_bound (sv s / 2 ^ (32 * Z.of_nat k)) (2 ^ 32) ltac:(lia)) as B; change (2 ^ 32) with 4294967296 in *; lia).
  clearbody w. unfold be_bytes32, as_u8. rewrite !Z.shiftr_div_pow2 by lia. apply be_bytes_unique.
  - reflexivity.
  - unfold bytes. repeat (apply Forall_cons; [apply Z.mod_pos_bound; reflexivity|]). apply Forall_nil.
  - cbn [be_val length]. pose proof (word_cut w W). change (2 ^ 8) with 256 in *. change (2 ^ 16) with 65536. change (2 ^ 24) with 16777216.
    repeat match goal with |- context [256 ^ Z.of_nat ?k] => let c := eval vm_compute in (256 ^ Z.of_nat k) in change (256 ^ Z.of_nat k) with c end.
    lia.
Qed.
