(** Scalars that are not reduced: [Scalar] is a public tuple of eight 32-bit words, so every value below
    2^256 can be passed in.  What the arithmetic does with them. *)
From Verif Require Import Word MField MScalar MGroup MEcmult MEcdsa MApi WP Spec Fp Bits ScalarAcc ScalarMul ScalarOps ScalarRed ScalarMore ScalarBits Denote ApiScalar.

Section B.
Variable dbg : bool.
Lemma wp_scalar_u (o : option scalar) v : wp o (fun r => s_u r /\ sv r = v) -> o = Some (scalar_of v).
Proof. intros H. apply wp_inv in H. destruct H as (r & -> & U & <-). f_equal. apply scalar_of_id, U. Qed.

(** one subtraction of the order, when the sum reaches it *)
Definition radd (a b : Z) : Z := if n <=? a + b then (a + b - n) mod 2 ^ 256 else a + b.
Lemma radd_mod a b : 0 <= a < n -> 0 <= b < 2 ^ 256 -> 0 <= radd a b < 2 ^ 256 /\ radd a b mod n = (a + b) mod n.
Proof.
  intros A B. pose proof n_lt as NL. unfold radd. destruct (Z.leb_spec n (a + b)) as [L|L]; [|split; [lia | reflexivity]].
  rewrite (Z.mod_small (a + b - n)) by lia. split; [lia|]. replace (a + b - n) with (a + b + (-1) * n) by ring. apply Z.mod_add. lia.
Qed.
Lemma final_sub_any s c : s_u s -> 0 <= c <= 1 ->
  wp (let! over := b2z (s_check_overflow s) in
      let* ch := choice_from dbg (as_u8 c) in
      let* o := choice_from dbg (Z.lor ch over) in
      s_reduce dbg s o) (fun r => s_u r /\ sv r = let t := sv s + c * 2 ^ 256 in if n <=? t then (t - n) mod 2 ^ 256 else t).
Proof.
  intros U C. pose proof (sv_range s U) as R. cbv zeta.
  rewrite s_check_overflow_ok by exact U. refine (wp_let_any _ _ _ _); cbv beta.
  assert (as_u8 c = c) as -> by (unfold as_u8; apply Z.mod_small; change (2 ^ 8) with 256; lia).
  unfold choice_from.
  assert (N2 : 2 ^ 256 = n + NC) by reflexivity. assert (NCn : 0 < NC < n) by (split; reflexivity).
  assert (c = 0 \/ c = 1) as [-> | ->] by lia; cbn [Z.eqb orb].
  - rewrite bind_dassert_true.
    cbn [bind]. rewrite Z.lor_0_l, Z.mul_0_l, Z.add_0_r. destruct (Z.leb_spec n (sv s)) as [L|L]; cbn [b2z].
    + rewrite bind_dassert_true. cbn [bind].
      eapply wp_mono; [apply s_reduce_ok; [exact U | lia]|]. cbv beta. intros r [Ur Vr].
      rewrite Z.mul_1_l in Vr. split; [exact Ur|]. rewrite Vr. replace (sv s + NC) with (sv s - n + 1 * 2 ^ 256) by lia. apply Z.mod_add. lia.
    + rewrite bind_dassert_true. cbn [bind].
      eapply wp_mono; [apply s_reduce_ok; [exact U | lia]|]. cbv beta. intros r [Ur Vr].
      rewrite Z.mul_0_l, Z.add_0_r, Z.mod_small in Vr by lia. split; assumption.
  - rewrite bind_dassert_true. rewrite Z.mul_1_l. cbn [bind].
    assert (LO : Z.lor 1 (b2z (n <=? sv s)) = 1) by (destruct (n <=? sv s); reflexivity). rewrite LO. cbn [Z.eqb orb Pos.eqb]. rewrite bind_dassert_true. cbn [bind].
    rewrite (proj2 (Z.leb_le _ _)) by lia.
    eapply wp_mono; [apply s_reduce_ok; [exact U | lia]|]. cbv beta. intros r [Ur Vr].
    rewrite Z.mul_1_l in Vr. split; [exact Ur|]. rewrite Vr. f_equal. lia.
Qed.
Lemma s_add_any a b : 0 <= a < 2 ^ 256 -> 0 <= b < 2 ^ 256 -> s_add dbg (scalar_of a) (scalar_of b) = Some (scalar_of (radd a b)).
Proof.
  intros RA RB. apply wp_scalar_u. pose proof (scalar_of_u a) as A. pose proof (scalar_of_u b) as B.
  assert (EQ : radd a b = radd (sv (scalar_of a)) (sv (scalar_of b))) by (rewrite !scalar_of_sv by assumption; reflexivity). rewrite EQ. clear EQ. set (sa := scalar_of a) in *. set (sb := scalar_of b) in *. clearbody sa sb. clear RA RB.
  destruct sa as [a0 a1 a2 a3 a4 a5 a6 a7], sb as [b0 b1 b2 b3 b4 b5 b6 b7].
  destruct A as (A0&A1&A2&A3&A4&A5&A6&A7), B as (B0&B1&B2&B3&B4&B5&B6&B7).
  unfold s_add.
  do 8 (eapply wp_bind; [apply sadd_step_ok; [first [eassumption | lia] | assumption | assumption]|];
        let e := fresh "e" in let t := fresh "t" in let U := fresh "U" in let T := fresh "T" in let E := fresh "E" in
        intros [e t] (U & T & E); cbv beta iota).
  refine (wp_let_any _ _ _ _); cbv beta.
  assert (Us : s_u (Sc e e0 e1 e2 e3 e4 e5 e6)) by (cbn [s_u]; unfold u32x8; tauto).
  assert (V : sv (Sc e e0 e1 e2 e3 e4 e5 e6) + t6 * 2 ^ 256 = sv (Sc a0 a1 a2 a3 a4 a5 a6 a7) + sv (Sc b0 b1 b2 b3 b4 b5 b6 b7)).
  { cbn [sv]. unfold val8. p2. lia. }
  eapply wp_mono; [apply (final_sub_any _ t6 Us T6)|].
  cbv beta zeta. intros r [Hr Vr]. split; [exact Hr|]. rewrite Vr, V. reflexivity.
Qed.

(** negation subtracts from the order modulo 2^256 *)
Definition rneg (a : Z) : Z := if a =? 0 then 0 else (n - a) mod 2 ^ 256.
Lemma s_cond_neg_any a flag : 0 <= a < 2 ^ 256 -> s_cond_neg dbg (scalar_of a) flag = Some (scalar_of (if flag then rneg a else a)).
Proof.
  intros R. apply wp_scalar_u. pose proof (scalar_of_u a) as U. pose proof (s_is_zero_ok _ U) as Z0.
  assert (EQ : (if flag then rneg a else a) = if flag then rneg (sv (scalar_of a)) else sv (scalar_of a)) by (rewrite scalar_of_sv by assumption; reflexivity). rewrite EQ. clear EQ. set (s := scalar_of a) in *. clearbody s. pose proof (sv_range _ U) as RS. clear R.
  destruct s as [d0 d1 d2 d3 d4 d5 d6 d7]. pose proof U as U'. destruct U' as (D0&D1&D2&D3&D4&D5&D6&D7).
  unfold s_cond_neg, rneg.
  destruct (Z.eqb_spec (sv (Sc d0 d1 d2 d3 d4 d5 d6 d7)) 0) as [E|E].
  - rewrite Z0. do 3 (refine (wp_let_any _ _ _ _); cbv beta).
    assert (d0 = 0 /\ d1 = 0 /\ d2 = 0 /\ d3 = 0 /\ d4 = 0 /\ d5 = 0 /\ d6 = 0 /\ d7 = 0) as (?&?&?&?&?&?&?&?).
    { cbn [sv] in E. unfold val8, u32 in *. p2h. lia. }
    assert (M : (if flag then 4294967295 else 0) = 0 \/ (if flag then 4294967295 else 0) = 4294967295) by (destruct flag; auto).
    assert (T0 : 0 <= b2z flag <= 1) by (destruct flag; cbn; lia).
    do 8 (eapply wp_bind; [apply cneg_step_zero; [eassumption | assumption | exact M | split; discriminate]|];
        let e := fresh "e" in let t := fresh "t" in let U := fresh "U" in let T := fresh "T" in
        intros [e t] (U & T); cbv beta iota).
    apply wp_some. rewrite E. subst. split.
    + cbn [s_u]; unfold u32x8, u32; lia.
    + destruct flag; reflexivity.
  - rewrite Z0. do 3 (refine (wp_let_any _ _ _ _); cbv beta).
    destruct flag; cbn [b2z].
    + assert (T0 : 0 <= 1 <= 1) by lia.
      do 8 (eapply wp_bind; [apply cneg_step_ok; [eassumption | assumption | split; discriminate]|];
        let e := fresh "e" in let t := fresh "t" in let U := fresh "U" in let T := fresh "T" in let E := fresh "E" in
        intros [e t] (U & T & E); cbv beta iota).
      apply wp_some.
      assert (Us : s_u (Sc e e0 e1 e2 e3 e4 e5 e6)) by (cbn [s_u]; unfold u32x8; tauto).
      pose proof (sv_range _ Us) as Rs.
      assert (V : sv (Sc e e0 e1 e2 e3 e4 e5 e6) + t6 * 2 ^ 256 = 2 ^ 256 - sv (Sc d0 d1 d2 d3 d4 d5 d6 d7) + n).
      { clear RS Rs E. cbn [sv]. rewrite n_eq. unfold val8, N_0, N_1, N_2, N_3, N_4, N_5, N_6, N_7 in *. p2. lia. }
      split; [exact Us|]. apply (Zmod_unique _ _ (t6 - 1)); [exact Rs | lia].
    + do 8 (eapply wp_bind; [apply cneg_step_id; [first [eassumption | reflexivity] | assumption]|];
        let e := fresh "e" in let t := fresh "t" in let U := fresh "U" in let T := fresh "T" in
        intros [e t] (U & T); cbv beta iota).
      apply wp_some. subst. split; [assumption | reflexivity].
Qed.
Lemma s_neg_any a : 0 <= a < 2 ^ 256 -> s_neg dbg (scalar_of a) = Some (scalar_of (rneg a)).
Proof. apply (s_cond_neg_any a true). Qed.

(** [cadd_bit]: the assertions catch exactly the results that are not reduced; without them the sum wraps *)
Lemma s_cadd_bit_any a bit flag : 0 <= a < 2 ^ 256 -> 0 <= bit < 256 ->
  s_cadd_bit dbg (scalar_of a) bit flag =
    if dbg && (n <=? a + b2z flag * 2 ^ bit) then None else Some (scalar_of ((a + b2z flag * 2 ^ bit) mod 2 ^ 256)).
Proof.
  intros R B. pose proof (scalar_of_u a) as U. 
  assert (VA : sv (scalar_of a) = a) by (apply scalar_of_sv, R). set (s := scalar_of a) in *. clearbody s. subst a. pose proof (sv_range s U) as RS.
  destruct s as [d0 d1 d2 d3 d4 d5 d6 d7]. destruct U as (D0&D1&D2&D3&D4&D5&D6&D7). unfold s_cadd_bit.
  rewrite bda by (apply Z.ltb_lt; lia).
  unfold add64 at 1. rewrite uchk_ok by (change (2 ^ 64) with 18446744073709551616; destruct flag; lia). cbn [bind].
  set (bt := bit + (if flag then 0 else 256)).
  assert (Hbt : 0 <= bt) by (unfold bt; destruct flag; lia).
  assert (T0 : 0 <= 0 <= 1) by lia.
  do 8 (match goal with |- bind (cadd_step _ ?t ?d ?b ?i) _ = _ =>
          let e := fresh "e" in let t' := fresh "t" in let H := fresh "H" in let U := fresh "U" in let T := fresh "T" in let E := fresh "E" in
          assert (H : exists et, cadd_step dbg t d b i = Some et /\ let '(e, t') := et in u32 e /\ 0 <= t' <= 1 /\ e + 4294967296 * t' = t + d + b2z (b / 32 =? i) * 2 ^ (b mod 32))
            by (apply wp_inv; apply cadd_step_ok; [first [eassumption | lia] | assumption | assumption]);
          destruct H as ([e t'] & -> & U & T & E); change (bind (Some ?x) ?f) with (f x); cbv beta iota end).
  assert (Us : s_u (Sc e e0 e1 e2 e3 e4 e5 e6)) by (cbn [s_u]; unfold u32x8; tauto).
  pose proof (sv_range _ Us) as Rs.
  assert (W : b2z (bt / 32 =? 0) * 2 ^ (bt mod 32) + 2 ^ 32 * (b2z (bt / 32 =? 1) * 2 ^ (bt mod 32))
            + 2 ^ 64 * (b2z (bt / 32 =? 2) * 2 ^ (bt mod 32)) + 2 ^ 96 * (b2z (bt / 32 =? 3) * 2 ^ (bt mod 32))
            + 2 ^ 128 * (b2z (bt / 32 =? 4) * 2 ^ (bt mod 32)) + 2 ^ 160 * (b2z (bt / 32 =? 5) * 2 ^ (bt mod 32))
            + 2 ^ 192 * (b2z (bt / 32 =? 6) * 2 ^ (bt mod 32)) + 2 ^ 224 * (b2z (bt / 32 =? 7) * 2 ^ (bt mod 32)) = b2z flag * 2 ^ bit).
  { unfold bt. destruct flag; cbn [b2z].
    - rewrite Z.add_0_r, Z.mul_1_l. pose proof (Z.mod_pos_bound bit 32 ltac:(lia)).
      assert (E8 : bit = 32 * (bit / 32) + bit mod 32) by (apply Z.div_mod; lia).
      assert (0 <= bit / 32 < 8) by (Z.to_euclidean_division_equations; lia).
      rewrite E8 at 17. rewrite Z.pow_add_r by lia. set (x := 2 ^ (bit mod 32)). clearbody x. set (q := bit / 32) in *. clearbody q.
      assert (q = 0 \/ q = 1 \/ q = 2 \/ q = 3 \/ q = 4 \/ q = 5 \/ q = 6 \/ q = 7) as C by lia.
      destruct C as [-> |[-> |[-> |[-> |[-> |[-> |[-> | ->]]]]]]]; cbn [Z.eqb b2z Pos.eqb]; match goal with |- context [2 ^ (32 * ?k)] => let c := eval vm_compute in (32 * k) in change (32 * k) with c end; ring.
    - assert (8 <= (bit + 256) / 32) by (Z.to_euclidean_division_equations; lia).
      set (q := (bit + 256) / 32) in *. clearbody q.
      rewrite !(proj2 (Z.eqb_neq _ _)) by lia. cbn [b2z]. ring. }
  assert (V : sv (Sc e e0 e1 e2 e3 e4 e5 e6) + t6 * 2 ^ 256 = sv (Sc d0 d1 d2 d3 d4 d5 d6 d7) + b2z flag * 2 ^ bit).
  { rewrite <- W. clear RS R Rs W. cbn [sv]. unfold val8.
    repeat match goal with |- context [b2z (bt / 32 =? ?i) * ?y] => let x := fresh "w" in set (x := b2z (bt / 32 =? i) * y) in *; clearbody x end.
    p2. lia. }
  pose proof n_lt_2_256 as NL. set (x := b2z flag * 2 ^ bit) in *. set (s := sv (Sc d0 d1 d2 d3 d4 d5 d6 d7)) in *.
  assert (MV : (s + x) mod 2 ^ 256 = sv (Sc e e0 e1 e2 e3 e4 e5 e6)) by (symmetry; apply (Zmod_unique _ _ t6); [exact Rs | lia]).
  assert (ER : scalar_of ((s + x) mod 2 ^ 256) = Sc e e0 e1 e2 e3 e4 e5 e6) by (rewrite MV; symmetry; apply scalar_of_id, Us). rewrite ER.
  unfold dassert. destruct dbg; cbn [andb]; [|reflexivity]. change (bind (Some ?x) ?f) with (f x). cbv beta.
  assert (t6 = 0 \/ t6 = 1) as [-> | ->] by lia; cbn [Z.eqb].
  - rewrite s_check_overflow_ok by exact Us. replace (s + x) with (sv (Sc e e0 e1 e2 e3 e4 e5 e6)) by lia. destruct (n <=? sv (Sc e e0 e1 e2 e3 e4 e5 e6)); reflexivity.
  - rewrite (proj2 (Z.leb_le n (s + x))) by lia. reflexivity.
Qed.
End B.
