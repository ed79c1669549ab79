(** Scalar addition, negation, inversion, byte strings, shifts and bit extraction. *)
From Coq Require Import Znumtheory Zpow_facts.
From Verif Require Import Word MScalar WP ScalarAcc ScalarMul Spec Fermat Fp Bits ScalarOps ScalarRed.

Lemma n_eq : n = 115792089237316195423570985008687907852837564279074904382605163141518161494337. Proof. reflexivity. Qed.

Lemma lor4 a b c d : 0 <= a < 256 -> 0 <= b < 256 -> 0 <= c < 256 -> 0 <= d < 256 ->
  Z.lor (Z.lor (Z.lor a (shl32 b 8)) (shl32 c 16)) (shl32 d 24) = a + b * 256 + c * 65536 + d * 16777216.
Proof.
  intros. rewrite (lor_shl32 a b 8) by (change (2 ^ 8) with 256; change (2 ^ 32) with 4294967296; lia).
  rewrite (lor_shl32 _ c 16) by (change (2 ^ 16) with 65536; change (2 ^ 8) with 256; change (2 ^ 32) with 4294967296; lia).
  rewrite (lor_shl32 _ d 24) by (change (2 ^ 24) with 16777216; change (2 ^ 16) with 65536; change (2 ^ 8) with 256; change (2 ^ 32) with 4294967296; lia).
  reflexivity.
Qed.
Lemma word_cut x : u32 x -> x = x mod 256 + 256 * ((x / 256) mod 256) + 65536 * ((x / 65536) mod 256) + 16777216 * ((x / 16777216) mod 256).
Proof. unfold u32. intros. Z.to_euclidean_division_equations. lia. Qed.

Lemma s_b32_ok s : s_u s -> s_b32 s = be_bytes 32 (sv s).
Proof.
  destruct s as [d0 d1 d2 d3 d4 d5 d6 d7]. cbn [s_u sv s_b32]. unfold u32x8. intros (U0&U1&U2&U3&U4&U5&U6&U7).
  rewrite !Z.shiftr_div_pow2 by lia. unfold as_u8.
  p2. apply be_bytes_unique.
  - reflexivity.
  - unfold bytes. repeat (apply Forall_cons; [apply Z.mod_pos_bound; reflexivity|]). apply Forall_nil.
  - cbn [be_val length]. unfold val8.
    pose proof (word_cut _ U0). pose proof (word_cut _ U1). pose proof (word_cut _ U2). pose proof (word_cut _ U3).
    pose proof (word_cut _ U4). pose proof (word_cut _ U5). pose proof (word_cut _ U6). pose proof (word_cut _ U7).
    repeat match goal with |- context [256 ^ Z.of_nat ?k] => let c := eval vm_compute in (256 ^ Z.of_nat k) in change (256 ^ Z.of_nat k) with c end.
    p2.
    repeat match goal with |- context [?a mod ?b] => let x := fresh "u" in set (x := a mod b) in *; clearbody x end.
    lia.
Qed.

Section B.
Variable dbg : bool.

(** the conditional subtraction applied to any 256-bit number *)
Lemma s_set_b32_ok l : length l = 32%nat -> bytes l ->
  wp (s_set_b32 dbg l) (fun '(s, o) => scan s /\ sv s = be_val l mod n /\ o = (n <=? be_val l)).
Proof.
  intros L B. destruct_len l. inv_bytes. unfold s_set_b32.
  rewrite !lor4 by assumption.
  refine (wp_let_any _ _ _ _); cbv beta.
  match goal with |- wp (bind (Some (s_check_overflow ?S)) _) _ => set (s := S) end.
  assert (U : s_u s) by (unfold s; cbn [s_u]; unfold u32x8, u32; lia).
  match goal with |- context [be_val ?l] => assert (V : sv s = be_val l) end.
  { unfold s. cbn [sv be_val length]. unfold val8.
    repeat match goal with |- context [256 ^ Z.of_nat ?k] => let c := eval vm_compute in (256 ^ Z.of_nat k) in change (256 ^ Z.of_nat k) with c end.
    p2. ring. }
  rewrite <- V. clear V. clearbody s. pose proof (sv_range s U) as R.
  rewrite s_check_overflow_ok by exact U. refine (wp_let_any _ _ _ _); cbv beta.
  assert (N2 : 2 ^ 256 = n + NC) by reflexivity. assert (NCn : 0 < NC < n) by (split; reflexivity).
  destruct (Z.leb_spec n (sv s)) as [G|G]; cbn [b2z].
  - eapply wp_bind; [apply s_reduce_ok; [exact U | lia]|]. intros r [Ur Vr]. apply wp_some.
    rewrite Z.mul_1_l in Vr.
    assert (E : sv r = sv s - n) by (rewrite Vr; symmetry; apply (Z.mod_unique _ _ 1); lia).
    rewrite sub_n_mod by lia. split; [split; [exact Ur | lia]|]. split; [exact E | reflexivity].
  - eapply wp_bind; [apply s_reduce_ok; [exact U | lia]|]. intros r [Ur Vr]. apply wp_some.
    rewrite Z.mul_0_l, Z.add_0_r, Z.mod_small in Vr by lia.
    rewrite Z.mod_small by lia. split; [split; [exact Ur | lia]|]. split; [exact Vr | reflexivity].
Qed.

(** one carry step *)
Lemma split32 t N : 0 <= t <= N -> N < 2 ^ 64 -> as_u32 (Z.land t 4294967295) = t mod 4294967296 /\ Z.shiftr t 32 = t / 4294967296.
Proof.
  intros Ht HN. rewrite (land_mod t 4294967295 32) by (reflexivity || lia). unfold as_u32.
  rewrite Z.mod_mod by discriminate. rewrite Z.shiftr_div_pow2 by lia. split; reflexivity.
Qed.
Lemma sadd_step_ok t a b : 0 <= t <= 1 -> u32 a -> u32 b ->
  wp (sadd_step dbg t a b) (fun '(e, t') => u32 e /\ 0 <= t' <= 1 /\ e + 4294967296 * t' = t + a + b).
Proof.
  unfold u32. intros Ht Ha Hb. unfold sadd_step, add64.
  rewrite uchk_ok by (change (2 ^ 64) with 18446744073709551616; lia). cbn [bind].
  rewrite uchk_ok by (change (2 ^ 64) with 18446744073709551616; lia). cbn [bind]. apply wp_some.
  destruct (split32 (t + (a + b)) 8589934591 ltac:(lia) ltac:(reflexivity)) as [-> ->].
  Z.to_euclidean_division_equations. lia.
Qed.
Lemma s_add_ok a b : scan a -> scan b -> wp (s_add dbg a b) (fun r => scan r /\ sv r = (sv a + sv b) mod n).
Proof.
  intros A B. pose proof (scan_range _ A) as RA. pose proof (scan_range _ B) as RB.
  destruct a as [a0 a1 a2 a3 a4 a5 a6 a7], b as [b0 b1 b2 b3 b4 b5 b6 b7].
  destruct A as [(A0&A1&A2&A3&A4&A5&A6&A7) _], B as [(B0&B1&B2&B3&B4&B5&B6&B7) _].
  unfold s_add.
  do 8 (eapply wp_bind; [apply sadd_step_ok; [first [eassumption | lia] | assumption | assumption]|];
        let e := fresh "e" in let t := fresh "t" in let U := fresh "U" in let T := fresh "T" in let E := fresh "E" in
        intros [e t] (U & T & E); cbv beta iota).
  refine (wp_let_any _ _ _ _); cbv beta.
  assert (Us : s_u (Sc e e0 e1 e2 e3 e4 e5 e6)) by (cbn [s_u]; unfold u32x8; tauto).
  assert (V : sv (Sc e e0 e1 e2 e3 e4 e5 e6) + t6 * 2 ^ 256 = sv (Sc a0 a1 a2 a3 a4 a5 a6 a7) + sv (Sc b0 b1 b2 b3 b4 b5 b6 b7)).
  { clear RA RB. cbn [sv]. unfold val8. p2. lia. }
  eapply wp_mono; [apply (final_sub_ok dbg _ t6 Us T6); lia|].
  cbv beta. intros r [Hr Vr]. split; [exact Hr|]. rewrite Vr, V. reflexivity.
Qed.

Lemma cneg_step_ok t d c : 0 <= t <= 1 -> u32 d -> u32 c ->
  wp (cneg_step dbg t d c 4294967295 4294967295) (fun '(e, t') => u32 e /\ 0 <= t' <= 1 /\ e + 4294967296 * t' = t + (4294967295 - d) + c).
Proof.
  unfold u32. intros Ht Hd Hc. unfold cneg_step, add64.
  assert (X : Z.lxor d 4294967295 = 4294967295 - d).
  { change 4294967295 with (Z.ones 32).
    assert (Hb : forall i, 32 <= i -> Z.testbit d i = false).
    { intros i Hi. destruct (Z.eq_dec d 0) as [->|N0]; [apply Z.bits_0|].
      apply Z.bits_above_log2; [lia|]. apply Z.lt_le_trans with 32; [apply Z.log2_lt_pow2; [lia|]; change (2 ^ 32) with 4294967296; lia | lia]. }
    rewrite Z.sub_nocarry_ldiff.
    - apply Z.bits_inj'. intros i Hi. rewrite Z.lxor_spec, Z.ldiff_spec.
      destruct (Z.lt_ge_cases i 32).
      + rewrite Z.ones_spec_low by lia. destruct (Z.testbit d i); reflexivity.
      + rewrite Z.ones_spec_high by lia. rewrite Hb by lia. reflexivity.
    - apply Z.bits_inj'. intros i Hi. rewrite Z.ldiff_spec, Z.bits_0.
      destruct (Z.lt_ge_cases i 32).
      + rewrite Z.ones_spec_low by lia. apply andb_false_r.
      + rewrite Hb by lia. reflexivity. }
  rewrite X. rewrite (land_mod c 4294967295 32) by (reflexivity || lia). change (2 ^ 32) with 4294967296.
  rewrite (Z.mod_small c) by lia.
  rewrite uchk_ok by (change (2 ^ 64) with 18446744073709551616; lia). cbn [bind].
  rewrite uchk_ok by (change (2 ^ 64) with 18446744073709551616; lia). cbn [bind]. apply wp_some.
  destruct (split32 (t + (4294967295 - d + c)) 8589934591 ltac:(lia) ltac:(reflexivity)) as [-> ->].
  Z.to_euclidean_division_equations. lia.
Qed.
Lemma cneg_step_zero t d c m : 0 <= t <= 1 -> d = 0 -> (m = 0 \/ m = 4294967295) -> u32 c ->
  wp (cneg_step dbg t d c m 0) (fun '(e, t') => e = 0 /\ 0 <= t' <= 1).
Proof.
  unfold u32. intros Ht -> Hm Hc. unfold cneg_step, add64. rewrite Z.lxor_0_l.
  assert (0 <= Z.land c m <= 4294967295).
  { destruct Hm as [-> | ->]; [rewrite Z.land_0_r; lia|]. rewrite (land_mod c 4294967295 32) by (reflexivity || lia).
    change (2 ^ 32) with 4294967296. rewrite Z.mod_small by lia. lia. }
  rewrite uchk_ok by (change (2 ^ 64) with 18446744073709551616; lia). cbn [bind].
  rewrite uchk_ok by (change (2 ^ 64) with 18446744073709551616; lia). cbn [bind]. apply wp_some.
  rewrite Z.land_0_r. split; [reflexivity|]. rewrite Z.shiftr_div_pow2 by lia. change (2 ^ 32) with 4294967296.
  Z.to_euclidean_division_equations. lia.
Qed.
Lemma cneg_step_id t d c : t = 0 -> u32 d ->
  wp (cneg_step dbg t d c 0 4294967295) (fun '(e, t') => e = d /\ t' = 0).
Proof.
  unfold u32. intros -> Hd. unfold cneg_step, add64. rewrite Z.lxor_0_r, Z.land_0_r.
  rewrite uchk_ok by (change (2 ^ 64) with 18446744073709551616; lia). cbn [bind].
  rewrite uchk_ok by (change (2 ^ 64) with 18446744073709551616; lia). cbn [bind]. apply wp_some.
  destruct (split32 (0 + (d + 0)) 4294967295 ltac:(lia) ltac:(reflexivity)) as [-> ->].
  Z.to_euclidean_division_equations. lia.
Qed.

Lemma s_cond_neg_ok s flag : scan s ->
  wp (s_cond_neg dbg s flag) (fun r => scan r /\ sv r = if flag then (- sv s) mod n else sv s).
Proof.
  intros S. pose proof (scan_range _ S) as R. pose proof (s_is_zero_ok s (proj1 S)) as Z0.
  destruct s as [d0 d1 d2 d3 d4 d5 d6 d7]. destruct S as [U S]. pose proof U as U'. destruct U' as (D0&D1&D2&D3&D4&D5&D6&D7).
  unfold s_cond_neg.
  destruct (Z.eqb_spec (sv (Sc d0 d1 d2 d3 d4 d5 d6 d7)) 0) as [E|E].
  - rewrite Z0. do 3 (refine (wp_let_any _ _ _ _); cbv beta).
    assert (d0 = 0 /\ d1 = 0 /\ d2 = 0 /\ d3 = 0 /\ d4 = 0 /\ d5 = 0 /\ d6 = 0 /\ d7 = 0) as (?&?&?&?&?&?&?&?).
    { cbn [sv] in E. unfold val8, u32 in *. p2h. lia. }
    assert (M : (if flag then 4294967295 else 0) = 0 \/ (if flag then 4294967295 else 0) = 4294967295) by (destruct flag; auto).
    assert (T0 : 0 <= b2z flag <= 1) by (destruct flag; cbn; lia).
    do 8 (eapply wp_bind; [apply cneg_step_zero; [eassumption | assumption | exact M | split; discriminate]|];
        let e := fresh "e" in let t := fresh "t" in let U := fresh "U" in let T := fresh "T" in
        intros [e t] (U & T); cbv beta iota).
    apply wp_some. rewrite E. subst. split.
    + split; [cbn [s_u]; unfold u32x8, u32; lia | cbn; reflexivity].
    + destruct flag; reflexivity.
  - rewrite Z0. do 3 (refine (wp_let_any _ _ _ _); cbv beta).
    destruct flag; cbn [b2z].
    + assert (T0 : 0 <= 1 <= 1) by lia.
      do 8 (eapply wp_bind; [apply cneg_step_ok; [eassumption | assumption | split; discriminate]|];
        let e := fresh "e" in let t := fresh "t" in let U := fresh "U" in let T := fresh "T" in let E := fresh "E" in
        intros [e t] (U & T & E); cbv beta iota).
      apply wp_some.
      assert (Us : s_u (Sc e e0 e1 e2 e3 e4 e5 e6)) by (cbn [s_u]; unfold u32x8; tauto).
      pose proof (sv_range _ Us) as Rs.
      assert (V : sv (Sc e e0 e1 e2 e3 e4 e5 e6) + t6 * 2 ^ 256 = 2 ^ 256 - sv (Sc d0 d1 d2 d3 d4 d5 d6 d7) + n).
      { clear R Rs E S. cbn [sv]. rewrite n_eq. unfold val8, N_0, N_1, N_2, N_3, N_4, N_5, N_6, N_7 in *. p2. lia. }
      assert (sv (Sc e e0 e1 e2 e3 e4 e5 e6) = n - sv (Sc d0 d1 d2 d3 d4 d5 d6 d7)) as V'.
      { assert (n < 2 ^ 256) by (apply n_lt_2_256). lia. }
      split; [split; [exact Us | lia]|]. rewrite V'. apply (Z.mod_unique _ _ (-1)); lia.
    + do 8 (eapply wp_bind; [apply cneg_step_id; [first [eassumption | reflexivity] | assumption]|];
        let e := fresh "e" in let t := fresh "t" in let U := fresh "U" in let T := fresh "T" in
        intros [e t] (U & T); cbv beta iota).
      apply wp_some. subst. split; [split; assumption | reflexivity].
Qed.
Lemma s_neg_ok s : scan s -> wp (s_neg dbg s) (fun r => scan r /\ sv r = (- sv s) mod n).
Proof. intros S. unfold s_neg. apply (s_cond_neg_ok s true S). Qed.

(** powers *)
Definition srepx (x : Z) (s : scalar) (i : Z) : Prop := s_u s /\ sv s mod n = x ^ i mod n.
Lemma sx_mul x a b i j : srepx x a i -> srepx x b j -> (0 <=? i) = true -> (0 <=? j) = true ->
  wp (s_mul dbg a b) (fun r => srepx x r (i + j)).
Proof.
  intros [Ua Va] [Ub Vb] Hi Hj. apply Z.leb_le in Hi, Hj.
  eapply wp_mono; [apply s_mul_ok; assumption|]. cbv beta. intros r [[Ur _] Vr]. split; [exact Ur|].
  rewrite Vr, Z.mod_mod, Zmult_mod, Va, Vb, <- Zmult_mod, <- Z.pow_add_r by (assumption || (rewrite n_eq; discriminate)). reflexivity.
Qed.
Lemma sx_sqr x a i : srepx x a i -> (0 <=? i) = true -> wp (s_sqr dbg a) (fun r => srepx x r (2 * i)).
Proof.
  intros [Ua Va] Hi. apply Z.leb_le in Hi.
  eapply wp_mono; [apply s_sqr_ok; assumption|]. cbv beta. intros r [[Ur _] Vr]. split; [exact Ur|].
  replace (2 * i) with (i + i) by lia.
  rewrite Vr, Z.mod_mod, Zmult_mod, Va, <- Zmult_mod, <- Z.pow_add_r by (assumption || (rewrite n_eq; discriminate)). reflexivity.
Qed.
Lemma sx_sqr_n x k : forall a i, srepx x a i -> 0 <= i -> wp (s_sqr_n dbg k a) (fun r => srepx x r (i * 2 ^ Z.of_nat k)).
Proof.
  induction k as [|k IH]; intros a i H Hi; cbn [s_sqr_n].
  - apply wp_some. rewrite Z.pow_0_r, Z.mul_1_r. exact H.
  - eapply wp_bind; [apply (sx_sqr x a i H); apply Z.leb_le, Hi|]. intros y Y.
    eapply wp_mono; [apply (IH y (2 * i) Y); lia|]. cbv beta. intros r R.
    rewrite Nat2Z.inj_succ, Z.pow_succ_r by lia. replace (i * (2 * 2 ^ Z.of_nat k)) with (2 * i * 2 ^ Z.of_nat k) by ring. exact R.
Qed.
Lemma sx_sqr_n' x k a i : srepx x a i -> (0 <=? i) = true -> wp (s_sqr_n dbg k a) (fun r => srepx x r (i * 2 ^ Z.of_nat k)).
Proof. intros H Hi. apply sx_sqr_n; [exact H | apply Z.leb_le, Hi]. Qed.

Ltac sx_norm H :=
  cbv beta in H;
  lazymatch type of H with
  | srepx ?x ?r ?i => let i' := eval vm_compute in i in change (srepx x r i') in H
  end.
Ltac sx_fin := let r := fresh "r" in let R := fresh "R" in intros r R; sx_norm R.
Ltac sx_step :=
  lazymatch goal with
  | |- wp (bind (Some _) _) _ => refine (wp_let_any _ _ _ _)
  | |- wp (bind (s_sqr _ ?f) _) _ =>
      lazymatch goal with H : srepx ?x f ?i |- _ =>
        refine (wp_bind _ _ _ _ (sx_sqr x f i H eq_refl) _); sx_fin end
  | |- wp (bind (s_sqr_n _ ?k ?f) _) _ =>
      lazymatch goal with H : srepx ?x f ?i |- _ =>
        refine (wp_bind _ _ _ _ (sx_sqr_n' x k f i H eq_refl) _); sx_fin end
  | |- wp (bind (s_mul _ ?f ?g) _) _ =>
      match goal with H : srepx ?x f ?i, H' : srepx ?x g ?j |- _ =>
        refine (wp_bind _ _ _ _ (sx_mul x f g i j H H' eq_refl eq_refl) _); sx_fin end
  end; cbv beta.

Lemma inv_mod_fermat x : x ^ (n - 2) mod n = inv_mod n x.
Proof.
  pose proof prime_n as P. pose proof (prime_ge_2 n P) as G. pose proof n_eq as NE.
  destruct (Z.eq_dec (x mod n) 0) as [Z0|Z0].
  - unfold inv_mod. rewrite Z0. cbn [Z.eqb]. rewrite Zpower_mod, Z0, Z.pow_0_l, Z.mod_0_l by lia. reflexivity.
  - pose proof (inv_mod_ok n x P n_lt_2_256 Z0) as I.
    assert (Fm : x ^ (n - 1) mod n = 1).
    { apply fermat; [exact P|]. intros D. apply Z.mod_divide in D; lia. }
    replace (n - 1) with (n - 2 + 1) in Fm by lia. rewrite Z.pow_add_r, Z.pow_1_r in Fm by lia.
    pose proof (inv_mod_range n x ltac:(lia)) as R. rewrite <- (Z.mod_small (inv_mod n x) n) by exact R.
    replace (inv_mod n x mod n) with ((x ^ (n - 2) * (inv_mod n x * x)) mod n).
    + rewrite <- Zmult_mod_idemp_r, I, Z.mul_1_r. reflexivity.
    + replace (x ^ (n - 2) * (inv_mod n x * x)) with (x ^ (n - 2) * x * inv_mod n x) by ring.
      rewrite <- Zmult_mod_idemp_l, Fm, Z.mul_1_l. reflexivity.
Qed.
Lemma s_inv_ok x : s_u x -> wp (s_inv dbg x) (fun r => scan r /\ sv r = inv_mod n (sv x)).
Proof.
  intros U. unfold s_inv.
  assert (X : srepx (sv x) x 1) by (split; [exact U | rewrite Z.pow_1_r; reflexivity]).
  repeat sx_step.
  match goal with H : srepx _ ?t _ |- wp (s_mul _ ?t ?g) _ =>
    match goal with H' : srepx _ g _ |- _ => destruct H as [Ut Vt], H' as [Ug Vg] end end.
  eapply wp_mono; [apply s_mul_ok; assumption|]. cbv beta. intros r' [Sr Vr]. split; [exact Sr|].
  rewrite Vr, Zmult_mod, Vt, Vg, <- Zmult_mod, <- Z.pow_add_r by (apply Z.leb_le; reflexivity).
  rewrite <- inv_mod_fermat. f_equal.
Qed.
End B.
