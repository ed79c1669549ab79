(** Reduction of 512-bit products; scalar multiplication and squaring. *)
From Verif Require Import Word MScalar WP ScalarAcc ScalarMul Spec Bits ScalarOps.

Section B.
Variable dbg : bool.

Ltac ncs := change N_C_0 with 801750719 in *; change N_C_1 with 1076732275 in *;
  change N_C_2 with 1354194884 in *; change N_C_3 with 1162945305 in *; change N_C_4 with 1 in *.

Lemma sub_n_mod T : n <= T < 2 * n -> T mod n = T - n.
Proof. intros H. symmetry. apply (Z.mod_unique T n 1); lia. Qed.

(** the common ending of addition and reduction: conditional subtraction of the order *)
Lemma final_sub_ok s c : s_u s -> 0 <= c <= 1 -> sv s + c * 2 ^ 256 < 2 * n ->
  wp (let! over := b2z (s_check_overflow s) in
      let* ch := choice_from dbg (as_u8 c) in
      let* o := choice_from dbg (Z.lor ch over) in
      s_reduce dbg s o) (fun r => scan r /\ sv r = (sv s + c * 2 ^ 256) mod n).
Proof.
  intros U C T. pose proof (sv_range s U) as R.
  rewrite s_check_overflow_ok by exact U. refine (wp_let_any _ _ _ _); cbv beta.
  assert (as_u8 c = c) as -> by (unfold as_u8; apply Z.mod_small; change (2 ^ 8) with 256; lia).
  unfold choice_from.
  assert (N2 : 2 ^ 256 = n + NC) by reflexivity. assert (NCn : 0 < NC < n) by (split; reflexivity).
  assert (c = 0 \/ c = 1) as [-> | ->] by lia; cbn [Z.eqb orb].
  - rewrite bind_dassert_true.
    cbn [bind]. rewrite Z.lor_0_l. destruct (Z.leb_spec n (sv s)) as [L|L]; cbn [b2z].
    + rewrite bind_dassert_true. cbn [bind].
      eapply wp_mono; [apply s_reduce_ok; [exact U | lia]|]. cbv beta. intros r [Ur Vr].
      rewrite Z.mul_1_l in Vr.
      assert (E : sv r = sv s - n).
      { rewrite Vr. symmetry. apply (Z.mod_unique _ _ 1); lia. }
      rewrite Z.mul_0_l, Z.add_0_r. rewrite sub_n_mod by lia. split; [split; [exact Ur | lia] | exact E].
    + rewrite bind_dassert_true. cbn [bind].
      eapply wp_mono; [apply s_reduce_ok; [exact U | lia]|]. cbv beta. intros r [Ur Vr].
      rewrite Z.mul_0_l, Z.add_0_r in *. rewrite Z.mod_small in Vr by lia.
      rewrite Z.mod_small by lia. split; [split; [exact Ur | lia] | exact Vr].
  - rewrite bind_dassert_true.
    assert (sv s < n) by lia. destruct (Z.leb_spec n (sv s)) as [L|L]; [lia|]. cbn [b2z].
    cbn [bind]. change (Z.lor 1 0) with 1. cbn [Z.eqb orb Pos.eqb]. rewrite bind_dassert_true. cbn [bind].
    eapply wp_mono; [apply s_reduce_ok; [exact U | lia]|]. cbv beta. intros r [Ur Vr].
    rewrite Z.mul_1_l in *. rewrite sub_n_mod by lia. rewrite Z.mod_small in Vr by lia.
    split; [split; [exact Ur | lia] | lia].
Qed.

Lemma s_red_c_ok p0 p1 p2 p3 p4 p5 p6 p7 p8 : u32x8 p0 p1 p2 p3 p4 p5 p6 p7 -> 0 <= p8 <= 2 ->
  wp (s_red_c dbg [p0; p1; p2; p3; p4; p5; p6; p7; p8])
     (fun r => scan r /\ sv r = (val8 p0 p1 p2 p3 p4 p5 p6 p7 + p8 * 2 ^ 256) mod n).
Proof.
  unfold u32x8, u32. intros (?&?&?&?&?&?&?&?) H8.
  unfold s_red_c. unfold_words. ncs.
  repeat wauto1.
  refine (wp_let_any _ _ _ _); cbv beta.
  lazymatch goal with |- context [s_check_overflow (Sc ?e0 ?e1 ?e2 ?e3 ?e4 ?e5 ?e6 ?e7)] =>
    assert (U : s_u (Sc e0 e1 e2 e3 e4 e5 e6 e7)) by (cbn [s_u]; unfold u32x8, u32; repeat split; lia);
    assert (R : 0 <= val8 e0 e1 e2 e3 e4 e5 e6 e7 < 2 ^ 256) by (apply (sv_range (Sc e0 e1 e2 e3 e4 e5 e6 e7)), U)
  end.
  lazymatch goal with |- wp (bind (Some (b2z (s_check_overflow ?S))) (fun _ => bind (choice_from _ (as_u8 ?c)) _)) _ =>
    assert (V : sv S + c * 2 ^ 256 = val8 p0 p1 p2 p3 p4 p5 p6 p7 + p8 * NC)
      by (cbn [sv]; clear U R; unfold val8, NC; p2; subst; lia);
    assert (BP : val8 p0 p1 p2 p3 p4 p5 p6 p7 < 2 ^ 256)
      by (apply (sv_range (Sc p0 p1 p2 p3 p4 p5 p6 p7)); cbn [s_u]; unfold u32x8, u32; tauto);
    assert (C : 0 <= c <= 1) by assumption;
    eapply wp_mono; [apply (final_sub_ok S c U C)|]
  end.
  - rewrite V. unfold n, NC. change (2 ^ 256) with 115792089237316195423570985008687907853269984665640564039457584007913129639936 in BP. lia.
  - cbv beta. intros r [Hra Hrb]. split; [exact Hra|]. rewrite Hrb, V.
    replace (2 ^ 256) with (n + NC) by reflexivity.
    replace (val8 p0 p1 p2 p3 p4 p5 p6 p7 + p8 * (n + NC)) with (val8 p0 p1 p2 p3 p4 p5 p6 p7 + p8 * NC + p8 * n) by ring.
    rewrite Z.mod_add by discriminate. reflexivity.
Qed.

Lemma val_l_8 d0 d1 d2 d3 d4 d5 d6 d7 : val_l [d0; d1; d2; d3; d4; d5; d6; d7] = val8 d0 d1 d2 d3 d4 d5 d6 d7.
Proof. cbn [val_l]. unfold val8. ring. Qed.
Lemma val_l_app l1 l2 : val_l (l1 ++ l2) = val_l l1 + 4294967296 ^ Z.of_nat (length l1) * val_l l2.
Proof.
  induction l1 as [|d t IH]; cbn [app val_l length]; [rewrite Z.pow_0_r; lia|].
  rewrite IH, Nat2Z.inj_succ, Z.pow_succ_r by lia. ring.
Qed.
Lemma val_l_range l : Forall u32 l -> 0 <= val_l l < 4294967296 ^ Z.of_nat (length l).
Proof.
  induction l as [|d t IH]; intros H; [cbn; lia|].
  inversion_clear H as [|? ? Hd Ht]. specialize (IH Ht). cbn [val_l length].
  rewrite Nat2Z.inj_succ, Z.pow_succ_r by lia. unfold u32 in Hd. nia.
Qed.

Lemma s_reduce_512_ok l : length l = 16%nat -> Forall u32 l ->
  wp (s_reduce_512 dbg l) (fun r => scan r /\ sv r = val_l l mod n).
Proof.
  intros L F. unfold s_reduce_512.
  rewrite <- (firstn_skipn 8 l) in F |- *. set (lo := firstn 8 l) in *. set (hi := skipn 8 l) in *.
  assert (Llo : length lo = 8%nat) by (unfold lo; rewrite firstn_length, L; reflexivity).
  assert (Lhi : length hi = 8%nat) by (unfold hi; rewrite skipn_length, L; reflexivity).
  clearbody lo hi. clear l L. apply Forall_app in F. destruct F as [F1 F2].
  pose proof (val_l_range lo F1) as R1. pose proof (val_l_range hi F2) as R2.
  rewrite Llo in R1. rewrite Lhi in R2.
  change (4294967296 ^ Z.of_nat 8) with (2 ^ 256) in *.
  eapply wp_bind; [apply s_red_a_ok; assumption|]. intros m (Lm & Fm & Vm).
  rewrite <- (firstn_skipn 8 m) in Fm, Vm |- *. set (mlo := firstn 8 m) in *. set (mhi := skipn 8 m) in *.
  assert (Lmlo : length mlo = 8%nat) by (unfold mlo; rewrite firstn_length, Lm; reflexivity).
  assert (Lmhi : length mhi = 5%nat) by (unfold mhi; rewrite skipn_length, Lm; reflexivity).
  clearbody mlo mhi. clear m Lm. apply Forall_app in Fm. destruct Fm as [Fm1 Fm2].
  pose proof (val_l_range mlo Fm1) as Rm1. rewrite Lmlo in Rm1. 
  rewrite val_l_app, Lmlo in Vm.
  change (4294967296 ^ Z.of_nat 8) with (2 ^ 256) in *.
  assert (HB : val_l mhi <= NC).
  { clear - Vm R1 R2 Rm1. unfold NC in *. change (2 ^ 256) with 115792089237316195423570985008687907853269984665640564039457584007913129639936 in *. lia. }
  eapply wp_bind; [apply s_red_b_ok; assumption|]. intros q (Lq & Fq & Vq & Q8).
  do 9 (destruct q as [|? q]; [discriminate Lq|]). destruct q; [|discriminate Lq].
  unfold u32 in Fq. repeat match goal with F : Forall _ (_ :: _) |- _ => inversion_clear F end. cbn [nth] in Q8.
  eapply wp_mono; [apply s_red_c_ok; [unfold u32x8, u32; tauto | lia]|].
  cbv beta. intros r [Hra Hrb]. split; [exact Hra|]. rewrite Hrb.
  change [z; z0; z1; z2; z3; z4; z5; z6; z7] with ([z; z0; z1; z2; z3; z4; z5; z6] ++ [z7]) in Vq.
  rewrite val_l_app, val_l_8 in Vq. cbn [length val_l] in Vq. change (4294967296 ^ Z.of_nat 8) with (2 ^ 256) in Vq.
  rewrite val_l_app, Llo. change (4294967296 ^ Z.of_nat 8) with (2 ^ 256).
  replace (val8 z z0 z1 z2 z3 z4 z5 z6 + z7 * 2 ^ 256) with (val_l mlo + val_l mhi * NC) by lia.
  replace (2 ^ 256) with (n + NC) in * by reflexivity.
  replace (val_l lo + (n + NC) * val_l hi) with (val_l mlo + val_l mhi * NC + (val_l mhi + val_l hi) * n) by lia.
  rewrite Z.mod_add by discriminate. reflexivity.
Qed.

Lemma s_mul_ok a b : s_u a -> s_u b -> wp (s_mul dbg a b) (fun r => scan r /\ sv r = (sv a * sv b) mod n).
Proof.
  intros A B. unfold s_mul. eapply wp_bind; [apply s_mul_512_ok; assumption|].
  intros l (L & F & V). rewrite <- V. apply s_reduce_512_ok; assumption.
Qed.
Lemma s_sqr_ok a : s_u a -> wp (s_sqr dbg a) (fun r => scan r /\ sv r = (sv a * sv a) mod n).
Proof.
  intros A. unfold s_sqr. eapply wp_bind; [apply s_sqr_512_ok; assumption|].
  intros l (L & F & V). rewrite <- V. apply s_reduce_512_ok; assumption.
Qed.
End B.
