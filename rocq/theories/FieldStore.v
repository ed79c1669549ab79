(** The 8x32 storage form of field elements. *)
From Verif Require Import Word MField WP FieldMul FieldNorm FieldZero Spec Fp Bits FieldOps FieldCodec.

Definition fsv (s : fstorage) : Z :=
  match s with Fs d0 d1 d2 d3 d4 d5 d6 d7 => val8 d0 d1 d2 d3 d4 d5 d6 d7 end.
Definition fs_ok (s : fstorage) : Prop :=
  match s with Fs d0 d1 d2 d3 d4 d5 d6 d7 => u32x8 d0 d1 d2 d3 d4 d5 d6 d7 end.

Lemma lor_shl_mod a b k : 0 <= k <= 32 -> 0 <= a < 2 ^ k -> Z.lor a (shl32 b k) = a + 2 ^ k * (b mod 2 ^ (32 - k)).
Proof.
  intros Hk Ha. unfold shl32. rewrite Z.shiftl_mul_pow2 by lia.
  replace (2 ^ 32) with (2 ^ (32 - k) * 2 ^ k) by (rewrite <- Z.pow_add_r by lia; f_equal; lia).
  assert (0 < 2 ^ k) by (apply Z.pow_pos_nonneg; lia). assert (0 < 2 ^ (32 - k)) by (apply Z.pow_pos_nonneg; lia).
  rewrite Z.mul_mod_distr_r by lia. rewrite lor_add by lia. ring.
Qed.
Lemma lor_shl_land a b k : 0 <= k <= 26 -> 0 <= a < 2 ^ k ->
  Z.lor a (Z.land (shl32 b k) 67108863) = a + 2 ^ k * (b mod 2 ^ (26 - k)).
Proof.
  intros Hk Ha. unfold shl32. rewrite Z.shiftl_mul_pow2 by lia.
  rewrite (land_mod _ 67108863 26) by (reflexivity || lia).
  assert (0 < 2 ^ k) by (apply Z.pow_pos_nonneg; lia). assert (0 < 2 ^ (26 - k)) by (apply Z.pow_pos_nonneg; lia).
  change (2 ^ 32) with (2 ^ 26 * 2 ^ 6). rewrite Z.rem_mul_r by (reflexivity || discriminate).
  rewrite (Z.mul_comm (2 ^ 26)), Z.mod_add, Z.mod_mod by discriminate.
  replace (2 ^ 26) with (2 ^ (26 - k) * 2 ^ k) by (rewrite <- Z.pow_add_r by lia; f_equal; lia).
  rewrite Z.mul_mod_distr_r by lia. rewrite lor_add by lia. ring.
Qed.

Ltac p2 := repeat match goal with |- context [2 ^ ?k] => let c := eval vm_compute in (2 ^ k) in change (2 ^ k) with c end.
Ltac p2h := repeat match goal with H : context [2 ^ ?k] |- _ => let c := eval vm_compute in (2 ^ k) in change (2 ^ k) with c in H end.

(** cut [x] at bit [k]: replace [x mod 2^k] and [x / 2^k] by fresh variables *)
Ltac cut x k :=
  let c := eval vm_compute in (2 ^ k) in
  let h := fresh "h" in let l := fresh "l" in
  let D := fresh "D" in let M := fresh "M" in
  pose proof (Z.div_mod x c ltac:(discriminate)) as D;
  pose proof (Z.mod_pos_bound x c eq_refl) as M;
  set (h := x / c) in *; set (l := x mod c) in *; clearbody h l.

Lemma f_from_storage_val s : fs_ok s ->
  match f_from_storage s with Fe n0 n1 n2 n3 n4 n5 n6 n7 n8 n9 m nrm =>
    lim26 n0 n1 n2 n3 n4 n5 n6 n7 n8 /\ 0 <= n9 <= 4194303 /\ m = 1 /\ nrm = true /\
    val10 n0 n1 n2 n3 n4 n5 n6 n7 n8 n9 = fsv s end.
Proof.
  destruct s as [d0 d1 d2 d3 d4 d5 d6 d7]. cbn [fs_ok fsv]. unfold u32x8, u32. intros (H0&H1&H2&H3&H4&H5&H6&H7).
  unfold f_from_storage.
  assert (S : forall x k, 0 <= k <= 32 -> 0 <= x <= 4294967295 -> 0 <= x / 2 ^ k < 2 ^ (32 - k)).
  { intros x k Hk Hx. assert (0 < 2 ^ k) by (apply Z.pow_pos_nonneg; lia). split; [apply Z.div_pos; lia|].
    apply Z.div_lt_upper_bound; [lia|]. rewrite <- Z.pow_add_r by lia. replace (k + (32 - k)) with 32 by lia. change (2 ^ 32) with 4294967296. lia. }
  rewrite !Z.shiftr_div_pow2 by lia.
  rewrite !lor_shl_land by (first [lia | apply S; lia]).
  rewrite !(land_mod _ 67108863 26) by (reflexivity || lia).
  pose proof (S d0 26 ltac:(lia) ltac:(lia)) as B0. pose proof (S d1 20 ltac:(lia) ltac:(lia)) as B1.
  pose proof (S d2 14 ltac:(lia) ltac:(lia)) as B2. pose proof (S d3 8 ltac:(lia) ltac:(lia)) as B3.
  pose proof (S d4 2 ltac:(lia) ltac:(lia)) as B4. pose proof (S d4 28 ltac:(lia) ltac:(lia)) as B4'.
  pose proof (S d5 22 ltac:(lia) ltac:(lia)) as B5. pose proof (S d6 16 ltac:(lia) ltac:(lia)) as B6.
  pose proof (S d7 10 ltac:(lia) ltac:(lia)) as B7. clear S.
  replace (d4 / 2 ^ 28) with (d4 / 2 ^ 2 / 2 ^ 26) in * by (rewrite Z.div_div by lia; reflexivity).
  replace (26 - 6) with 20 by reflexivity. replace (26 - 12) with 14 by reflexivity.
  replace (26 - 18) with 8 by reflexivity. replace (26 - 24) with 2 by reflexivity.
  replace (26 - 4) with 22 by reflexivity. replace (26 - 10) with 16 by reflexivity. replace (26 - 16) with 10 by reflexivity.
  p2h. unfold lim26, val10, val8. p2.
  cut d0 26. cut d1 20. cut d2 14. cut d3 8. cut d4 2. cut h3 26. cut d5 22. cut d6 16. cut d7 10.
  repeat split; try lia.
Qed.

Lemma f_from_storage_rep s : fs_ok s -> fsv s < p -> fcrep (f_from_storage s) (toF (fsv s)).
Proof.
  intros H L. pose proof (f_from_storage_val s H) as V.
  destruct (f_from_storage s) as [n0 n1 n2 n3 n4 n5 n6 n7 n8 n9 m nrm].
  destruct V as (A & B & -> & -> & V).
  split; [apply canon_fcan; cbn [canon]; rewrite V, fp_p; tauto|]. unfold fe. cbn [fv]. rewrite V. reflexivity.
Qed.

Lemma f_to_storage_rep dbg f e : fcrep f e ->
  wp (f_to_storage dbg f) (fun s => fs_ok s /\ fsv s = val e).
Proof.
  intros H. pose proof (fcrep_val _ _ H) as V. pose proof (fcan_lim _ (proj1 H)) as L.
  unfold f_to_storage. apply wp_dassert; [apply H|].
  destruct f as [n0 n1 n2 n3 n4 n5 n6 n7 n8 n9 m nrm]. clear H. cbn [fv] in V.
  destruct L as [(L0 & L1 & L2 & L3 & L4 & L5 & L6 & L7 & L8) L9].
  apply wp_some. cbn [fs_ok fsv]. rewrite <- V. clear V.
  assert (S : forall x k j, k + j = 26 -> 0 <= k -> 0 <= j -> 0 <= x <= 67108863 -> 0 <= x / 2 ^ k < 2 ^ j).
  { intros x k j Hk ? ? Hx. assert (0 < 2 ^ k) by (apply Z.pow_pos_nonneg; lia). split; [apply Z.div_pos; lia|].
    apply Z.div_lt_upper_bound; [lia|]. rewrite <- Z.pow_add_r by lia. rewrite Hk. change (2 ^ 26) with 67108864. lia. }
  rewrite !Z.shiftr_div_pow2 by lia.
  rewrite (lor_shl_mod n0 n1 26) by (p2; lia).
  rewrite (lor_shl_mod (n1 / 2 ^ 6) n2 20) by (first [apply S; lia | lia]).
  rewrite (lor_shl_mod (n2 / 2 ^ 12) n3 14) by (first [apply S; lia | lia]).
  rewrite (lor_shl_mod (n3 / 2 ^ 18) n4 8) by (first [apply S; lia | lia]).
  pose proof (S n4 24 2 eq_refl ltac:(lia) ltac:(lia) L4) as B4.
  rewrite (lor_shl_mod (n4 / 2 ^ 24) n5 2) by (first [apply S; lia | lia]).
  rewrite (Z.mod_small n5) by (p2; lia).
  rewrite (lor_shl_mod _ n6 28) by (p2h; p2; lia).
  rewrite (lor_shl_mod (n6 / 2 ^ 4) n7 22) by (first [apply S; lia | lia]).
  rewrite (lor_shl_mod (n7 / 2 ^ 10) n8 16) by (first [apply S; lia | lia]).
  rewrite (lor_shl_mod (n8 / 2 ^ 16) n9 10) by (first [apply S; lia | lia]).
  clear S B4. change (32 - 26) with 6. change (32 - 20) with 12. change (32 - 14) with 18. change (32 - 8) with 24.
  change (32 - 28) with 4. change (32 - 22) with 10. change (32 - 16) with 16. change (32 - 10) with 22.
  rewrite (Z.mod_small n9) by (p2; lia).
  unfold u32x8, u32, val8, val10. p2.
  cut n1 6. cut n2 12. cut n3 18. cut n4 24. cut n6 4. cut n7 10. cut n8 16.
  repeat split; try lia.
Qed.

Lemma f_storage_roundtrip dbg f e : fcrep f e ->
  wp (f_to_storage dbg f) (fun s => fs_ok s /\ fsv s = val e /\ fcrep (f_from_storage s) e).
Proof.
  intros H. eapply wp_mono; [apply f_to_storage_rep; exact H|]. cbv beta. intros s [A B].
  split; [exact A|]. split; [exact B|]. rewrite <- (toF_val e), <- B. apply f_from_storage_rep; [exact A|].
  rewrite B. apply val_range.
Qed.

(** [Field::new] from eight 32-bit words *)
Lemma f_new_rep d7 d6 d5 d4 d3 d2 d1 d0 : u32x8 d0 d1 d2 d3 d4 d5 d6 d7 -> val8 d0 d1 d2 d3 d4 d5 d6 d7 < p ->
  fcrep (f_new d7 d6 d5 d4 d3 d2 d1 d0) (toF (val8 d0 d1 d2 d3 d4 d5 d6 d7)).
Proof.
  intros H L. assert (E : f_new d7 d6 d5 d4 d3 d2 d1 d0 = f_from_storage (Fs d0 d1 d2 d3 d4 d5 d6 d7)).
  { unfold f_new, f_from_storage.
    assert (S : forall x k m, 0 <= k <= 26 -> m = 2 ^ (26 - k) - 1 -> shl32 (Z.land x m) k = Z.land (shl32 x k) 67108863).
    { intros x k m Hk ->. rewrite (land_mod _ (2 ^ (26 - k) - 1) (26 - k)) by (reflexivity || lia).
      assert (0 < 2 ^ k) by (apply Z.pow_pos_nonneg; lia). assert (0 < 2 ^ (26 - k)) by (apply Z.pow_pos_nonneg; lia).
      pose proof (lor_shl_land 0 x k Hk ltac:(lia)) as E. rewrite Z.lor_0_l, Z.add_0_l in E. rewrite E.
      unfold shl32. rewrite Z.shiftl_mul_pow2 by lia. rewrite Z.mod_small; [ring|].
      pose proof (Z.mod_pos_bound x (2 ^ (26 - k)) ltac:(lia)).
      assert (2 ^ (26 - k) * 2 ^ k = 2 ^ 26) by (rewrite <- Z.pow_add_r by lia; f_equal; lia).
      change (2 ^ 26) with 67108864 in *. change (2 ^ 32) with 4294967296. nia. }
    rewrite (S d1 6), (S d2 12), (S d3 18), (S d4 24), (S d5 4), (S d6 10), (S d7 16) by (reflexivity || lia).
    reflexivity. }
  rewrite E. apply f_from_storage_rep; assumption.
Qed.
