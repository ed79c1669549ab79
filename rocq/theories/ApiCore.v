(** Predicates, constructors, conditional moves, clearing and error texts of the core types. *)
From Coq Require Import String.
From Verif Require Import Word MField MScalar MGroup MApi MCore WP FieldMul FieldNorm FieldStore Spec Fp Bits ScalarAcc ScalarMul ScalarOps FieldOps FieldCodec Denote Curve Group Chain Order Jac JacOps Key Unred ApiScalar ApiPub ApiGroup ApiArith ApiMore.
Open Scope Z_scope.

Ltac split_Forall H := repeat (apply Forall_cons_iff in H; let A := fresh "A" in destruct H as [A H]).
(** * Scalars *)
(** The predicates answer on the 256-bit value, also when it is not reduced; the threshold of [is_high] is (n-1)/2. *)
Lemma C72_scalar_predicates_pf : forall a, 0 <= a < 2 ^ 256 ->
  s_is_zero (scalar_of a) = (a =? 0) /\ s_is_one (scalar_of a) = (a =? 1) /\ s_is_even (scalar_of a) = Z.even a /\
  s_is_high (scalar_of a) = (n <=? 2 * a + 1) /\ (forall b, 0 <= b < 2 ^ 256 -> s_eqb (scalar_of a) (scalar_of b) = (a =? b)).
Proof.
  intros a R. split; [apply s_is_zero_eq, R|]. split; [|split; [|split]].
  - pose proof (scalar_of_u a) as U. pose proof (scalar_of_sv a R) as V. set (s := scalar_of a) in *. clearbody s. subst a.
    destruct s as [d0 d1 d2 d3 d4 d5 d6 d7]. destruct U as (D0&D1&D2&D3&D4&D5&D6&D7). cbn [s_is_one sv]. unfold val8, u32 in *.
    apply Bool.eq_iff_eq_true. rewrite !Z.eqb_eq. rewrite !Z.lor_eq_0_iff, Z.lxor_eq_0_iff. p2. lia.
  - rewrite s_is_even_ok by apply scalar_of_u. rewrite scalar_of_sv by exact R. reflexivity.
  - rewrite s_is_high_eq by exact R. pose proof half_n as [H H']. apply Bool.eq_iff_eq_true. rewrite !Z.leb_le. change ((n - 1) / 2) with halfn. lia.
  - intros b RB. apply Bool.eq_iff_eq_true. rewrite s_eqb_eq, Z.eqb_eq. split; [apply scalar_of_inj; assumption | intros ->; reflexivity].
Qed.
Lemma C72_scalar_predicates_example_pf : s_is_one (scalar_of (2 ^ 224 + 1)) = false /\ s_is_one (scalar_of 1) = true /\ s_is_even (scalar_of (n - 1)) = true /\ s_is_high (scalar_of (n - 1)) = true.
Proof. repeat split; vm_compute; reflexivity. Qed.

(** [cadd_bit] adds the bit if the flag is set.  A sum of n or more panics in debug builds and is
    left as it is (modulo 2^256) in release builds. *)
Lemma C72_cadd_bit_pf : forall dbg a bit (flag : bool), 0 <= a < 2 ^ 256 -> 0 <= bit < 256 ->
  let v := a + (if flag then 2 ^ bit else 0) in
  s_cadd_bit dbg (scalar_of a) bit flag = if dbg && (n <=? v) then None else Some (scalar_of (v mod 2 ^ 256)).
Proof.
  intros dbg a bit flag R B. cbv zeta. rewrite s_cadd_bit_any by assumption. destruct flag; cbn [b2z].
  - rewrite Z.mul_1_l. reflexivity.
  - rewrite Z.mul_0_l. reflexivity.
Qed.
Lemma C72_cadd_bit_example_pf : s_cadd_bit false (scalar_of (2 ^ 256 - 1)) 0 true = Some (scalar_of 0) /\ s_cadd_bit true (scalar_of (2 ^ 256 - 1)) 0 true = None.
Proof. split; vm_compute; reflexivity. Qed.

(** * Constructors *)
Lemma C72_scalar_int_pf : forall v, 0 <= v < 2 ^ 32 -> s_from_int v = scalar_of v.
Proof.
  intros v V. symmetry. apply sv_inj; [apply scalar_of_u | |].
  - cbn [s_u s_from_int]. unfold u32x8, u32. lia.
  - rewrite scalar_of_sv by lia. unfold s_from_int, sv, val8. lia.
Qed.
Lemma C72_scalar_int_example_pf : s_from_int 4294967295 = scalar_of 4294967295.
Proof. vm_compute. reflexivity. Qed.

(** [set_int]: a canonical element below 2^26; above, debug builds panic and release builds mark a
    limb that is too large as normalized. *)
Lemma C72_field_int_pf : forall dbg a, 0 <= a < 2 ^ 32 ->
  (a < 2 ^ 26 -> exists r, f_set_int dbg a = Some r /\ fcan r /\ fv r = a) /\
  (2 ^ 26 <= a -> f_set_int true a = None /\ exists r, f_set_int false a = Some r /\ fv r = a /\ ~ fcan r).
Proof.
  intros dbg a A. assert (V : fv (Fe a 0 0 0 0 0 0 0 0 0 1 true) = a) by (unfold fv, val10; lia). split; intros B.
  - change (2 ^ 26) with 67108864 in B. exists (Fe a 0 0 0 0 0 0 0 0 0 1 true). pose proof (fcan_small a ltac:(lia)) as C. split; [|split; [exact C | exact V]].
    unfold f_set_int. cbn [bind]. destruct dbg; [|reflexivity]. assert (E : f_verify (Fe a 0 0 0 0 0 0 0 0 0 1 true) = true) by (apply C). rewrite E. reflexivity.
  - change (2 ^ 26) with 67108864 in B.
    assert (F : f_verify (Fe a 0 0 0 0 0 0 0 0 0 1 true) = false).
    { unfold f_verify. rewrite (proj2 (Z.leb_gt a _)) by lia. rewrite andb_false_r. reflexivity. }
    split; [unfold f_set_int; cbn [bind]; rewrite F; reflexivity|]. exists (Fe a 0 0 0 0 0 0 0 0 0 1 true). split; [reflexivity|]. split; [exact V|].
    intros C. assert (E : f_verify (Fe a 0 0 0 0 0 0 0 0 0 1 true) = true) by (apply C). congruence.
Qed.
Lemma C72_field_int_example_pf : f_set_int true 67108863 = Some (Fe 67108863 0 0 0 0 0 0 0 0 0 1 true) /\ f_set_int true 67108864 = None.
Proof. split; reflexivity. Qed.

(** The element built from a larger integer is not the element of that value: encoding loses bits. *)
Lemma C72_field_int_refuted_pf : exists a r, 0 <= a < 2 ^ 32 /\ f_set_int false a = Some r /\ f_b32 false r = Some (be_bytes 32 0) /\ a <> 0.
Proof. exists 67108864, (Fe 67108864 0 0 0 0 0 0 0 0 0 1 true). repeat split; try lia; vm_compute; reflexivity. Qed.

Lemma f_new_storage d7 d6 d5 d4 d3 d2 d1 d0 : f_new d7 d6 d5 d4 d3 d2 d1 d0 = f_from_storage (Fs d0 d1 d2 d3 d4 d5 d6 d7).
Proof.
  unfold f_new, f_from_storage.
  assert (S : forall x k m, 0 <= k <= 26 -> m = 2 ^ (26 - k) - 1 -> shl32 (Z.land x m) k = Z.land (shl32 x k) 67108863).
  { intros x k m Hk ->. rewrite (land_mod _ (2 ^ (26 - k) - 1) (26 - k)) by (reflexivity || lia).
    assert (0 < 2 ^ k) by (apply Z.pow_pos_nonneg; lia). assert (0 < 2 ^ (26 - k)) by (apply Z.pow_pos_nonneg; lia).
    pose proof (lor_shl_land 0 x k Hk ltac:(lia)) as E. rewrite Z.lor_0_l, Z.add_0_l in E. rewrite E.
    unfold shl32. rewrite Z.shiftl_mul_pow2 by lia. rewrite Z.mod_small; [ring|].
    pose proof (Z.mod_pos_bound x (2 ^ (26 - k)) ltac:(lia)).
    assert (2 ^ (26 - k) * 2 ^ k = 2 ^ 26) by (rewrite <- Z.pow_add_r by lia; f_equal; lia).
    change (2 ^ 26) with 67108864 in *. change (2 ^ 32) with 4294967296. nia. }
  rewrite (S d1 6), (S d2 12), (S d3 18), (S d4 24), (S d5 4), (S d6 10), (S d7 16) by (reflexivity || lia).
  reflexivity.
Qed.

(** The word constructors: most significant word first. *)
Lemma C72_field_words_pf : forall d7 d6 d5 d4 d3 d2 d1 d0,
  Forall (fun d => 0 <= d < 2 ^ 32) [d0; d1; d2; d3; d4; d5; d6; d7] -> radix 32 [d0; d1; d2; d3; d4; d5; d6; d7] < p ->
  fcan (f_new d7 d6 d5 d4 d3 d2 d1 d0) /\ fv (f_new d7 d6 d5 d4 d3 d2 d1 d0) = radix 32 [d0; d1; d2; d3; d4; d5; d6; d7] /\
  f_from_storage (fs_new d7 d6 d5 d4 d3 d2 d1 d0) = f_new d7 d6 d5 d4 d3 d2 d1 d0.
Proof.
  intros d7 d6 d5 d4 d3 d2 d1 d0 D L. split_Forall D.
  assert (V : radix 32 [d0; d1; d2; d3; d4; d5; d6; d7] = val8 d0 d1 d2 d3 d4 d5 d6 d7) by (unfold val8; cbn [radix fold_right]; p2; ring).
  rewrite V in *. assert (U : u32x8 d0 d1 d2 d3 d4 d5 d6 d7) by (unfold u32x8, u32; repeat split; lia).
  pose proof (f_new_rep d7 d6 d5 d4 d3 d2 d1 d0 U L) as H. split; [apply H|]. split.
  - rewrite (fcrep_val _ _ H), val_toF, Z.mod_small; [reflexivity|]. unfold u32x8, u32, val8 in *. p2. lia.
  - symmetry. apply f_new_storage.
Qed.
Lemma C72_field_words_example_pf : fv (f_new 4294967295 4294967295 4294967295 4294967295 4294967295 4294967295 4294967294 4294966318) = p - 1.
Proof. vm_compute. reflexivity. Qed.

(** Points from coordinates: [new], [set_xy]; the Jacobian one has Z = 1. *)
Lemma C72_point_new_pf : forall fx fy x y, fok 6 fx -> fok 6 fy -> fv fx mod p = x -> fv fy mod p = y -> on_curve (Aff x y) ->
  key_at (af_new fx fy) (Aff x y) /\ af_set_xy fx fy = af_new fx fy /\ jac_at (j_new fx fy) (Aff x y).
Proof.
  intros fx fy x y X Y VX VY O. split; [|split; [reflexivity|]].
  - repeat (split; [assumption|]). split; [reflexivity|]. split; assumption.
  - assert (Z1 : fcrep (f_new 0 0 0 0 0 0 0 1) (toF 1)) by (apply (f_new_rep 0 0 0 0 0 0 0 1); [unfold u32x8, u32; lia | vmr]).
    assert (V1 : fv (f_new 0 0 0 0 0 0 0 1) = 1) by (vm_compute; reflexivity).
    split; [exact X|]. split; [exact Y|]. split; [eapply fok_mono; [apply Z1 | lia]|]. split; [exact O|]. cbn [j_new j_inf j_x j_y j_z]. rewrite V1.
    split; [reflexivity|]. split; [vmr|]. rewrite !Z.pow_1_l, !Z.mul_1_r by lia. subst x y. rewrite !Zmod_mod. split; reflexivity.
Qed.
Lemma C72_point_new_example_pf : key_at (af_new (af_x AFFINE_G) (af_y AFFINE_G)) G.
Proof. exact G_key. Qed.

(** * Conditional moves: all of the other value or nothing, including the bookkeeping fields *)
Lemma C72_cmov_pf :
  (forall f g, f_cmov f g true = g /\ f_cmov f g false = f) /\
  (forall f g, fs_cmov f g true = g /\ fs_cmov f g false = f) /\
  (forall f g, as_cmov f g true = g /\ as_cmov f g false = f).
Proof.
  split; [|split].
  - intros f g. rewrite !f_cmov_eq. split; reflexivity.
  - intros f g. rewrite !fs_cmov_eq. split; reflexivity.
  - intros [x y] [x' y']. unfold as_cmov. rewrite !fs_cmov_eq. split; reflexivity.
Qed.

Lemma C72_cmov_example_pf : f_cmov f_default (top_field 3) true = top_field 3 /\ f_cmov f_default (top_field 3) false = f_default /\ top_field 3 <> f_default.
Proof. split; [reflexivity|]. split; [reflexivity | discriminate]. Qed.

(** * Cleared and initial values *)
(** Cleared values do not depend on what was there; a cleared or default point is no point of the
    curve (it is not the point at infinity either), and no public key is made of it. *)
Lemma C72_clear_pf : (forall s, s_clear s = scalar_of 0) /\ (forall f, f_clear f = f_default /\ fcan (f_clear f) /\ fv (f_clear f) = 0) /\
  (forall a, af_clear a = af_default) /\ (forall j, j_clear j = j_default) /\
  (forall dbg, af_is_valid_var dbg af_default = Some false /\ pk_try_from dbg af_default = Some (Err InvalidAffine)) /\
  (forall m P, ~ aff_at m af_default P) /\ (forall P, ~ jac_at j_default P).
Proof.
  split; [intros []; vm_compute; reflexivity|]. split; [intros []; split; [reflexivity|]; split; [apply fcrep_default | reflexivity]|].
  split; [intros [[] [] ?]; reflexivity|]. split; [intros [[] [] [] ?]; reflexivity|]. 
  assert (NC : ~ on_curve (Aff 0 0)) by (intros (_ & _ & H); vm_compute in H; discriminate H).
  split; [|split].
  - intros []; split; vm_compute; reflexivity.
  - intros m [|x y] (_ & _ & O & H); [discriminate H|]. destruct H as (_ & HX & HY). apply NC. replace (Aff 0 0) with (Aff x y); [exact O|]. rewrite <- HX, <- HY. vm_compute. reflexivity.
  - intros [|x y] (_ & _ & _ & _ & H); [discriminate H|]. destruct H as (_ & H & _). apply H. vm_compute. reflexivity.
Qed.

Lemma C72_clear_example_pf : af_clear AFFINE_G = af_default /\ AFFINE_G <> af_default.
Proof. split; [reflexivity | discriminate]. Qed.

(** The two constants for the point at infinity and [set_infinity] denote it. *)
Lemma C72_infinity_pf : key_at AFFINE_INFINITY Inf /\ jac_at JACOBIAN_INFINITY Inf /\ jac_at j_set_infinity Inf.
Proof.
  assert (D : fok 6 f_default) by (apply (fok_mono 1 6); [exact (proj1 (fcrep1 _ _ fcrep_default)) | lia]).
  assert (Z0 : fok 6 (f_new 0 0 0 0 0 0 0 0)) by (eapply fok_mono; [apply (f_new_rep 0 0 0 0 0 0 0 0); [unfold u32x8, u32; lia | vmr] | lia]).
  split; [|split]; repeat (split; [first [exact D | exact Z0 | exact I]|]); reflexivity.
Qed.

(** * Errors *)
(** The text of an error tells which error it is. *)
Lemma C72_error_texts_pf : forall e e', error_display e = error_display e' -> e = e'.
Proof. intros [] []; intros H; first [reflexivity | discriminate H]. Qed.
Lemma C72_error_texts_example_pf : error_display TweakOutOfRange = "Tweak out of range"%string /\ error_display InvalidAffine <> error_display InvalidMessage.
Proof. split; [reflexivity | discriminate]. Qed.
