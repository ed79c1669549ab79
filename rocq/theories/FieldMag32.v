(** Normalizing an element of magnitude 32 in a debug build. *)
From Verif Require Import Word WP MField FieldMul FieldNorm.

(** The limbs after the first two carries. *)
Definition carried (f : field) : Prop :=
  match f with Fe n0 n1 n2 n3 n4 n5 n6 n7 n8 n9 _ _ =>
    0 <= n0 <= 67108863 /\ 0 <= n1 <= 4294967295 /\ 0 <= n2 <= 4294967232 /\
    0 <= n3 <= 4294967232 /\ 0 <= n4 <= 4294967232 /\ 0 <= n5 <= 4294967232 /\
    0 <= n6 <= 4294967232 /\ 0 <= n7 <= 4294967232 /\ 0 <= n8 <= 4294967232 /\
    0 <= n9 <= 4194303 end.
Lemma f_normalize_ok32 dbg f : carried f ->
  wp (f_normalize dbg f) (fun r => canon r /\ fv r = fv f mod fp).
Proof.
  destruct f as [n0 n1 n2 n3 n4 n5 n6 n7 n8 n9 mg nrm].
  unfold carried; intros (?&?&?&?&?&?&?&?&?&?).
  unfold f_normalize; unfold_words.
  repeat nstep.
  subst x10.
  assert (V1 : val10 x5 x7 x9 x12 x14 x16 x18 x20 x22 x21 = val10 n0 n1 n2 n3 n4 n5 n6 n7 n8 n9 - x * fp).
  { clear_bounds; unfold val10, fp; subst; ring. }
  assert (L : lim26 x5 x7 x9 x12 x14 x16 x18 x20 x22) by (unfold lim26; tauto).
  rewrite (final_flag' x5 x7 x9 x12 x14 x16 x18 x20 x22 x21 x25 h9 L ltac:(lia) ltac:(lia) ltac:(lia)).
  revert V1. clear_eqs. remember (val10 x5 x7 x9 x12 x14 x16 x18 x20 x22 x21) as V eqn:EV. intros V1.
  assert (HV : V <= 4194366 * 2 ^ 234 + 2 ^ 234 - 1 /\ 0 <= V) by (unfold val10, lim26 in *; lia).
  refine (wp_let_any _ _ _ _); cbv beta.
  remember (b2z (fp <=? V)) as y eqn:Ey.
  assert (By : 0 <= y <= 1) by (subst y; destruct (fp <=? V); cbn; lia).
  repeat nstep.
  match goal with |- wp (bind (dassert _ (Z.shiftr ?t 22 =? y)) _) _ => rename t into T9 end.
  match goal with |- context [Fe ?r0 ?r1 ?r2 ?r3 ?r4 ?r5 ?r6 ?r7 ?r8 _ 1 true] =>
    assert (V2 : val10 r0 r1 r2 r3 r4 r5 r6 r7 r8 T9 = V + y * (2 ^ 32 + 977));
    [clear V1 Ey; clear_bounds; subst; unfold val10; ring|];
    assert (L2 : lim26 r0 r1 r2 r3 r4 r5 r6 r7 r8) by (unfold lim26; tauto);
    assert (HT : Z.shiftr T9 22 = y);
    [| rewrite HT]
  end.
  { apply shiftr_is; [|lia]. clear - V2 L2 Ey HV.
    unfold lim26, val10, fp in *; destruct (_ <=? V) eqn:E; cbn [b2z] in Ey; subst y;
    [apply Z.leb_le in E | apply Z.leb_gt in E]; lia. }
  refine (wp_dassert _ _ _ _ _ _); [apply Z.eqb_refl|].
  destruct (split_at 22 4194303 T9 _ ltac:(eassumption) eq_refl eq_refl) as (hh & ll & Eh & -> & Ell & _ & Bll).
  assert (hh = y) as -> by congruence.
  refine (wp_let_any _ _ _ _); cbv beta.
  refine (wp_let_any _ _ _ _); cbv beta.
  match goal with |- context [dassert _ (f_verify ?R)] => set (r := R) end.
  assert (Vr : fv r = V - y * fp).
  { clear - V2 Ell. cbn [fv r]. unfold val10, fp in *. lia. }
  assert (C : canon r).
  { cbn [canon r]. repeat (split; [assumption || (apply L2)|]). split; [|split; reflexivity].
    change (fv r < fp). rewrite Vr. clear - Ey HV. unfold fp in *.
    destruct (_ <=? V) eqn:E; cbn [b2z] in Ey; subst y; [apply Z.leb_le in E | apply Z.leb_gt in E]; lia. }
  refine (wp_dassert _ _ _ _ _ _); [exact (canon_verify _ C)|].
  apply wp_some; split; [exact C|].
  apply (mod_fp_unique _ (x + y)); [|apply canon_range; exact C].
  rewrite Vr, V1. cbn [fv]. ring.
Qed.
Lemma f_normalize_weak_raw32 dbg f : carried f -> f_norm f = false ->
  wp (f_normalize_weak dbg f) (fun r => fok 1 r /\ f_mag r = 1 /\ f_norm r = false /\ exists k, fv r = fv f - k * fp).
Proof.
  destruct f as [n0 n1 n2 n3 n4 n5 n6 n7 n8 n9 mg nrm].
  unfold carried; cbn [f_norm]; intros (?&?&?&?&?&?&?&?&?&?) ->.
  unfold f_normalize_weak; unfold_words.
  repeat nstep.
  match goal with |- context [dassert _ (f_verify ?R)] => set (r := R) end.
  assert (V1 : fv r = val10 n0 n1 n2 n3 n4 n5 n6 n7 n8 n9 - x * fp).
  { clear_bounds; unfold fv, r, val10, fp; subst; ring. }
  assert (C : f_verify r = true) by (apply verify_weak; lia).
  refine (wp_dassert _ _ _ _ _ _); [exact C|].
  apply wp_some. split; [|split; [reflexivity|split; [reflexivity | exists x; exact V1]]].
  split; [cbn [fnn r]; lia|]. split; [exact C | cbn; lia].
Qed.
Lemma f_normalize_var_ok32 dbg f : carried f ->
  wp (f_normalize_var dbg f) (fun r => canon r /\ fv r = fv f mod fp).
Proof.
  destruct f as [n0 n1 n2 n3 n4 n5 n6 n7 n8 n9 mg nrm].
  unfold carried; intros (?&?&?&?&?&?&?&?&?&?).
  unfold f_normalize_var; unfold_words.
  repeat nstep.
  subst x10.
  assert (V1 : val10 x5 x7 x9 x12 x14 x16 x18 x20 x22 x21 = val10 n0 n1 n2 n3 n4 n5 n6 n7 n8 n9 - x * fp).
  { clear_bounds; unfold val10, fp; subst; ring. }
  assert (L : lim26 x5 x7 x9 x12 x14 x16 x18 x20 x22) by (unfold lim26; tauto).
  rewrite (final_flag' x5 x7 x9 x12 x14 x16 x18 x20 x22 x21 x25 h9 L ltac:(lia) ltac:(lia) ltac:(lia)).
  revert V1. clear_eqs. remember (val10 x5 x7 x9 x12 x14 x16 x18 x20 x22 x21) as V eqn:EV. intros V1.
  assert (HV : V <= 4194366 * 2 ^ 234 + 2 ^ 234 - 1 /\ 0 <= V) by (unfold val10, lim26 in *; lia).
  refine (wp_let_any _ _ _ _); cbv beta.
  destruct (fp <=? V) eqn:EF; cbn [b2z]; [apply Z.leb_le in EF | apply Z.leb_gt in EF].
  - change (0 <? 1) with true. change (shl32 1 6) with 64. cbv iota.
    eapply wp_bind.
    { repeat nstep.
      match goal with |- wp (bind (dassert _ (Z.shiftr ?t 22 =? _)) _) _ => rename t into T9 end.
      match goal with |- context [Fe ?r0 ?r1 ?r2 ?r3 ?r4 ?r5 ?r6 ?r7 ?r8 _ 1 true] =>
        assert (V2 : val10 r0 r1 r2 r3 r4 r5 r6 r7 r8 T9 = V + (2 ^ 32 + 977));
        [clear V1; clear_bounds; subst; unfold val10; ring|];
        assert (L2 : lim26 r0 r1 r2 r3 r4 r5 r6 r7 r8) by (unfold lim26; tauto);
        assert (HT : Z.shiftr T9 22 = 1);
        [| rewrite HT]
      end.
      { apply shiftr_is; [|lia]. clear - V2 L2 HV EF.
        unfold lim26, val10, fp in *; lia. }
      refine (wp_dassert _ _ _ _ _ _); [apply Z.eqb_refl|].
      destruct (split_at 22 4194303 T9 _ ltac:(eassumption) eq_refl eq_refl) as (hh & ll & Eh & -> & Ell & _ & Bll).
      assert (hh = 1) as -> by congruence.
      refine (wp_let_any _ _ _ _); cbv beta.
      apply wp_some.
      match goal with |- ?P ?R => set (r := R) end.
      assert (Vr : fv r = V - fp).
      { clear - V2 Ell. cbn [fv r]. unfold val10, fp in *. lia. }
      assert (C : canon r).
      { cbn [canon r]. repeat (split; [assumption || (apply L2)|]). split; [|split; reflexivity].
        change (fv r < fp). rewrite Vr. clear - EF HV. unfold fp in *. lia. }
      instantiate (1 := fun r => canon r /\ fv r = V - fp). split; assumption. }
    intros r (C & Vr). cbv beta.
    refine (wp_dassert _ _ _ _ _ _); [exact (canon_verify _ C)|].
    apply wp_some; split; [exact C|].
    apply (mod_fp_unique _ (x + 1)); [|apply canon_range; exact C].
    rewrite Vr, V1. cbn [fv]. ring.
  - change (0 <? 0) with false. cbv iota.
    refine (wp_let_any _ _ _ _); cbv beta.
    match goal with |- context [dassert _ (f_verify ?R)] => set (r := R) end.
    assert (C : canon r).
    { cbn [canon r]. split; [exact L|]. split; [unfold lim26, val10, fp in *; lia|].
      split; [|split; reflexivity]. rewrite <- EV. exact EF. }
    refine (wp_dassert _ _ _ _ _ _); [exact (canon_verify _ C)|].
    apply wp_some; split; [exact C|].
    apply (mod_fp_unique _ x); [|apply canon_range; exact C].
    cbn [fv r]. rewrite <- EV, V1. ring.
Qed.

Lemma uchk_true w a c : uchk w true a = Some c -> c = a /\ 0 <= a < 2 ^ w.
Proof. unfold uchk. destruct (Z.leb_spec 0 a); [|discriminate]. destruct (Z.ltb_spec a (2 ^ w)); [|discriminate]. intros [= <-]. lia. Qed.
Lemma add32_0 a : 0 <= a <= 4294967295 -> add32 true a 0 = Some a.
Proof. intros H. unfold add32, uchk. rewrite Z.add_0_r, (proj2 (Z.leb_le 0 a)), (proj2 (Z.ltb_lt a (2 ^ 32))) by lia. reflexivity. Qed.
(** The first two carries, common to the three normalizations. *)
Definition head (k : Z -> Z -> Z -> option field) (t0 t1 t9 : Z) : option field :=
  let! x := (Z.shiftr t9 22) in
  let! t9 := (Z.land t9 4194303) in
  let* q1 := mul32 true x 977 in
  let* t0 := add32 true t0 q1 in
  let* t1 := add32 true t1 (shl32 x 6) in
  let* t1 := add32 true t1 (Z.shiftr t0 26) in
  let! t0 := (Z.land t0 67108863) in
  k t0 t1 t9.
Lemma f_normalize_head n2 n3 n4 n5 n6 n7 n8 m b : exists k, forall n0 n1 n9, f_normalize true (Fe n0 n1 n2 n3 n4 n5 n6 n7 n8 n9 m b) = head k n0 n1 n9.
Proof. eexists. intros. unfold f_normalize, head. cbv beta iota. reflexivity. Qed.
Lemma f_normalize_var_head n2 n3 n4 n5 n6 n7 n8 m b : exists k, forall n0 n1 n9, f_normalize_var true (Fe n0 n1 n2 n3 n4 n5 n6 n7 n8 n9 m b) = head k n0 n1 n9.
Proof. eexists. intros. unfold f_normalize_var, head. cbv beta iota. reflexivity. Qed.
Lemma f_normalize_weak_head n2 n3 n4 n5 n6 n7 n8 m b : exists k, forall n0 n1 n9, f_normalize_weak true (Fe n0 n1 n2 n3 n4 n5 n6 n7 n8 n9 m b) = head k n0 n1 n9.
Proof. eexists. intros. unfold f_normalize_weak, head. cbv beta iota. reflexivity. Qed.
(** A debug build that gets past them goes on as from the carried limbs. *)
Lemma head_shift k n0 n1 n9 r : 0 <= n0 <= 4294967232 -> 0 <= n1 <= 4294967232 -> 0 <= n9 <= 268435392 -> head k n0 n1 n9 = Some r ->
  exists l0 t1 l9 x, 0 <= l0 <= 67108863 /\ 0 <= t1 <= 4294967295 /\ 0 <= l9 <= 4194303 /\
    (forall n2 n3 n4 n5 n6 n7 n8, val10 l0 t1 n2 n3 n4 n5 n6 n7 n8 l9 = val10 n0 n1 n2 n3 n4 n5 n6 n7 n8 n9 - x * fp) /\ head k l0 t1 l9 = Some r.
Proof.
  intros B0 B1 B9.
  destruct (split_at 22 4194303 _ _ B9 eq_refl eq_refl) as (x & l9 & E1 & E2 & E3 & BX & BL9). change (268435392 / 2 ^ 22) with 63 in BX.
  assert (SX : shl32 x 6 = 64 * x) by (unfold shl32; rewrite Z.shiftl_mul_pow2 by lia; rewrite Z.mod_small; change (2 ^ 6) with 64; change (2 ^ 32) with 4294967296; lia).
  unfold head at 1. cbn [bind]. rewrite E1, E2, SX.
  destruct (mul32 true x 977) as [q|] eqn:EQ; cbn [bind]; [|discriminate]. destruct (add32 true n0 q) as [T0|] eqn:ET0; cbn [bind]; [|discriminate].
  destruct (add32 true n1 (64 * x)) as [T1|] eqn:ET1; cbn [bind]; [|discriminate].
  unfold mul32, add32 in EQ, ET0, ET1. apply uchk_true in EQ, ET0, ET1. change (2 ^ 32) with 4294967296 in *. destruct EQ as [-> QB]. destruct ET0 as [T0E T0B], ET1 as [T1E T1B].
  destruct (split_at 26 67108863 T0 4294967295 ltac:(lia) eq_refl eq_refl) as (h0 & l0 & E4 & E5 & E6 & BH0 & BL0). rewrite E4, E5.
  destruct (add32 true T1 h0) as [T2|] eqn:ET2; cbn [bind]; [|discriminate]. unfold add32 in ET2. apply uchk_true in ET2. change (2 ^ 32) with 4294967296 in *. destruct ET2 as [T2E T2B].
  intros H. exists l0, T2, l9, x. split; [lia|]. split; [lia|]. split; [lia|]. split; [intros; clear E1 E2 E4 E5 H; rewrite T2E, T1E, E6, T0E, E3; unfold val10, fp; ring|].
  assert (L9 : Z.land l9 4194303 = l9) by (apply (land_ones_small l9 22); [lia | exact BL9]).
  assert (L0 : Z.land l0 67108863 = l0) by (apply (land_ones_small l0 26); [lia | exact BL0]).
  unfold head. cbn [bind]. rewrite (shiftr_is l9 22 0) by lia. rewrite L9. change (mul32 true 0 977) with (Some 0). cbn [bind]. rewrite (add32_0 l0) by lia. cbn [bind]. change (shl32 0 6) with 0.
  rewrite (add32_0 T2) by lia. cbn [bind]. rewrite (shiftr_is l0 26 0) by lia. rewrite (add32_0 T2) by lia. cbn [bind]. rewrite L0. exact H.
Qed.

Lemma fp_mod v x : (v - x * fp) mod fp = v mod fp.
Proof. replace (v - x * fp) with (v + - x * fp) by ring. apply Z.mod_add. discriminate. Qed.
Lemma wp_some_inv {A} (o : option A) Q r : wp o Q -> o = Some r -> Q r.
Proof. intros W ->. exact W. Qed.
Lemma f_normalize_debug f r : fok 32 f -> f_normalize true f = Some r -> fcan r /\ fv r = fv f mod fp.
Proof.
  destruct f as [n0 n1 n2 n3 n4 n5 n6 n7 n8 n9 m b]. intros (N & V & M) H. cbn [fnn f_mag] in N, M. apply verify_bounds in V; [|lia]. cbn zeta in V.
  destruct (f_normalize_head n2 n3 n4 n5 n6 n7 n8 m b) as (k & HK). rewrite HK in H. apply head_shift in H; [|destruct b; lia..]. destruct H as (l0 & t1 & l9 & x & B0 & B1 & B9 & EV & H). rewrite <- HK in H.
  assert (C : carried (Fe l0 t1 n2 n3 n4 n5 n6 n7 n8 l9 m b)) by (cbn [carried]; destruct b; lia).
  destruct (wp_some_inv _ _ _ (f_normalize_ok32 true _ C) H) as [K E]. split; [apply canon_fcan, K|]. rewrite E. cbn [fv]. rewrite EV. apply fp_mod.
Qed.
Lemma f_normalize_var_debug f r : fok 32 f -> f_normalize_var true f = Some r -> fcan r /\ fv r = fv f mod fp.
Proof.
  destruct f as [n0 n1 n2 n3 n4 n5 n6 n7 n8 n9 m b]. intros (N & V & M) H. cbn [fnn f_mag] in N, M. apply verify_bounds in V; [|lia]. cbn zeta in V.
  destruct (f_normalize_var_head n2 n3 n4 n5 n6 n7 n8 m b) as (k & HK). rewrite HK in H. apply head_shift in H; [|destruct b; lia..]. destruct H as (l0 & t1 & l9 & x & B0 & B1 & B9 & EV & H). rewrite <- HK in H.
  assert (C : carried (Fe l0 t1 n2 n3 n4 n5 n6 n7 n8 l9 m b)) by (cbn [carried]; destruct b; lia).
  destruct (wp_some_inv _ _ _ (f_normalize_var_ok32 true _ C) H) as [K E]. split; [apply canon_fcan, K|]. rewrite E. cbn [fv]. rewrite EV. apply fp_mod.
Qed.
Lemma f_normalize_weak_debug f r : fok 32 f -> f_norm f = false -> f_normalize_weak true f = Some r -> fok 1 r /\ fv r mod fp = fv f mod fp.
Proof.
  destruct f as [n0 n1 n2 n3 n4 n5 n6 n7 n8 n9 m b]. cbn [f_norm]. intros (N & V & M) -> H. cbn [fnn f_mag] in N, M. apply verify_bounds in V; [|lia]. cbn zeta in V.
  destruct (f_normalize_weak_head n2 n3 n4 n5 n6 n7 n8 m false) as (k0 & HK). rewrite HK in H. apply head_shift in H; [|lia..]. destruct H as (l0 & t1 & l9 & x & B0 & B1 & B9 & EV & H). rewrite <- HK in H.
  assert (C : carried (Fe l0 t1 n2 n3 n4 n5 n6 n7 n8 l9 m false)) by (cbn [carried]; lia).
  destruct (wp_some_inv _ _ _ (f_normalize_weak_raw32 true _ C eq_refl) H) as (K & _ & _ & k & E). split; [exact K|]. rewrite E. cbn [fv]. rewrite fp_mod, EV. apply fp_mod.
Qed.
