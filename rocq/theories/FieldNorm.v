(** Correctness of the normalization routines of core/src/field.rs. *)
From Verif Require Import Word WP MField FieldMul.

Lemma land_full a b m k : 0 <= k -> m = Z.ones k -> Z.land a b = m -> Z.land a m = m /\ Z.land b m = m.
Proof.
  intros Hk -> H.
  split; rewrite <- H at 1; [rewrite Z.land_assoc, Z.land_diag | rewrite Z.land_comm, <- Z.land_assoc, Z.land_diag]; exact H.
Qed.
Lemma land_ones_small a k : 0 <= k -> 0 <= a <= Z.ones k -> Z.land a (Z.ones k) = a.
Proof.
  intros Hk Ha; rewrite Z.land_ones by lia; rewrite Z.ones_equiv in Ha; apply Z.mod_small; lia.
Qed.
Lemma land26_full a : 0 <= a <= 67108863 -> Z.land a 67108863 = 67108863 -> a = 67108863.
Proof. intros Ha H. rewrite <- H. symmetry. apply (land_ones_small a 26); [lia | exact Ha]. Qed.
Lemma land26_full2 a b : Z.land a b = 67108863 -> Z.land a 67108863 = 67108863 /\ Z.land b 67108863 = 67108863.
Proof. apply (land_full a b 67108863 26); [lia | reflexivity]. Qed.
Lemma land26_step a b : Z.land (Z.land a b) 67108863 = 67108863 ->
  Z.land a 67108863 = 67108863 /\ Z.land b 67108863 = 67108863.
Proof.
  intros H. split.
  - rewrite <- H at 1. rewrite !Z.land_assoc, Z.land_diag. exact H.
  - rewrite <- H at 1. rewrite (Z.land_comm a b), !Z.land_assoc, Z.land_diag, (Z.land_comm b a). exact H.
Qed.
Lemma lxor26_full t c : 0 <= t <= 67108863 -> 0 <= c <= 67108863 ->
  Z.land (Z.lxor t c) 67108863 = 67108863 -> t = Z.lxor 67108863 c.
Proof.
  intros Ht Hc H.
  assert (Z.lxor t c = 67108863) as <-.
  { rewrite <- H. change 67108863 with (Z.ones 26) in *.
    rewrite <- (land_ones_small t 26) at 1 by lia.
    rewrite <- (land_ones_small c 26) at 1 by lia.
    apply Z.bits_inj'; intros i Hi.
    rewrite ?Z.land_spec, ?Z.lxor_spec, ?Z.land_spec.
    destruct (Z.testbit t i), (Z.testbit c i), (Z.testbit (Z.ones 26) i); reflexivity. }
  rewrite Z.lxor_assoc, Z.lxor_nilpotent, Z.lxor_0_r; reflexivity.
Qed.

(** canonical limbs *)
Definition lim26 (n0 n1 n2 n3 n4 n5 n6 n7 n8 : Z) : Prop :=
  0 <= n0 <= 67108863 /\ 0 <= n1 <= 67108863 /\ 0 <= n2 <= 67108863 /\ 0 <= n3 <= 67108863 /\
  0 <= n4 <= 67108863 /\ 0 <= n5 <= 67108863 /\ 0 <= n6 <= 67108863 /\ 0 <= n7 <= 67108863 /\
  0 <= n8 <= 67108863.

(** the "top limbs all ones and low part overflows" test decides [fp <= v] *)
Lemma ge_p_low n0 n1 n2 n3 n4 n5 n6 n7 n8 : lim26 n0 n1 n2 n3 n4 n5 n6 n7 n8 ->
  n2 = 67108863 -> n3 = 67108863 -> n4 = 67108863 -> n5 = 67108863 -> n6 = 67108863 ->
  n7 = 67108863 -> n8 = 67108863 ->
  (67108863 <? n1 + 64 + Z.shiftr (n0 + 977) 26) = (fp <=? val10 n0 n1 n2 n3 n4 n5 n6 n7 n8 4194303).
Proof.
  unfold lim26; intros L E2 E3 E4 E5 E6 E7 E8.
  destruct (split_at 26 67108863 (n0 + 977) 67109840 ltac:(lia) eq_refl eq_refl)
    as (h & l & -> & _ & El & Bh & Bl).
  change (2 ^ 26) with 67108864 in El.
  unfold val10, fp. subst n2 n3 n4 n5 n6 n7 n8.
  destruct (67108863 <? n1 + 64 + h) eqn:E.
  - apply Z.ltb_lt in E. symmetry; apply Z.leb_le. lia.
  - apply Z.ltb_ge in E. symmetry; apply Z.leb_gt. lia.
Qed.

Definition top_full (n2 n3 n4 n5 n6 n7 n8 : Z) : Prop :=
  n2 = 67108863 /\ n3 = 67108863 /\ n4 = 67108863 /\ n5 = 67108863 /\ n6 = 67108863 /\
  n7 = 67108863 /\ n8 = 67108863.

Lemma not_top_full n0 n1 n2 n3 n4 n5 n6 n7 n8 : lim26 n0 n1 n2 n3 n4 n5 n6 n7 n8 ->
  ~ top_full n2 n3 n4 n5 n6 n7 n8 -> val10 n0 n1 n2 n3 n4 n5 n6 n7 n8 4194303 < fp.
Proof.
  unfold lim26, top_full, val10, fp; intros L H.
  assert (n2 + n3 * 2^26 + n4 * 2^52 + n5 * 2^78 + n6 * 2^104 + n7 * 2^130 + n8 * 2^156 <= 2^182 - 2).
  { destruct (Z.le_gt_cases (n2 + n3 * 2^26 + n4 * 2^52 + n5 * 2^78 + n6 * 2^104 + n7 * 2^130 + n8 * 2^156) (2^182 - 2)); [assumption|].
    exfalso; apply H. lia. }
  lia.
Qed.

Lemma land_chain_fwd n2 n3 n4 n5 n6 n7 n8 :
  0 <= n2 <= 67108863 -> 0 <= n3 <= 67108863 -> 0 <= n4 <= 67108863 -> 0 <= n5 <= 67108863 ->
  0 <= n6 <= 67108863 -> 0 <= n7 <= 67108863 -> 0 <= n8 <= 67108863 ->
  (Z.land (Z.land (Z.land (Z.land (Z.land (Z.land n2 n3) n4) n5) n6) n7) n8 =? 67108863) = true ->
  top_full n2 n3 n4 n5 n6 n7 n8.
Proof.
  intros ? ? ? ? ? ? ? H. apply Z.eqb_eq in H.
  apply land26_full2 in H; destruct H as [H K8].
  apply land26_step in H; destruct H as [H K7]. apply land26_step in H; destruct H as [H K6].
  apply land26_step in H; destruct H as [H K5]. apply land26_step in H; destruct H as [H K4].
  apply land26_step in H; destruct H as [K2 K3].
  repeat split; apply land26_full; assumption.
Qed.
Lemma land_chain_bwd n2 n3 n4 n5 n6 n7 n8 : top_full n2 n3 n4 n5 n6 n7 n8 ->
  (Z.land (Z.land (Z.land (Z.land (Z.land (Z.land n2 n3) n4) n5) n6) n7) n8 =? 67108863) = true.
Proof. intros (-> & -> & -> & -> & -> & -> & ->). reflexivity. Qed.

(** the final-reduction flag computed by [normalize] and [normalize_var] *)
Lemma final_flag n0 n1 n2 n3 n4 n5 n6 n7 n8 n9 : lim26 n0 n1 n2 n3 n4 n5 n6 n7 n8 ->
  0 <= n9 <= 4194400 ->
  Z.lor (Z.shiftr n9 22)
    (b2z ((n9 =? 4194303) &&
          (Z.land (Z.land (Z.land (Z.land (Z.land (Z.land n2 n3) n4) n5) n6) n7) n8 =? 67108863) &&
          (67108863 <? n1 + 64 + Z.shiftr (n0 + 977) 26)))
  = b2z (fp <=? val10 n0 n1 n2 n3 n4 n5 n6 n7 n8 n9).
Proof.
  intros L H9.
  destruct (Z.lt_trichotomy n9 4194303) as [Hlt | [Heq | Hgt]].
  - rewrite (proj2 (Z.eqb_neq n9 4194303)) by lia.
    assert (Z.shiftr n9 22 = 0) as ->.
    { rewrite Z.shiftr_div_pow2 by lia. apply Z.div_small; lia. }
    cbn [andb b2z Z.lor].
    rewrite (proj2 (Z.leb_gt _ _)); [reflexivity|].
    unfold lim26 in L; unfold val10, fp; lia.
  - subst n9.
    change (Z.shiftr 4194303 22) with 0. rewrite Z.eqb_refl, Z.lor_0_l. cbn [andb].
    destruct (Z.land _ n8 =? 67108863) eqn:E.
    + apply land_chain_fwd in E; try (apply L).
      destruct E as (?&?&?&?&?&?&?).
      cbn [andb]. rewrite (ge_p_low n0 n1 n2 n3 n4 n5 n6 n7 n8) by assumption. reflexivity.
    + cbn [andb]. rewrite (proj2 (Z.leb_gt _ _)); [reflexivity|].
      apply not_top_full; [assumption|].
      intros F; apply land_chain_bwd in F; congruence.
  - rewrite (proj2 (Z.eqb_neq n9 4194303)) by lia.
    assert (Z.shiftr n9 22 = 1) as ->.
    { rewrite Z.shiftr_div_pow2 by lia. symmetry; apply (Z.div_unique _ _ _ (n9 - 2^22)); lia. }
    cbn [andb b2z]. change (Z.lor 1 0) with 1.
    rewrite (proj2 (Z.leb_le _ _)); [reflexivity|].
    unfold lim26 in L; unfold val10, fp; lia.
Qed.

Lemma final_flag' n0 n1 n2 n3 n4 n5 n6 n7 n8 n9 q h : lim26 n0 n1 n2 n3 n4 n5 n6 n7 n8 ->
  0 <= n9 <= 4194400 -> 0 <= n0 + 977 - 2 ^ 26 * h <= 67108863 -> q = n1 + 64 + h ->
  Z.lor (Z.shiftr n9 22)
    (b2z ((n9 =? 4194303) &&
          (Z.land (Z.land (Z.land (Z.land (Z.land (Z.land n2 n3) n4) n5) n6) n7) n8 =? 67108863) &&
          (67108863 <? q)))
  = b2z (fp <=? val10 n0 n1 n2 n3 n4 n5 n6 n7 n8 n9).
Proof.
  intros L H9 Hh ->. rewrite <- final_flag by assumption.
  replace (Z.shiftr (n0 + 977) 26) with h; [reflexivity|].
  rewrite Z.shiftr_div_pow2 by lia.
  apply (Z.div_unique _ _ _ (n0 + 977 - 2 ^ 26 * h)); lia.
Qed.

(** [f_verify] of a normalized element *)
Lemma verify_canon n0 n1 n2 n3 n4 n5 n6 n7 n8 n9 : lim26 n0 n1 n2 n3 n4 n5 n6 n7 n8 ->
  0 <= n9 <= 4194303 -> val10 n0 n1 n2 n3 n4 n5 n6 n7 n8 n9 < fp ->
  f_verify (Fe n0 n1 n2 n3 n4 n5 n6 n7 n8 n9 1 true) = true.
Proof.
  intros L H9 V. unfold f_verify.
  cbn [Z.mul Z.leb Z.compare Pos.compare Pos.compare_cont andb].
  change (67108863 * 1) with 67108863. change (4194303 * 1) with 4194303. change (1 <=? 64) with true.
  unfold lim26 in L.
  rewrite !(proj2 (Z.leb_le _ _)) by lia. cbn [andb].
  destruct (n9 =? 4194303) eqn:E9; [|reflexivity]. apply Z.eqb_eq in E9; subst n9.
  destruct (Z.land _ n2 =? 67108863) eqn:E; [|reflexivity].
  apply land_chain_fwd in E; try (apply L).
  destruct E as (?&?&?&?&?&?&?).
  pose proof (ge_p_low n0 n1 n2 n3 n4 n5 n6 n7 n8 L) as G.
  specialize (G ltac:(assumption) ltac:(assumption) ltac:(assumption) ltac:(assumption)
                ltac:(assumption) ltac:(assumption) ltac:(assumption)).
  rewrite (proj2 (Z.leb_gt fp _)) in G by assumption.
  apply Z.leb_le. apply Z.ltb_ge in G. exact G.
Qed.

(** limbs small enough for one carry pass (magnitude at most 31) *)
Definition lim31 (f : field) : Prop :=
  match f with Fe n0 n1 n2 n3 n4 n5 n6 n7 n8 n9 _ _ =>
    0 <= n0 <= 4160749506 /\ 0 <= n1 <= 4160749506 /\ 0 <= n2 <= 4160749506 /\
    0 <= n3 <= 4160749506 /\ 0 <= n4 <= 4160749506 /\ 0 <= n5 <= 4160749506 /\
    0 <= n6 <= 4160749506 /\ 0 <= n7 <= 4160749506 /\ 0 <= n8 <= 4160749506 /\
    0 <= n9 <= 260046786 end.

(** fully reduced element with the flags of a normalized element *)
Definition canon (f : field) : Prop :=
  match f with Fe n0 n1 n2 n3 n4 n5 n6 n7 n8 n9 m nrm =>
    lim26 n0 n1 n2 n3 n4 n5 n6 n7 n8 /\ 0 <= n9 <= 4194303 /\
    val10 n0 n1 n2 n3 n4 n5 n6 n7 n8 n9 < fp /\ m = 1 /\ nrm = true end.

Lemma val10_nonneg n0 n1 n2 n3 n4 n5 n6 n7 n8 n9 : lim26 n0 n1 n2 n3 n4 n5 n6 n7 n8 -> 0 <= n9 ->
  0 <= val10 n0 n1 n2 n3 n4 n5 n6 n7 n8 n9.
Proof. unfold lim26, val10; lia. Qed.

Lemma canon_range f : canon f -> 0 <= fv f < fp.
Proof.
  destruct f; cbn [canon fv]; intros (L & H9 & V & _); split; [|exact V].
  apply val10_nonneg; [assumption | lia].
Qed.

Lemma canon_verify f : canon f -> f_verify f = true.
Proof.
  destruct f; cbn [canon]; intros (L & H9 & V & -> & ->). apply verify_canon; assumption.
Qed.

Lemma fp_pos : 0 < fp. Proof. reflexivity. Qed.

Lemma mod_fp_unique v q r : v = q * fp + r -> 0 <= r < fp -> r = v mod fp.
Proof. intros E H. apply (Z.mod_unique _ _ q); [left; exact H | lia]. Qed.


Lemma shiftr_is n k q : 0 <= n - 2 ^ k * q < 2 ^ k -> 0 <= k -> Z.shiftr n k = q.
Proof.
  intros H Hk. rewrite Z.shiftr_div_pow2 by lia. symmetry.
  apply (Z.div_unique _ _ _ (n - 2 ^ k * q)); lia.
Qed.

Ltac nstep :=
  lazymatch goal with
  | |- wp (bind (Some (Z.land ?a 67108863)) _) _ => wauto1
  | |- wp (bind (Some (Z.land _ 4194303)) _) _ => wauto1
  | |- wp (bind (Some (Z.land ?a ?b)) _) _ => refine (wp_let_any _ _ _ _); cbv beta
  | |- wp (bind (Some (Z.lor _ (b2z _))) _) _ => fail
  | |- wp (bind (Some (Z.lor _ _)) _) _ => refine (wp_let_any _ _ _ _); cbv beta
  | |- wp (bind (Some (Z.lxor _ _)) _) _ => refine (wp_let_any _ _ _ _); cbv beta
  | |- wp (bind (dassert _ (Z.shiftr _ 22 =? _)) _) _ => fail
  | |- wp (bind (Some (Fe _ _ _ _ _ _ _ _ _ _ _ _)) _) _ => refine (wp_let_any _ _ _ _); cbv beta
  | _ => wauto1 end.

Ltac clear_eqs := repeat match goal with H : @eq Z _ _ |- _ => clear H end.

Lemma f_normalize_ok dbg f : lim31 f ->
  wp (f_normalize dbg f) (fun r => canon r /\ fv r = fv f mod fp).
Proof.
  destruct f as [n0 n1 n2 n3 n4 n5 n6 n7 n8 n9 mg nrm].
  unfold lim31; intros (?&?&?&?&?&?&?&?&?&?).
  unfold f_normalize; unfold_words.
  repeat nstep.
  subst x10.
  assert (V1 : val10 x5 x7 x9 x12 x14 x16 x18 x20 x22 x21 = val10 n0 n1 n2 n3 n4 n5 n6 n7 n8 n9 - x * fp).
  { clear_bounds; unfold val10, fp; subst; ring. }
  assert (L : lim26 x5 x7 x9 x12 x14 x16 x18 x20 x22) by (unfold lim26; tauto).
  rewrite (final_flag' x5 x7 x9 x12 x14 x16 x18 x20 x22 x21 x25 h9 L ltac:(lia) ltac:(lia) ltac:(lia)).
  revert V1. clear_eqs. remember (val10 x5 x7 x9 x12 x14 x16 x18 x20 x22 x21) as V eqn:EV. intros V1.
  assert (HV : V <= 4194365 * 2 ^ 234 + 2 ^ 234 - 1 /\ 0 <= V) by (unfold val10, lim26 in *; lia).
  refine (wp_let_any _ _ _ _); cbv beta.
  remember (b2z (fp <=? V)) as y eqn:Ey.
  assert (By : 0 <= y <= 1) by (subst y; destruct (fp <=? V); cbn; lia).
  repeat nstep.
  match goal with |- wp (bind (dassert _ (Z.shiftr ?t 22 =? y)) _) _ => rename t into T9 end.
  match goal with |- context [Fe ?r0 ?r1 ?r2 ?r3 ?r4 ?r5 ?r6 ?r7 ?r8 _ 1 true] =>
    assert (V2 : val10 r0 r1 r2 r3 r4 r5 r6 r7 r8 T9 = V + y * (2 ^ 32 + 977));
    [clear V1 Ey; clear_bounds; subst; unfold val10; ring|];
    assert (L2 : lim26 r0 r1 r2 r3 r4 r5 r6 r7 r8) by (unfold lim26; tauto);
    assert (HT : Z.shiftr T9 22 = y);
    [| rewrite HT]
  end.
  { apply shiftr_is; [|lia]. clear - V2 L2 Ey HV.
    unfold lim26, val10, fp in *; destruct (_ <=? V) eqn:E; cbn [b2z] in Ey; subst y;
    [apply Z.leb_le in E | apply Z.leb_gt in E]; lia. }
  refine (wp_dassert _ _ _ _ _ _); [apply Z.eqb_refl|].
  destruct (split_at 22 4194303 T9 _ ltac:(eassumption) eq_refl eq_refl) as (hh & ll & Eh & -> & Ell & _ & Bll).
  assert (hh = y) as -> by congruence.
  refine (wp_let_any _ _ _ _); cbv beta.
  refine (wp_let_any _ _ _ _); cbv beta.
  match goal with |- context [dassert _ (f_verify ?R)] => set (r := R) end.
  assert (Vr : fv r = V - y * fp).
  { clear - V2 Ell. cbn [fv r]. unfold val10, fp in *. lia. }
  assert (C : canon r).
  { cbn [canon r]. repeat (split; [assumption || (apply L2)|]). split; [|split; reflexivity].
    change (fv r < fp). rewrite Vr. clear - Ey HV. unfold fp in *.
    destruct (_ <=? V) eqn:E; cbn [b2z] in Ey; subst y; [apply Z.leb_le in E | apply Z.leb_gt in E]; lia. }
  refine (wp_dassert _ _ _ _ _ _); [exact (canon_verify _ C)|].
  apply wp_some; split; [exact C|].
  apply (mod_fp_unique _ (x + y)); [|apply canon_range; exact C].
  rewrite Vr, V1. cbn [fv]. ring.
Qed.

(** non-negative limbs *)
Definition fnn (f : field) : Prop :=
  match f with Fe n0 n1 n2 n3 n4 n5 n6 n7 n8 n9 _ _ =>
    0 <= n0 /\ 0 <= n1 /\ 0 <= n2 /\ 0 <= n3 /\ 0 <= n4 /\ 0 <= n5 /\ 0 <= n6 /\ 0 <= n7 /\
    0 <= n8 /\ 0 <= n9 end.
(** well-formed element of magnitude at most [k]: what [Field::verify] checks *)
Definition fok (k : Z) (f : field) : Prop := fnn f /\ f_verify f = true /\ 0 <= f_mag f <= k.
(** well-formed and flagged as normalized *)
Definition fcan (f : field) : Prop := fok 1 f /\ f_norm f = true.

(** limb bounds implied by [f_verify] *)
Lemma verify_bounds n0 n1 n2 n3 n4 n5 n6 n7 n8 n9 m nrm :
  f_verify (Fe n0 n1 n2 n3 n4 n5 n6 n7 n8 n9 m nrm) = true -> 0 <= m ->
  let k := (if nrm then 1 else 2) * m in
  k <= 64 /\
  (n0 <= 67108863 * k /\ n1 <= 67108863 * k /\ n2 <= 67108863 * k /\ n3 <= 67108863 * k /\
   n4 <= 67108863 * k /\ n5 <= 67108863 * k /\ n6 <= 67108863 * k /\ n7 <= 67108863 * k /\
   n8 <= 67108863 * k) /\ n9 <= 4194303 * k /\ m <= 32 /\ (nrm = true -> m <= 1).
Proof.
  intros H Hm. cbn zeta. unfold f_verify in H.
  rewrite !andb_true_iff, !Z.leb_le in H.
  destruct nrm; [rewrite !andb_true_iff, !Z.leb_le in H|]; repeat split; try tauto; try lia; discriminate.
Qed.

Lemma verify_canon_inv n0 n1 n2 n3 n4 n5 n6 n7 n8 n9 m :
  fnn (Fe n0 n1 n2 n3 n4 n5 n6 n7 n8 n9 m true) ->
  f_verify (Fe n0 n1 n2 n3 n4 n5 n6 n7 n8 n9 m true) = true -> 0 <= m ->
  lim26 n0 n1 n2 n3 n4 n5 n6 n7 n8 /\ 0 <= n9 <= 4194303 /\ m <= 1 /\
  val10 n0 n1 n2 n3 n4 n5 n6 n7 n8 n9 < fp.
Proof.
  intros N H Hm. pose proof (verify_bounds _ _ _ _ _ _ _ _ _ _ _ _ H Hm) as B; cbn zeta in B.
  destruct B as (_ & B & B9 & _ & M1). specialize (M1 eq_refl). cbn [fnn] in N.
  assert (L : lim26 n0 n1 n2 n3 n4 n5 n6 n7 n8) by (unfold lim26; lia).
  repeat (split; [assumption || lia|]).
  unfold f_verify in H. rewrite !andb_true_iff in H. destruct H as [_ [_ H]].
  destruct (n9 =? 4194303) eqn:E9.
  - apply Z.eqb_eq in E9; subst n9.
    destruct (Z.land _ n2 =? 67108863) eqn:E.
    + apply land_chain_fwd in E; try (apply L). destruct E as (?&?&?&?&?&?&?).
      pose proof (ge_p_low n0 n1 n2 n3 n4 n5 n6 n7 n8 L) as G.
      specialize (G ltac:(assumption) ltac:(assumption) ltac:(assumption) ltac:(assumption)
                    ltac:(assumption) ltac:(assumption) ltac:(assumption)).
      apply Z.leb_le in H. rewrite (proj2 (Z.ltb_ge _ _)) in G by exact H.
      symmetry in G; apply Z.leb_gt in G; exact G.
    + apply not_top_full; [exact L|]. intros T.
      assert (T' : top_full n8 n7 n6 n5 n4 n3 n2) by (unfold top_full in *; tauto).
      apply land_chain_bwd in T'. congruence.
  - apply Z.eqb_neq in E9. unfold lim26, val10, fp in *; lia.
Qed.

Lemma fok_lim31 k f : fok k f -> k <= 31 -> lim31 f.
Proof.
  destruct f as [n0 n1 n2 n3 n4 n5 n6 n7 n8 n9 m nrm]; intros (N & V & M) Hk; cbn [f_mag fnn lim31] in *.
  apply verify_bounds in V; [|lia]; cbn zeta in V. destruct nrm; lia.
Qed.
Lemma fok_mulable f : fok 8 f -> mulable f.
Proof.
  destruct f as [n0 n1 n2 n3 n4 n5 n6 n7 n8 n9 m nrm]; intros (N & V & M); cbn [f_mag fnn mulable] in *.
  apply verify_bounds in V; [|lia]; cbn zeta in V. destruct nrm; lia.
Qed.
Lemma fok_mono k k' f : fok k f -> k <= k' -> fok k' f.
Proof. unfold fok; intros (?&?&?) ?; repeat split; auto; lia. Qed.
Lemma fok_fv_nonneg k f : fok k f -> 0 <= fv f.
Proof.
  destruct f as [n0 n1 n2 n3 n4 n5 n6 n7 n8 n9 m nrm]; intros (N & _ & _); cbn [fnn fv] in *.
  unfold val10; lia.
Qed.

(** [f_verify] of an unnormalized element of magnitude [m] from limb bounds *)
Lemma verify_weak n0 n1 n2 n3 n4 n5 n6 n7 n8 n9 m : m <= 32 ->
  n0 <= 134217726 * m -> n1 <= 134217726 * m -> n2 <= 134217726 * m -> n3 <= 134217726 * m ->
  n4 <= 134217726 * m -> n5 <= 134217726 * m -> n6 <= 134217726 * m -> n7 <= 134217726 * m ->
  n8 <= 134217726 * m -> n9 <= 8388606 * m ->
  f_verify (Fe n0 n1 n2 n3 n4 n5 n6 n7 n8 n9 m false) = true.
Proof.
  intros. unfold f_verify. rewrite !andb_true_iff, !Z.leb_le. repeat split; lia.
Qed.

Lemma mag1_fok f : mag1 f -> fok 1 f /\ f_mag f = 1 /\ f_norm f = false.
Proof.
  destruct f as [n0 n1 n2 n3 n4 n5 n6 n7 n8 n9 m nrm]; cbn [mag1].
  intros (?&?&?&?&?&?&?&?&?&?& -> & ->). split; [|split; reflexivity].
  split; [cbn; lia|]. split; [|cbn; lia]. apply verify_weak; lia.
Qed.

Lemma canon_fcan f : canon f -> fcan f.
Proof.
  intros C. pose proof (canon_verify f C). destruct f as [n0 n1 n2 n3 n4 n5 n6 n7 n8 n9 m nrm].
  cbn [canon] in C; destruct C as (L & ? & ? & -> & ->).
  split; [|reflexivity]. split; [cbn; unfold lim26 in L; lia|]. split; [assumption|cbn; lia].
Qed.

Lemma fcan_range f : fcan f -> 0 <= fv f < fp.
Proof.
  destruct f as [n0 n1 n2 n3 n4 n5 n6 n7 n8 n9 m nrm]; intros ((N & V & M) & E); cbn [f_norm f_mag fv] in *; subst nrm.
  apply verify_canon_inv in V; [|assumption|lia]. destruct V as (L & B & _ & R); split; [|exact R].
  apply val10_nonneg; [assumption|lia].
Qed.

Lemma f_normalize_weak_raw dbg f : lim31 f -> f_norm f = false ->
  wp (f_normalize_weak dbg f) (fun r => fok 1 r /\ f_mag r = 1 /\ f_norm r = false /\ exists k, fv r = fv f - k * fp).
Proof.
  destruct f as [n0 n1 n2 n3 n4 n5 n6 n7 n8 n9 mg nrm].
  unfold lim31; cbn [f_norm]; intros (?&?&?&?&?&?&?&?&?&?) ->.
  unfold f_normalize_weak; unfold_words.
  repeat nstep.
  match goal with |- context [dassert _ (f_verify ?R)] => set (r := R) end.
  assert (V1 : fv r = val10 n0 n1 n2 n3 n4 n5 n6 n7 n8 n9 - x * fp).
  { clear_bounds; unfold fv, r, val10, fp; subst; ring. }
  assert (C : f_verify r = true) by (apply verify_weak; lia).
  refine (wp_dassert _ _ _ _ _ _); [exact C|].
  apply wp_some. split; [|split; [reflexivity|split; [reflexivity | exists x; exact V1]]].
  split; [cbn [fnn r]; lia|]. split; [exact C | cbn; lia].
Qed.

Lemma f_normalize_weak_can dbg f : fcan f ->
  wp (f_normalize_weak dbg f) (fun r => fcan r /\ f_mag r = 1 /\ fv r = fv f).
Proof.
  destruct f as [n0 n1 n2 n3 n4 n5 n6 n7 n8 n9 mg nrm].
  intros ((N & V & M) & E'); cbn [f_norm f_mag fv] in *; subst nrm.
  apply verify_canon_inv in V; [|assumption|lia]. destruct V as (L & B & _ & R).
  unfold lim26 in L. destruct L as (?&?&?&?&?&?&?&?&?).
  unfold f_normalize_weak; unfold_words.
  repeat nstep.
  match goal with |- context [dassert _ (f_verify ?R)] => set (r := R) end.
  assert (V1 : fv r = val10 n0 n1 n2 n3 n4 n5 n6 n7 n8 n9 - x * fp).
  { clear_bounds; unfold fv, r, val10, fp; subst; ring. }
  assert (x = 0) as -> by lia.
  assert (V2 : fv r < fp) by lia.
  assert (L : match r with Fe r0 r1 r2 r3 r4 r5 r6 r7 r8 r9 _ _ => lim26 r0 r1 r2 r3 r4 r5 r6 r7 r8 /\ 0 <= r9 end).
  { unfold r, lim26; lia. }
  assert (C : canon r).
  { clear - V2 L. unfold r, canon, fv, lim26 in *. split; [tauto|]. split; [|repeat split; tauto].
    unfold val10, fp in *. lia. }
  refine (wp_dassert _ _ _ _ _ _); [exact (canon_verify _ C)|].
  apply wp_some. split; [exact (canon_fcan _ C) | split; [reflexivity | cbn [fv] in *; lia]].
Qed.

Lemma f_normalize_var_ok dbg f : lim31 f ->
  wp (f_normalize_var dbg f) (fun r => canon r /\ fv r = fv f mod fp).
Proof.
  destruct f as [n0 n1 n2 n3 n4 n5 n6 n7 n8 n9 mg nrm].
  unfold lim31; intros (?&?&?&?&?&?&?&?&?&?).
  unfold f_normalize_var; unfold_words.
  repeat nstep.
  subst x10.
  assert (V1 : val10 x5 x7 x9 x12 x14 x16 x18 x20 x22 x21 = val10 n0 n1 n2 n3 n4 n5 n6 n7 n8 n9 - x * fp).
  { clear_bounds; unfold val10, fp; subst; ring. }
  assert (L : lim26 x5 x7 x9 x12 x14 x16 x18 x20 x22) by (unfold lim26; tauto).
  rewrite (final_flag' x5 x7 x9 x12 x14 x16 x18 x20 x22 x21 x25 h9 L ltac:(lia) ltac:(lia) ltac:(lia)).
  revert V1. clear_eqs. remember (val10 x5 x7 x9 x12 x14 x16 x18 x20 x22 x21) as V eqn:EV. intros V1.
  assert (HV : V <= 4194365 * 2 ^ 234 + 2 ^ 234 - 1 /\ 0 <= V) by (unfold val10, lim26 in *; lia).
  refine (wp_let_any _ _ _ _); cbv beta.
  destruct (fp <=? V) eqn:EF; cbn [b2z]; [apply Z.leb_le in EF | apply Z.leb_gt in EF].
  - change (0 <? 1) with true. change (shl32 1 6) with 64. cbv iota.
    eapply wp_bind.
    { repeat nstep.
      match goal with |- wp (bind (dassert _ (Z.shiftr ?t 22 =? _)) _) _ => rename t into T9 end.
      match goal with |- context [Fe ?r0 ?r1 ?r2 ?r3 ?r4 ?r5 ?r6 ?r7 ?r8 _ 1 true] =>
        assert (V2 : val10 r0 r1 r2 r3 r4 r5 r6 r7 r8 T9 = V + (2 ^ 32 + 977));
        [clear V1; clear_bounds; subst; unfold val10; ring|];
        assert (L2 : lim26 r0 r1 r2 r3 r4 r5 r6 r7 r8) by (unfold lim26; tauto);
        assert (HT : Z.shiftr T9 22 = 1);
        [| rewrite HT]
      end.
      { apply shiftr_is; [|lia]. clear - V2 L2 HV EF.
        unfold lim26, val10, fp in *; lia. }
      refine (wp_dassert _ _ _ _ _ _); [apply Z.eqb_refl|].
      destruct (split_at 22 4194303 T9 _ ltac:(eassumption) eq_refl eq_refl) as (hh & ll & Eh & -> & Ell & _ & Bll).
      assert (hh = 1) as -> by congruence.
      refine (wp_let_any _ _ _ _); cbv beta.
      apply wp_some.
      match goal with |- ?P ?R => set (r := R) end.
      assert (Vr : fv r = V - fp).
      { clear - V2 Ell. cbn [fv r]. unfold val10, fp in *. lia. }
      assert (C : canon r).
      { cbn [canon r]. repeat (split; [assumption || (apply L2)|]). split; [|split; reflexivity].
        change (fv r < fp). rewrite Vr. clear - EF HV. unfold fp in *. lia. }
      instantiate (1 := fun r => canon r /\ fv r = V - fp). split; assumption. }
    intros r (C & Vr). cbv beta.
    refine (wp_dassert _ _ _ _ _ _); [exact (canon_verify _ C)|].
    apply wp_some; split; [exact C|].
    apply (mod_fp_unique _ (x + 1)); [|apply canon_range; exact C].
    rewrite Vr, V1. cbn [fv]. ring.
  - change (0 <? 0) with false. cbv iota.
    refine (wp_let_any _ _ _ _); cbv beta.
    match goal with |- context [dassert _ (f_verify ?R)] => set (r := R) end.
    assert (C : canon r).
    { cbn [canon r]. split; [exact L|]. split; [unfold lim26, val10, fp in *; lia|].
      split; [|split; reflexivity]. rewrite <- EV. exact EF. }
    refine (wp_dassert _ _ _ _ _ _); [exact (canon_verify _ C)|].
    apply wp_some; split; [exact C|].
    apply (mod_fp_unique _ x); [|apply canon_range; exact C].
    cbn [fv r]. rewrite <- EV, V1. ring.
Qed.
