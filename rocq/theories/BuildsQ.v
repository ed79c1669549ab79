(** The builds with one kind of check and the build with both: one lemma per function. *)
From Verif Require Import Word MField MScalar MGroup MEcmult MEcdsa MDer MApi Mono XField XScalar XGroup XEcmult XEcdsa XDer XApi Builds.

(** * The two kinds of checks are independent *)
(** The four builds in the order both, assertions only, overflow checks only, none: what the build with both kinds of
    checks returns is what the builds with one kind both return. *)
Definition quad {A} (xb xa xo xn : option A) : Prop := ref xa xn /\ ref xo xn /\ forall v, xa = Some v -> xo = Some v -> xb = Some v.
Lemma quad_refl {A} (x : option A) : quad x x x x.
Proof. split; [apply ref_refl|]. split; [apply ref_refl | auto]. Qed.
Lemma quad_bind {A B} (x1 x2 x3 x4 : option A) (f1 f2 f3 f4 : A -> option B) : quad x1 x2 x3 x4 -> (forall a, quad (f1 a) (f2 a) (f3 a) (f4 a)) -> quad (bind x1 f1) (bind x2 f2) (bind x3 f3) (bind x4 f4).
Proof.
  intros [H1 [H2 H3]] K. split; [apply ref_bind; [exact H1 | intros a; apply K]|]. split; [apply ref_bind; [exact H2 | intros a; apply K]|].
  intros v E F. destruct x2 as [a|]; [|discriminate]. destruct x3 as [b|]; [|discriminate]. pose proof (H1 a eq_refl) as P. pose proof (H2 b eq_refl) as Q. assert (a = b) by congruence; subst b.
  rewrite (H3 a eq_refl eq_refl). exact (proj2 (proj2 (K a)) v E F).
Qed.
Lemma quad_rbind {A B} (x1 x2 x3 x4 : option (result A)) (f1 f2 f3 f4 : A -> option (result B)) : quad x1 x2 x3 x4 -> (forall a, quad (f1 a) (f2 a) (f3 a) (f4 a)) -> quad (rbind x1 f1) (rbind x2 f2) (rbind x3 f3) (rbind x4 f4).
Proof.
  intros [H1 [H2 H3]] K. split; [apply ref_rbind; [exact H1 | intros a; apply K]|]. split; [apply ref_rbind; [exact H2 | intros a; apply K]|].
  intros v E F. destruct x2 as [a|]; [|discriminate]. destruct x3 as [b|]; [|discriminate]. pose proof (H1 a eq_refl) as P. pose proof (H2 b eq_refl) as Q. assert (a = b) by congruence; subst b.
  rewrite (H3 a eq_refl eq_refl). destruct a as [a|e]; [exact (proj2 (proj2 (K a)) v E F) | exact E].
Qed.
Lemma quad_mapo {A B} (f1 f2 f3 f4 : A -> option B) l : (forall a, quad (f1 a) (f2 a) (f3 a) (f4 a)) -> quad (mapo f1 l) (mapo f2 l) (mapo f3 l) (mapo f4 l).
Proof. intros K. induction l as [|a l IH]; cbn [mapo]; [apply quad_refl|]. apply quad_bind; [apply K|]. intros b. apply quad_bind; [exact IH|]. intros. apply quad_refl. Qed.
Lemma quad_o {A} (x y : option A) : ref x y -> quad x y x y.
Proof. intros H. split; [apply ref_refl|]. split; [exact H | auto]. Qed.
Lemma quad_a {A} (x y : option A) : ref x y -> quad x x y y.
Proof. intros H. split; [exact H|]. split; [apply ref_refl | auto]. Qed.
Lemma uchk_quad w v : quad (uchk w true v) (uchk w false v) (uchk w true v) (uchk w false v). Proof. apply quad_o, uchk_ref. Qed.
Lemma ichk_quad v : quad (ichk true v) (ichk false v) (ichk true v) (ichk false v). Proof. apply quad_o, ichk_ref. Qed.
Lemma shlc32_quad a b : quad (shlc32 true a b) (shlc32 false a b) (shlc32 true a b) (shlc32 false a b). Proof. apply quad_o, shlc32_ref. Qed.
Lemma shrc32_quad a b : quad (shrc32 true a b) (shrc32 false a b) (shrc32 true a b) (shrc32 false a b). Proof. apply quad_o, shrc32_ref. Qed.
Lemma dassert_quad b : quad (dassert true b) (dassert true b) (dassert false b) (dassert false b). Proof. apply quad_a, dassert_ref. Qed.
Lemma choice_from_quad v : quad (choice_from true v) (choice_from true v) (choice_from false v) (choice_from false v). Proof. apply quad_a, choice_from_ref. Qed.
Lemma add32_quad a b : quad (add32 true a b) (add32 false a b) (add32 true a b) (add32 false a b). Proof. apply uchk_quad. Qed.
Lemma sub32_quad a b : quad (sub32 true a b) (sub32 false a b) (sub32 true a b) (sub32 false a b). Proof. apply uchk_quad. Qed.
Lemma mul32_quad a b : quad (mul32 true a b) (mul32 false a b) (mul32 true a b) (mul32 false a b). Proof. apply uchk_quad. Qed.
Lemma add64_quad a b : quad (add64 true a b) (add64 false a b) (add64 true a b) (add64 false a b). Proof. apply uchk_quad. Qed.
Lemma sub64_quad a b : quad (sub64 true a b) (sub64 false a b) (sub64 true a b) (sub64 false a b). Proof. apply uchk_quad. Qed.
Lemma mul64_quad a b : quad (mul64 true a b) (mul64 false a b) (mul64 true a b) (mul64 false a b). Proof. apply uchk_quad. Qed.
Lemma add8_quad a b : quad (add8 true a b) (add8 false a b) (add8 true a b) (add8 false a b). Proof. apply uchk_quad. Qed.
Lemma sub8_quad a b : quad (sub8 true a b) (sub8 false a b) (sub8 true a b) (sub8 false a b). Proof. apply uchk_quad. Qed.
Create HintDb quad discriminated.
#[global] Hint Constants Opaque : quad.
#[global] Hint Variables Opaque : quad.
#[global] Hint Transparent pubkey seckey message recid decoder acc : quad.
#[global] Hint Resolve uchk_quad ichk_quad dassert_quad choice_from_quad shlc32_quad shrc32_quad add32_quad sub32_quad mul32_quad add64_quad sub64_quad mul64_quad add8_quad sub8_quad : quad.
Ltac quad1 :=
  lazymatch goal with
  | |- quad ?x ?x ?x ?x => apply quad_refl
  | |- quad ?x ?x ?y ?y => apply quad_a; mono
  | |- quad (bind _ _) _ _ _ => apply quad_bind; [|intros ?]
  | |- quad (rbind _ _) _ _ _ => apply quad_rbind; [|intros ?]
  | |- quad (mapo _ _) _ _ _ => apply quad_mapo; intros ?
  | |- quad (match ?e with _ => _ end) _ _ _ => destruct e
  | IH : forall _, _ |- _ => first [apply IH | solve [auto with quad nocore]]
  | |- _ => solve [auto with quad nocore]
  end.
Ltac quad := cbv beta iota delta [fst snd]; repeat quad1.

Lemma f_normalize_quad : forall (a0 : field), quad (f_normalize_x (true, true) a0) (f_normalize_x (true, false) a0) (f_normalize_x (false, true) a0) (f_normalize_x (false, false) a0).
Proof. intros. unfold f_normalize_x. quad. Qed.
#[global] Hint Resolve f_normalize_quad : quad.
Lemma f_normalize_weak_quad : forall (a0 : field), quad (f_normalize_weak_x (true, true) a0) (f_normalize_weak_x (true, false) a0) (f_normalize_weak_x (false, true) a0) (f_normalize_weak_x (false, false) a0).
Proof. intros. unfold f_normalize_weak_x. quad. Qed.
#[global] Hint Resolve f_normalize_weak_quad : quad.
Lemma f_normalize_var_quad : forall (a0 : field), quad (f_normalize_var_x (true, true) a0) (f_normalize_var_x (true, false) a0) (f_normalize_var_x (false, true) a0) (f_normalize_var_x (false, false) a0).
Proof. intros. unfold f_normalize_var_x. quad. Qed.
#[global] Hint Resolve f_normalize_var_quad : quad.
Lemma f_normalizes_to_zero_quad : forall (a0 : field), quad (f_normalizes_to_zero_x (true, true) a0) (f_normalizes_to_zero_x (true, false) a0) (f_normalizes_to_zero_x (false, true) a0) (f_normalizes_to_zero_x (false, false) a0).
Proof. intros. unfold f_normalizes_to_zero_x. quad. Qed.
#[global] Hint Resolve f_normalizes_to_zero_quad : quad.
Lemma f_normalizes_to_zero_var_quad : forall (a0 : field), quad (f_normalizes_to_zero_var_x (true, true) a0) (f_normalizes_to_zero_var_x (true, false) a0) (f_normalizes_to_zero_var_x (false, true) a0) (f_normalizes_to_zero_var_x (false, false) a0).
Proof. intros. unfold f_normalizes_to_zero_var_x. quad. Qed.
#[global] Hint Resolve f_normalizes_to_zero_var_quad : quad.
Lemma f_set_int_quad : forall (a0 : Z), quad (f_set_int_x (true, true) a0) (f_set_int_x (true, false) a0) (f_set_int_x (false, true) a0) (f_set_int_x (false, false) a0).
Proof. intros. unfold f_set_int_x. quad. Qed.
#[global] Hint Resolve f_set_int_quad : quad.
Lemma f_is_zero_quad : forall (a0 : field), quad (f_is_zero_x (true, true) a0) (f_is_zero_x (true, false) a0) (f_is_zero_x (false, true) a0) (f_is_zero_x (false, false) a0).
Proof. intros. unfold f_is_zero_x. quad. Qed.
#[global] Hint Resolve f_is_zero_quad : quad.
Lemma f_is_odd_quad : forall (a0 : field), quad (f_is_odd_x (true, true) a0) (f_is_odd_x (true, false) a0) (f_is_odd_x (false, true) a0) (f_is_odd_x (false, false) a0).
Proof. intros. unfold f_is_odd_x. quad. Qed.
#[global] Hint Resolve f_is_odd_quad : quad.
Lemma f_set_b32_quad : forall (a0 : field) (a1 : list Z), quad (f_set_b32_x (true, true) a0 a1) (f_set_b32_x (true, false) a0 a1) (f_set_b32_x (false, true) a0 a1) (f_set_b32_x (false, false) a0 a1).
Proof. intros. unfold f_set_b32_x. quad. Qed.
#[global] Hint Resolve f_set_b32_quad : quad.
Lemma f_b32_quad : forall (a0 : field), quad (f_b32_x (true, true) a0) (f_b32_x (true, false) a0) (f_b32_x (false, true) a0) (f_b32_x (false, false) a0).
Proof. intros. unfold f_b32_x. quad. Qed.
#[global] Hint Resolve f_b32_quad : quad.
Lemma f_neg_limb_quad : forall (a0 : Z) (a1 : Z) (a2 : Z), quad (f_neg_limb_x (true, true) a0 a1 a2) (f_neg_limb_x (true, false) a0 a1 a2) (f_neg_limb_x (false, true) a0 a1 a2) (f_neg_limb_x (false, false) a0 a1 a2).
Proof. intros. unfold f_neg_limb_x. quad. Qed.
#[global] Hint Resolve f_neg_limb_quad : quad.
Lemma f_neg_quad : forall (a0 : field) (a1 : Z), quad (f_neg_x (true, true) a0 a1) (f_neg_x (true, false) a0 a1) (f_neg_x (false, true) a0 a1) (f_neg_x (false, false) a0 a1).
Proof. intros. unfold f_neg_x. quad. Qed.
#[global] Hint Resolve f_neg_quad : quad.
Lemma f_mul_int_quad : forall (a0 : field) (a1 : Z), quad (f_mul_int_x (true, true) a0 a1) (f_mul_int_x (true, false) a0 a1) (f_mul_int_x (false, true) a0 a1) (f_mul_int_x (false, false) a0 a1).
Proof. intros. unfold f_mul_int_x. quad. Qed.
#[global] Hint Resolve f_mul_int_quad : quad.
Lemma f_add_quad : forall (a0 : field) (a1 : field), quad (f_add_x (true, true) a0 a1) (f_add_x (true, false) a0 a1) (f_add_x (false, true) a0 a1) (f_add_x (false, false) a0 a1).
Proof. intros. unfold f_add_x. quad. Qed.
#[global] Hint Resolve f_add_quad : quad.
Lemma f_cmp_var_quad : forall (a0 : field) (a1 : field), quad (f_cmp_var_x (true, true) a0 a1) (f_cmp_var_x (true, false) a0 a1) (f_cmp_var_x (false, true) a0 a1) (f_cmp_var_x (false, false) a0 a1).
Proof. intros. unfold f_cmp_var_x. quad. Qed.
#[global] Hint Resolve f_cmp_var_quad : quad.
Lemma f_ge_quad : forall (a0 : field) (a1 : field), quad (f_ge_x (true, true) a0 a1) (f_ge_x (true, false) a0 a1) (f_ge_x (false, true) a0 a1) (f_ge_x (false, false) a0 a1).
Proof. intros. unfold f_ge_x. quad. Qed.
#[global] Hint Resolve f_ge_quad : quad.
Lemma f_eq_var_quad : forall (a0 : field) (a1 : field), quad (f_eq_var_x (true, true) a0 a1) (f_eq_var_x (true, false) a0 a1) (f_eq_var_x (false, true) a0 a1) (f_eq_var_x (false, false) a0 a1).
Proof. intros. unfold f_eq_var_x. quad. Qed.
#[global] Hint Resolve f_eq_var_quad : quad.
Lemma f_eq_quad : forall (a0 : field) (a1 : field), quad (f_eq_x (true, true) a0 a1) (f_eq_x (true, false) a0 a1) (f_eq_x (false, true) a0 a1) (f_eq_x (false, false) a0 a1).
Proof. intros. unfold f_eq_x. quad. Qed.
#[global] Hint Resolve f_eq_quad : quad.
Lemma f_mul_inner_quad : forall (a0 : field) (a1 : field), quad (f_mul_inner_x (true, true) a0 a1) (f_mul_inner_x (true, false) a0 a1) (f_mul_inner_x (false, true) a0 a1) (f_mul_inner_x (false, false) a0 a1).
Proof. intros. unfold f_mul_inner_x. quad. Qed.
#[global] Hint Resolve f_mul_inner_quad : quad.
Lemma f_sqr_inner_quad : forall (a0 : field), quad (f_sqr_inner_x (true, true) a0) (f_sqr_inner_x (true, false) a0) (f_sqr_inner_x (false, true) a0) (f_sqr_inner_x (false, false) a0).
Proof. intros. unfold f_sqr_inner_x. quad. Qed.
#[global] Hint Resolve f_sqr_inner_quad : quad.
Lemma f_mul_quad : forall (a0 : field) (a1 : field), quad (f_mul_x (true, true) a0 a1) (f_mul_x (true, false) a0 a1) (f_mul_x (false, true) a0 a1) (f_mul_x (false, false) a0 a1).
Proof. intros. unfold f_mul_x. quad. Qed.
#[global] Hint Resolve f_mul_quad : quad.
Lemma f_sqr_quad : forall (a0 : field), quad (f_sqr_x (true, true) a0) (f_sqr_x (true, false) a0) (f_sqr_x (false, true) a0) (f_sqr_x (false, false) a0).
Proof. intros. unfold f_sqr_x. quad. Qed.
#[global] Hint Resolve f_sqr_quad : quad.
Lemma f_sqr_n_quad : forall (a0 : nat) (a1 : field), quad (f_sqr_n_x (true, true) a0 a1) (f_sqr_n_x (true, false) a0 a1) (f_sqr_n_x (false, true) a0 a1) (f_sqr_n_x (false, false) a0 a1).
Proof. induction a0 as [|? ? IH] || induction a0 as [|? IH]; intros; cbn [f_sqr_n_x]; quad. Qed.
#[global] Hint Resolve f_sqr_n_quad : quad.
Lemma f_chain223_quad : forall (a0 : field), quad (f_chain223_x (true, true) a0) (f_chain223_x (true, false) a0) (f_chain223_x (false, true) a0) (f_chain223_x (false, false) a0).
Proof. intros. unfold f_chain223_x. quad. Qed.
#[global] Hint Resolve f_chain223_quad : quad.
Lemma f_sqrt_quad : forall (a0 : field), quad (f_sqrt_x (true, true) a0) (f_sqrt_x (true, false) a0) (f_sqrt_x (false, true) a0) (f_sqrt_x (false, false) a0).
Proof. intros. unfold f_sqrt_x. quad. Qed.
#[global] Hint Resolve f_sqrt_quad : quad.
Lemma f_inv_quad : forall (a0 : field), quad (f_inv_x (true, true) a0) (f_inv_x (true, false) a0) (f_inv_x (false, true) a0) (f_inv_x (false, false) a0).
Proof. intros. unfold f_inv_x. quad. Qed.
#[global] Hint Resolve f_inv_quad : quad.
Lemma f_is_quad_var_quad : forall (a0 : field), quad (f_is_quad_var_x (true, true) a0) (f_is_quad_var_x (true, false) a0) (f_is_quad_var_x (false, true) a0) (f_is_quad_var_x (false, false) a0).
Proof. intros. unfold f_is_quad_var_x. quad. Qed.
#[global] Hint Resolve f_is_quad_var_quad : quad.
Lemma f_to_storage_quad : forall (a0 : field), quad (f_to_storage_x (true, true) a0) (f_to_storage_x (true, false) a0) (f_to_storage_x (false, true) a0) (f_to_storage_x (false, false) a0).
Proof. intros. unfold f_to_storage_x. quad. Qed.
#[global] Hint Resolve f_to_storage_quad : quad.
Lemma idx_range {A} (l : list A) i a : idx l i = Some a -> 0 <= i < Z.of_nat (length l).
Proof. unfold idx. destruct (Z.ltb_spec i 0) as [?E|?E]; [discriminate|]. intros H. assert (Z.to_nat i < length l)%nat by (apply nth_error_Some; congruence). lia. Qed.
Lemma shiftr5_range o : 0 <= Z.shiftr o 5 < 8 -> 0 <= o < 256.
Proof. rewrite Z.shiftr_div_pow2 by lia. change (2 ^ 5) with 32. intros H. pose proof (Z.div_mod o 32). pose proof (Z.mod_pos_bound o 32). lia. Qed.
Lemma uchk_in w b v : 0 <= v < 2 ^ w -> uchk w b v = Some v.
Proof. intros H. unfold uchk. destruct (Z.leb_spec 0 v) as [?E|?E]; [|lia]. destruct (Z.ltb_spec v (2 ^ w)) as [?F|?F]; [reflexivity | lia]. Qed.
Lemma s_bits_head a0 a1 a2 v : 0 <= a2 < 32 -> s_bits_x (true, false) a0 a1 a2 = Some v -> 0 <= a1 < 256 /\ 1 <= a1 + a2.
Proof.
  intros H2 E. unfold s_bits_x in E. cbv beta iota delta [fst snd] in E.
  assert (I : 0 <= a1 < 256).
  { destruct (bind (add64 false a1 a2) _) as [[]|]; [|discriminate]. change (bind (Some tt) ?f) with (f tt) in E. cbv beta in E.
    destruct (idx (s_limbs a0) (Z.shiftr a1 5)) as [w|] eqn:I; [|discriminate]. apply shiftr5_range. apply idx_range in I. destruct a0; cbn [s_limbs length] in I. lia. }
  split; [exact I|]. destruct (Z.leb_spec 1 (a1 + a2)) as [?L|?L]; [assumption|]. assert (a1 = 0) by lia. assert (a2 = 0) by lia. subst. vm_compute in E. discriminate.
Qed.
Lemma s_bits_both a0 a1 a2 : 0 <= a1 < 256 -> 0 <= a2 < 32 -> 1 <= a1 + a2 -> s_bits_x (true, true) a0 a1 a2 = s_bits_x (true, false) a0 a1 a2.
Proof.
  intros H1 H2 H3. unfold s_bits_x. cbv beta iota delta [fst snd]. unfold add64, sub64, sub32. rewrite !(uchk_in 64 _ (a1 + a2)) by (change (2 ^ 64) with 18446744073709551616; lia).
  change (bind (Some (a1 + a2)) ?f) with (f (a1 + a2)). cbv beta. rewrite !(uchk_in 64 _ (a1 + a2 - 1)) by (change (2 ^ 64) with 18446744073709551616; lia).
  unfold shlc32. destruct (Z.ltb_spec a2 32) as [?E|?E]; [|lia]. destruct (bind (Some (a1 + a2 - 1)) _); [|reflexivity]. change (bind (Some ?x) ?f) with (f x). cbv beta.
  destruct (idx _ _); [|reflexivity]. change (bind (Some ?x) ?f) with (f x). cbv beta. change (bind (Some ?x) ?f) with (f x). cbv beta. rewrite !uchk_in; [reflexivity| |].
  all: unfold shl32; rewrite Z.shiftl_mul_pow2, Z.mul_1_l by lia; pose proof (Z.pow_pos_nonneg 2 a2); pose proof (Z.pow_lt_mono_r 2 a2 32); rewrite Z.mod_small by lia; lia.
Qed.
Lemma s_bits_quad : forall (a0 : scalar) (a1 : Z) (a2 : Z), 0 <= a2 -> quad (s_bits_x (true, true) a0 a1 a2) (s_bits_x (true, false) a0 a1 a2) (s_bits_x (false, true) a0 a1 a2) (s_bits_x (false, false) a0 a1 a2).
Proof.
  intros a0 a1 a2 H2. split; [apply s_bits_off; split; auto|]. split; [apply s_bits_off; split; auto|]. intros v E F.
  assert (L : a2 < 32).
  { unfold s_bits_x in F. cbv beta iota delta [fst snd] in F. change (bind (Some tt) ?f) with (f tt) in F. cbv beta in F. destruct (idx _ _); [|discriminate]. change (bind (Some ?x) ?f) with (f x) in F. cbv beta in F.
    unfold shlc32 in F. destruct (Z.ltb_spec a2 32) as [?E|?E]; [assumption | discriminate]. }
  destruct (s_bits_head a0 a1 a2 v) as [P Q]; [lia | exact E|]. rewrite s_bits_both by lia. exact E.
Qed.
#[global] Hint Resolve s_bits_quad : quad.
#[global] Hint Extern 1 (0 <= _) => (vm_compute; discriminate) : quad.
Lemma s_bits_var_quad : forall (a0 : scalar) (a1 : Z) (a2 : Z), 0 <= a2 -> quad (s_bits_var_x (true, true) a0 a1 a2) (s_bits_var_x (true, false) a0 a1 a2) (s_bits_var_x (false, true) a0 a1 a2) (s_bits_var_x (false, false) a0 a1 a2).
Proof.
  intros a0 a1 a2 H2. split; [apply s_bits_var_off; split; auto|]. split; [apply s_bits_var_off; split; auto|]. intros v E F.
  assert (R : forall b, add64 b a1 a2 = Some (a1 + a2)).
  { intros b. unfold s_bits_var_x in F. cbv beta iota delta [fst snd] in F. change (dassert false (a2 <? 32)) with (Some tt) in F. change (bind (Some tt) ?f) with (f tt) in F. cbv beta in F. unfold add64 in *. unfold uchk in F at 1 |- *.
    destruct ((0 <=? a1 + a2) && (a1 + a2 <? 2 ^ 64)); [reflexivity | discriminate]. }
  revert E F. unfold s_bits_var_x. cbv beta iota delta [fst snd]. rewrite !R. revert v. match goal with |- forall v, ?xa = Some v -> ?xo = Some v -> ?xb = Some v => enough (Q : exists xn, quad xb xa xo xn) by (destruct Q as [? Q]; exact (proj2 (proj2 Q))) end.
  exists (bind (dassert false (a2 <? 32)) (fun _ => bind (Some tt) (fun _ => bind (Some (a1 + a2)) (fun q1 => bind (sub64 false q1 1) (fun q2 =>
    if Z.shiftr q2 5 =? Z.shiftr a1 5 then s_bits_x (false, false) a0 a1 a2 else bind (dassert false (Z.shiftr a1 5 + 1 <? 8)) (fun _ =>
    bind (idx (s_limbs a0) (Z.shiftr a1 5)) (fun w0 => bind (idx (s_limbs a0) (Z.shiftr a1 5 + 1)) (fun w1 => bind (shlc32 false w1 (32 - Z.land a1 31)) (fun hi =>
    bind (shlc32 false 1 a2) (fun q3 => bind (sub32 false q3 1) (fun q4 => Some (Z.land (Z.lor (Z.shiftr w0 (Z.land a1 31)) hi) q4)))))))))))).
  repeat match goal with |- quad (s_bits_x _ _ _ _) _ _ _ => apply s_bits_quad; exact H2 | _ => quad1 end.
Qed.
#[global] Hint Resolve s_bits_var_quad : quad.
Lemma s_reduce_quad : forall (a0 : scalar) (a1 : Z), quad (s_reduce_x (true, true) a0 a1) (s_reduce_x (true, false) a0 a1) (s_reduce_x (false, true) a0 a1) (s_reduce_x (false, false) a0 a1).
Proof. intros. unfold s_reduce_x. quad. Qed.
#[global] Hint Resolve s_reduce_quad : quad.
Lemma cadd_step_quad : forall (a0 : Z) (a1 : Z) (a2 : Z) (a3 : Z), quad (cadd_step_x (true, true) a0 a1 a2 a3) (cadd_step_x (true, false) a0 a1 a2 a3) (cadd_step_x (false, true) a0 a1 a2 a3) (cadd_step_x (false, false) a0 a1 a2 a3).
Proof. intros. unfold cadd_step_x. quad. Qed.
#[global] Hint Resolve cadd_step_quad : quad.
Lemma s_cadd_bit_quad : forall (a0 : scalar) (a1 : Z) (a2 : bool), quad (s_cadd_bit_x (true, true) a0 a1 a2) (s_cadd_bit_x (true, false) a0 a1 a2) (s_cadd_bit_x (false, true) a0 a1 a2) (s_cadd_bit_x (false, false) a0 a1 a2).
Proof. intros. unfold s_cadd_bit_x. quad. Qed.
#[global] Hint Resolve s_cadd_bit_quad : quad.
Lemma s_set_b32_quad : forall (a0 : list Z), quad (s_set_b32_x (true, true) a0) (s_set_b32_x (true, false) a0) (s_set_b32_x (false, true) a0) (s_set_b32_x (false, false) a0).
Proof. intros. unfold s_set_b32_x. quad. Qed.
#[global] Hint Resolve s_set_b32_quad : quad.
Lemma cneg_step_quad : forall (a0 : Z) (a1 : Z) (a2 : Z) (a3 : Z) (a4 : Z), quad (cneg_step_x (true, true) a0 a1 a2 a3 a4) (cneg_step_x (true, false) a0 a1 a2 a3 a4) (cneg_step_x (false, true) a0 a1 a2 a3 a4) (cneg_step_x (false, false) a0 a1 a2 a3 a4).
Proof. intros. unfold cneg_step_x. quad. Qed.
#[global] Hint Resolve cneg_step_quad : quad.
Lemma s_cond_neg_quad : forall (a0 : scalar) (a1 : bool), quad (s_cond_neg_x (true, true) a0 a1) (s_cond_neg_x (true, false) a0 a1) (s_cond_neg_x (false, true) a0 a1) (s_cond_neg_x (false, false) a0 a1).
Proof. intros. unfold s_cond_neg_x. quad. Qed.
#[global] Hint Resolve s_cond_neg_quad : quad.
Lemma s_neg_quad : forall (a0 : scalar), quad (s_neg_x (true, true) a0) (s_neg_x (true, false) a0) (s_neg_x (false, true) a0) (s_neg_x (false, false) a0).
Proof. intros. unfold s_neg_x. quad. Qed.
#[global] Hint Resolve s_neg_quad : quad.
Lemma a_muladd_quad : forall (a0 : Z) (a1 : Z) (a2 : acc), quad (a_muladd_x (true, true) a0 a1 a2) (a_muladd_x (true, false) a0 a1 a2) (a_muladd_x (false, true) a0 a1 a2) (a_muladd_x (false, false) a0 a1 a2).
Proof. intros. unfold a_muladd_x. quad. Qed.
#[global] Hint Resolve a_muladd_quad : quad.
Lemma a_muladd_fast_quad : forall (a0 : Z) (a1 : Z) (a2 : acc), quad (a_muladd_fast_x (true, true) a0 a1 a2) (a_muladd_fast_x (true, false) a0 a1 a2) (a_muladd_fast_x (false, true) a0 a1 a2) (a_muladd_fast_x (false, false) a0 a1 a2).
Proof. intros. unfold a_muladd_fast_x. quad. Qed.
#[global] Hint Resolve a_muladd_fast_quad : quad.
Lemma a_muladd2_quad : forall (a0 : Z) (a1 : Z) (a2 : acc), quad (a_muladd2_x (true, true) a0 a1 a2) (a_muladd2_x (true, false) a0 a1 a2) (a_muladd2_x (false, true) a0 a1 a2) (a_muladd2_x (false, false) a0 a1 a2).
Proof. intros. unfold a_muladd2_x. quad. Qed.
#[global] Hint Resolve a_muladd2_quad : quad.
Lemma a_sumadd_fast_quad : forall (a0 : Z) (a1 : acc), quad (a_sumadd_fast_x (true, true) a0 a1) (a_sumadd_fast_x (true, false) a0 a1) (a_sumadd_fast_x (false, true) a0 a1) (a_sumadd_fast_x (false, false) a0 a1).
Proof. intros. unfold a_sumadd_fast_x. quad. Qed.
#[global] Hint Resolve a_sumadd_fast_quad : quad.
Lemma a_extract_fast_quad : forall (a0 : acc), quad (a_extract_fast_x (true, true) a0) (a_extract_fast_x (true, false) a0) (a_extract_fast_x (false, true) a0) (a_extract_fast_x (false, false) a0).
Proof. intros. unfold a_extract_fast_x. quad. Qed.
#[global] Hint Resolve a_extract_fast_quad : quad.
Lemma s_red_a_quad : forall (a0 : list Z), quad (s_red_a_x (true, true) a0) (s_red_a_x (true, false) a0) (s_red_a_x (false, true) a0) (s_red_a_x (false, false) a0).
Proof. intros. unfold s_red_a_x. quad. Qed.
#[global] Hint Resolve s_red_a_quad : quad.
Lemma s_red_b_quad : forall (a0 : list Z), quad (s_red_b_x (true, true) a0) (s_red_b_x (true, false) a0) (s_red_b_x (false, true) a0) (s_red_b_x (false, false) a0).
Proof. intros. unfold s_red_b_x. quad. Qed.
#[global] Hint Resolve s_red_b_quad : quad.
Lemma s_red_c_quad : forall (a0 : list Z), quad (s_red_c_x (true, true) a0) (s_red_c_x (true, false) a0) (s_red_c_x (false, true) a0) (s_red_c_x (false, false) a0).
Proof. intros. unfold s_red_c_x. quad. Qed.
#[global] Hint Resolve s_red_c_quad : quad.
Lemma s_reduce_512_quad : forall (a0 : list Z), quad (s_reduce_512_x (true, true) a0) (s_reduce_512_x (true, false) a0) (s_reduce_512_x (false, true) a0) (s_reduce_512_x (false, false) a0).
Proof. intros. unfold s_reduce_512_x. quad. Qed.
#[global] Hint Resolve s_reduce_512_quad : quad.
Lemma s_mul_512_quad : forall (a0 : scalar) (a1 : scalar), quad (s_mul_512_x (true, true) a0 a1) (s_mul_512_x (true, false) a0 a1) (s_mul_512_x (false, true) a0 a1) (s_mul_512_x (false, false) a0 a1).
Proof. intros. unfold s_mul_512_x. quad. Qed.
#[global] Hint Resolve s_mul_512_quad : quad.
Lemma s_sqr_512_quad : forall (a0 : scalar), quad (s_sqr_512_x (true, true) a0) (s_sqr_512_x (true, false) a0) (s_sqr_512_x (false, true) a0) (s_sqr_512_x (false, false) a0).
Proof. intros. unfold s_sqr_512_x. quad. Qed.
#[global] Hint Resolve s_sqr_512_quad : quad.
Lemma s_mul_quad : forall (a0 : scalar) (a1 : scalar), quad (s_mul_x (true, true) a0 a1) (s_mul_x (true, false) a0 a1) (s_mul_x (false, true) a0 a1) (s_mul_x (false, false) a0 a1).
Proof. intros. unfold s_mul_x. quad. Qed.
#[global] Hint Resolve s_mul_quad : quad.
Lemma s_sqr_quad : forall (a0 : scalar), quad (s_sqr_x (true, true) a0) (s_sqr_x (true, false) a0) (s_sqr_x (false, true) a0) (s_sqr_x (false, false) a0).
Proof. intros. unfold s_sqr_x. quad. Qed.
#[global] Hint Resolve s_sqr_quad : quad.
Lemma s_sqr_n_quad : forall (a0 : nat) (a1 : scalar), quad (s_sqr_n_x (true, true) a0 a1) (s_sqr_n_x (true, false) a0 a1) (s_sqr_n_x (false, true) a0 a1) (s_sqr_n_x (false, false) a0 a1).
Proof. induction a0 as [|? ? IH] || induction a0 as [|? IH]; intros; cbn [s_sqr_n_x]; quad. Qed.
#[global] Hint Resolve s_sqr_n_quad : quad.
Lemma shr_step_quad : forall (a0 : Z) (a1 : Z) (a2 : Z), quad (shr_step_x (true, true) a0 a1 a2) (shr_step_x (true, false) a0 a1 a2) (shr_step_x (false, true) a0 a1 a2) (shr_step_x (false, false) a0 a1 a2).
Proof. intros. unfold shr_step_x. quad. Qed.
#[global] Hint Resolve shr_step_quad : quad.
Lemma s_shr_int_quad : forall (a0 : scalar) (a1 : Z), quad (s_shr_int_x (true, true) a0 a1) (s_shr_int_x (true, false) a0 a1) (s_shr_int_x (false, true) a0 a1) (s_shr_int_x (false, false) a0 a1).
Proof. intros. unfold s_shr_int_x. quad. Qed.
#[global] Hint Resolve s_shr_int_quad : quad.
Lemma s_inv_quad : forall (a0 : scalar), quad (s_inv_x (true, true) a0) (s_inv_x (true, false) a0) (s_inv_x (false, true) a0) (s_inv_x (false, false) a0).
Proof. intros. unfold s_inv_x. quad. Qed.
#[global] Hint Resolve s_inv_quad : quad.
Lemma sadd_step_quad : forall (a0 : Z) (a1 : Z) (a2 : Z), quad (sadd_step_x (true, true) a0 a1 a2) (sadd_step_x (true, false) a0 a1 a2) (sadd_step_x (false, true) a0 a1 a2) (sadd_step_x (false, false) a0 a1 a2).
Proof. intros. unfold sadd_step_x. quad. Qed.
#[global] Hint Resolve sadd_step_quad : quad.
Lemma s_add_quad : forall (a0 : scalar) (a1 : scalar), quad (s_add_x (true, true) a0 a1) (s_add_x (true, false) a0 a1) (s_add_x (false, true) a0 a1) (s_add_x (false, false) a0 a1).
Proof. intros. unfold s_add_x. quad. Qed.
#[global] Hint Resolve s_add_quad : quad.
Lemma af_set_xquad_quad : forall (a0 : field), quad (af_set_xquad_x (true, true) a0) (af_set_xquad_x (true, false) a0) (af_set_xquad_x (false, true) a0) (af_set_xquad_x (false, false) a0).
Proof. intros. unfold af_set_xquad_x. quad. Qed.
#[global] Hint Resolve af_set_xquad_quad : quad.
Lemma af_set_xo_var_quad : forall (a0 : field) (a1 : bool), quad (af_set_xo_var_x (true, true) a0 a1) (af_set_xo_var_x (true, false) a0 a1) (af_set_xo_var_x (false, true) a0 a1) (af_set_xo_var_x (false, false) a0 a1).
Proof. intros. unfold af_set_xo_var_x. quad. Qed.
#[global] Hint Resolve af_set_xo_var_quad : quad.
Lemma af_is_valid_var_quad : forall (a0 : affine), quad (af_is_valid_var_x (true, true) a0) (af_is_valid_var_x (true, false) a0) (af_is_valid_var_x (false, true) a0) (af_is_valid_var_x (false, false) a0).
Proof. intros. unfold af_is_valid_var_x. quad. Qed.
#[global] Hint Resolve af_is_valid_var_quad : quad.
Lemma af_neg_quad : forall (a0 : affine), quad (af_neg_x (true, true) a0) (af_neg_x (true, false) a0) (af_neg_x (false, true) a0) (af_neg_x (false, false) a0).
Proof. intros. unfold af_neg_x. quad. Qed.
#[global] Hint Resolve af_neg_quad : quad.
Lemma af_eq_quad : forall (a0 : affine) (a1 : affine), quad (af_eq_x (true, true) a0 a1) (af_eq_x (true, false) a0 a1) (af_eq_x (false, true) a0 a1) (af_eq_x (false, false) a0 a1).
Proof. intros. unfold af_eq_x. quad. Qed.
#[global] Hint Resolve af_eq_quad : quad.
Lemma af_set_gej_quad : forall (a0 : jac), quad (af_set_gej_x (true, true) a0) (af_set_gej_x (true, false) a0) (af_set_gej_x (false, true) a0) (af_set_gej_x (false, false) a0).
Proof. intros. unfold af_set_gej_x. quad. Qed.
#[global] Hint Resolve af_set_gej_quad : quad.
Lemma af_set_gej_var_quad : forall (a0 : affine) (a1 : jac), quad (af_set_gej_var_x (true, true) a0 a1) (af_set_gej_var_x (true, false) a0 a1) (af_set_gej_var_x (false, true) a0 a1) (af_set_gej_var_x (false, false) a0 a1).
Proof. intros. unfold af_set_gej_var_x. quad. Qed.
#[global] Hint Resolve af_set_gej_var_quad : quad.
Lemma af_set_gej_zinv_quad : forall (a0 : jac) (a1 : field), quad (af_set_gej_zinv_x (true, true) a0 a1) (af_set_gej_zinv_x (true, false) a0 a1) (af_set_gej_zinv_x (false, true) a0 a1) (af_set_gej_zinv_x (false, false) a0 a1).
Proof. intros. unfold af_set_gej_zinv_x. quad. Qed.
#[global] Hint Resolve af_set_gej_zinv_quad : quad.
Lemma set_table_loop_quad : forall (a0 : list jac) (a1 : list field) (a2 : field) (a3 : list affine), quad (set_table_loop_x (true, true) a0 a1 a2 a3) (set_table_loop_x (true, false) a0 a1 a2 a3) (set_table_loop_x (false, true) a0 a1 a2 a3) (set_table_loop_x (false, false) a0 a1 a2 a3).
Proof. induction a0 as [|? ? IH] || induction a0 as [|? IH]; intros; cbn [set_table_loop_x]; quad. Qed.
#[global] Hint Resolve set_table_loop_quad : quad.
Lemma set_table_gej_var_quad : forall (a0 : list jac) (a1 : list field), quad (set_table_gej_var_x (true, true) a0 a1) (set_table_gej_var_x (true, false) a0 a1) (set_table_gej_var_x (false, true) a0 a1) (set_table_gej_var_x (false, false) a0 a1).
Proof. intros. unfold set_table_gej_var_x. quad. Qed.
#[global] Hint Resolve set_table_gej_var_quad : quad.
Lemma globalz_set_table_gej_quad : forall (a0 : list jac) (a1 : list field), quad (globalz_set_table_gej_x (true, true) a0 a1) (globalz_set_table_gej_x (true, false) a0 a1) (globalz_set_table_gej_x (false, true) a0 a1) (globalz_set_table_gej_x (false, false) a0 a1).
Proof. intros. unfold globalz_set_table_gej_x. quad. Qed.
#[global] Hint Resolve globalz_set_table_gej_quad : quad.
Lemma j_set_ge_quad : forall (a0 : affine), quad (j_set_ge_x (true, true) a0) (j_set_ge_x (true, false) a0) (j_set_ge_x (false, true) a0) (j_set_ge_x (false, false) a0).
Proof. intros. unfold j_set_ge_x. quad. Qed.
#[global] Hint Resolve j_set_ge_quad : quad.
Lemma j_eq_x_var_quad : forall (a0 : jac) (a1 : field), quad (j_eq_x_var_x (true, true) a0 a1) (j_eq_x_var_x (true, false) a0 a1) (j_eq_x_var_x (false, true) a0 a1) (j_eq_x_var_x (false, false) a0 a1).
Proof. intros. unfold j_eq_x_var_x. quad. Qed.
#[global] Hint Resolve j_eq_x_var_quad : quad.
Lemma j_neg_quad : forall (a0 : jac), quad (j_neg_x (true, true) a0) (j_neg_x (true, false) a0) (j_neg_x (false, true) a0) (j_neg_x (false, false) a0).
Proof. intros. unfold j_neg_x. quad. Qed.
#[global] Hint Resolve j_neg_quad : quad.
Lemma j_has_quad_y_var_quad : forall (a0 : jac), quad (j_has_quad_y_var_x (true, true) a0) (j_has_quad_y_var_x (true, false) a0) (j_has_quad_y_var_x (false, true) a0) (j_has_quad_y_var_x (false, false) a0).
Proof. intros. unfold j_has_quad_y_var_x. quad. Qed.
#[global] Hint Resolve j_has_quad_y_var_quad : quad.
Lemma j_double_var_in_place_quad : forall (a0 : jac) (a1 : jac) (a2 : option field), quad (j_double_var_in_place_x (true, true) a0 a1 a2) (j_double_var_in_place_x (true, false) a0 a1 a2) (j_double_var_in_place_x (false, true) a0 a1 a2) (j_double_var_in_place_x (false, false) a0 a1 a2).
Proof. intros. unfold j_double_var_in_place_x. quad. Qed.
#[global] Hint Resolve j_double_var_in_place_quad : quad.
Lemma j_double_var_quad : forall (a0 : jac) (a1 : option field), quad (j_double_var_x (true, true) a0 a1) (j_double_var_x (true, false) a0 a1) (j_double_var_x (false, true) a0 a1) (j_double_var_x (false, false) a0 a1).
Proof. intros. unfold j_double_var_x. quad. Qed.
#[global] Hint Resolve j_double_var_quad : quad.
Lemma j_double_quad : forall (a0 : jac), quad (j_double_x (true, true) a0) (j_double_x (true, false) a0) (j_double_x (false, true) a0) (j_double_x (false, false) a0).
Proof. intros. unfold j_double_x. quad. Qed.
#[global] Hint Resolve j_double_quad : quad.
Lemma j_double_nonzero_in_place_quad : forall (a0 : jac) (a1 : jac), quad (j_double_nonzero_in_place_x (true, true) a0 a1) (j_double_nonzero_in_place_x (true, false) a0 a1) (j_double_nonzero_in_place_x (false, true) a0 a1) (j_double_nonzero_in_place_x (false, false) a0 a1).
Proof. intros. unfold j_double_nonzero_in_place_x. quad. Qed.
#[global] Hint Resolve j_double_nonzero_in_place_quad : quad.
Lemma j_add_tail_quad : forall (a0 : field) (a1 : field) (a2 : field) (a3 : field) (a4 : field) (a5 : field) (a6 : field), quad (j_add_tail_x (true, true) a0 a1 a2 a3 a4 a5 a6) (j_add_tail_x (true, false) a0 a1 a2 a3 a4 a5 a6) (j_add_tail_x (false, true) a0 a1 a2 a3 a4 a5 a6) (j_add_tail_x (false, false) a0 a1 a2 a3 a4 a5 a6).
Proof. intros. unfold j_add_tail_x. quad. Qed.
#[global] Hint Resolve j_add_tail_quad : quad.
Lemma j_add_same_x_quad : forall (a0 : jac) (a1 : field) (a2 : option field), quad (j_add_same_x_x (true, true) a0 a1 a2) (j_add_same_x_x (true, false) a0 a1 a2) (j_add_same_x_x (false, true) a0 a1 a2) (j_add_same_x_x (false, false) a0 a1 a2).
Proof. intros. unfold j_add_same_x_x. quad. Qed.
#[global] Hint Resolve j_add_same_x_quad : quad.
Lemma j_add_var_quad : forall (a0 : jac) (a1 : jac) (a2 : option field), quad (j_add_var_x (true, true) a0 a1 a2) (j_add_var_x (true, false) a0 a1 a2) (j_add_var_x (false, true) a0 a1 a2) (j_add_var_x (false, false) a0 a1 a2).
Proof. intros. unfold j_add_var_x. quad. Qed.
#[global] Hint Resolve j_add_var_quad : quad.
Lemma j_add_quad : forall (a0 : jac) (a1 : jac), quad (j_add_x (true, true) a0 a1) (j_add_x (true, false) a0 a1) (j_add_x (false, true) a0 a1) (j_add_x (false, false) a0 a1).
Proof. intros. unfold j_add_x. quad. Qed.
#[global] Hint Resolve j_add_quad : quad.
Lemma j_add_ge_quad : forall (a0 : jac) (a1 : affine), quad (j_add_ge_x (true, true) a0 a1) (j_add_ge_x (true, false) a0 a1) (j_add_ge_x (false, true) a0 a1) (j_add_ge_x (false, false) a0 a1).
Proof. intros. unfold j_add_ge_x. quad. Qed.
#[global] Hint Resolve j_add_ge_quad : quad.
Lemma j_add_ge_var_quad : forall (a0 : jac) (a1 : affine) (a2 : option field), quad (j_add_ge_var_x (true, true) a0 a1 a2) (j_add_ge_var_x (true, false) a0 a1 a2) (j_add_ge_var_x (false, true) a0 a1 a2) (j_add_ge_var_x (false, false) a0 a1 a2).
Proof. intros. unfold j_add_ge_var_x. quad. Qed.
#[global] Hint Resolve j_add_ge_var_quad : quad.
Lemma j_add_ge_v_quad : forall (a0 : jac) (a1 : affine), quad (j_add_ge_v_x (true, true) a0 a1) (j_add_ge_v_x (true, false) a0 a1) (j_add_ge_v_x (false, true) a0 a1) (j_add_ge_v_x (false, false) a0 a1).
Proof. intros. unfold j_add_ge_v_x. quad. Qed.
#[global] Hint Resolve j_add_ge_v_quad : quad.
Lemma j_add_zinv_var_quad : forall (a0 : jac) (a1 : affine) (a2 : field), quad (j_add_zinv_var_x (true, true) a0 a1 a2) (j_add_zinv_var_x (true, false) a0 a1 a2) (j_add_zinv_var_x (false, true) a0 a1 a2) (j_add_zinv_var_x (false, false) a0 a1 a2).
Proof. intros. unfold j_add_zinv_var_x. quad. Qed.
#[global] Hint Resolve j_add_zinv_var_quad : quad.
Lemma j_rescale_quad : forall (a0 : jac) (a1 : field), quad (j_rescale_x (true, true) a0 a1) (j_rescale_x (true, false) a0 a1) (j_rescale_x (false, true) a0 a1) (j_rescale_x (false, false) a0 a1).
Proof. intros. unfold j_rescale_x. cbv beta iota delta [fst snd]. change (f_is_zero_x (true, true) a1) with (f_is_zero_x (true, false) a1). apply quad_bind; [apply quad_a, ref_unit|]. intros _. quad. Qed.
#[global] Hint Resolve j_rescale_quad : quad.
Lemma af_to_storage_quad : forall (a0 : affine), quad (af_to_storage_x (true, true) a0) (af_to_storage_x (true, false) a0) (af_to_storage_x (false, true) a0) (af_to_storage_x (false, false) a0).
Proof. intros. unfold af_to_storage_x. quad. Qed.
#[global] Hint Resolve af_to_storage_quad : quad.
Lemma odd_mult_loop_quad : forall (a0 : nat) (a1 : jac) (a2 : affine), quad (odd_mult_loop_x (true, true) a0 a1 a2) (odd_mult_loop_x (true, false) a0 a1 a2) (odd_mult_loop_x (false, true) a0 a1 a2) (odd_mult_loop_x (false, false) a0 a1 a2).
Proof. induction a0 as [|? ? IH] || induction a0 as [|? IH]; intros; cbn [odd_mult_loop_x]; quad. Qed.
#[global] Hint Resolve odd_mult_loop_quad : quad.
Lemma scale_last_quad : forall (a0 : list jac) (a1 : field), quad (scale_last_x (true, true) a0 a1) (scale_last_x (true, false) a0 a1) (scale_last_x (false, true) a0 a1) (scale_last_x (false, false) a0 a1).
Proof. induction a0 as [|? ? IH] || induction a0 as [|? IH]; intros; cbn [scale_last_x]; quad. Qed.
#[global] Hint Resolve scale_last_quad : quad.
Lemma odd_multiples_table_quad : forall (a0 : nat) (a1 : jac), quad (odd_multiples_table_x (true, true) a0 a1) (odd_multiples_table_x (true, false) a0 a1) (odd_multiples_table_x (false, true) a0 a1) (odd_multiples_table_x (false, false) a0 a1).
Proof. intros. unfold odd_multiples_table_x. quad. Qed.
#[global] Hint Resolve odd_multiples_table_quad : quad.
Lemma odd_multiples_table_globalz_windowa_quad : forall (a0 : jac), quad (odd_multiples_table_globalz_windowa_x (true, true) a0) (odd_multiples_table_globalz_windowa_x (true, false) a0) (odd_multiples_table_globalz_windowa_x (false, true) a0) (odd_multiples_table_globalz_windowa_x (false, false) a0).
Proof. intros. unfold odd_multiples_table_globalz_windowa_x. quad. Qed.
#[global] Hint Resolve odd_multiples_table_globalz_windowa_quad : quad.
Lemma odd_multiples_table_storage_var_quad : forall (a0 : nat) (a1 : jac), quad (odd_multiples_table_storage_var_x (true, true) a0 a1) (odd_multiples_table_storage_var_x (true, false) a0 a1) (odd_multiples_table_storage_var_x (false, true) a0 a1) (odd_multiples_table_storage_var_x (false, false) a0 a1).
Proof. intros. unfold odd_multiples_table_storage_var_x. quad. Qed.
#[global] Hint Resolve odd_multiples_table_storage_var_quad : quad.
Lemma ecmult_context_new_quad : quad (ecmult_context_new_x (true, true)) (ecmult_context_new_x (true, false)) (ecmult_context_new_x (false, true)) (ecmult_context_new_x (false, false)).
Proof. intros. unfold ecmult_context_new_x. quad. Qed.
#[global] Hint Resolve ecmult_context_new_quad : quad.
Lemma run_products_quad : forall (a1 : list field) (a0 : field) (a2 : list field), quad (run_products_x (true, true) a0 a1 a2) (run_products_x (true, false) a0 a1 a2) (run_products_x (false, true) a0 a1 a2) (run_products_x (false, false) a0 a1 a2).
Proof. induction a1 as [|? ? IH] || induction a1 as [|? IH]; intros; cbn [run_products_x]; quad. Qed.
#[global] Hint Resolve run_products_quad : quad.
Lemma inv_down_quad : forall (a0 : list field) (a1 : list field) (a2 : field) (a3 : list field), quad (inv_down_x (true, true) a0 a1 a2 a3) (inv_down_x (true, false) a0 a1 a2 a3) (inv_down_x (false, true) a0 a1 a2 a3) (inv_down_x (false, false) a0 a1 a2 a3).
Proof. induction a0 as [|? ? IH] || induction a0 as [|? IH]; intros; cbn [inv_down_x]; quad. Qed.
#[global] Hint Resolve inv_down_quad : quad.
Lemma inv_all_var_quad : forall (a0 : list field), quad (inv_all_var_x (true, true) a0) (inv_all_var_x (true, false) a0) (inv_all_var_x (false, true) a0) (inv_all_var_x (false, false) a0).
Proof. intros. unfold inv_all_var_x. quad. Qed.
#[global] Hint Resolve inv_all_var_quad : quad.
Lemma set_all_loop_quad : forall (a0 : list jac) (a1 : list field), quad (set_all_loop_x (true, true) a0 a1) (set_all_loop_x (true, false) a0 a1) (set_all_loop_x (false, true) a0 a1) (set_all_loop_x (false, false) a0 a1).
Proof. induction a0 as [|? ? IH] || induction a0 as [|? IH]; intros; cbn [set_all_loop_x]; quad. Qed.
#[global] Hint Resolve set_all_loop_quad : quad.
Lemma set_all_gej_var_quad : forall (a0 : list jac), quad (set_all_gej_var_x (true, true) a0) (set_all_gej_var_x (true, false) a0) (set_all_gej_var_x (false, true) a0) (set_all_gej_var_x (false, false) a0).
Proof. intros. unfold set_all_gej_var_x. quad. Qed.
#[global] Hint Resolve set_all_gej_var_quad : quad.
Lemma gen_row_quad : forall (a0 : nat) (a1 : jac) (a2 : jac), quad (gen_row_x (true, true) a0 a1 a2) (gen_row_x (true, false) a0 a1 a2) (gen_row_x (false, true) a0 a1 a2) (gen_row_x (false, false) a0 a1 a2).
Proof. induction a0 as [|? ? IH] || induction a0 as [|? IH]; intros; cbn [gen_row_x]; quad. Qed.
#[global] Hint Resolve gen_row_quad : quad.
Lemma gen_rows_quad : forall (a0 : nat) (a1 : Z) (a2 : jac) (a3 : jac) (a4 : jac), quad (gen_rows_x (true, true) a0 a1 a2 a3 a4) (gen_rows_x (true, false) a0 a1 a2 a3 a4) (gen_rows_x (false, true) a0 a1 a2 a3 a4) (gen_rows_x (false, false) a0 a1 a2 a3 a4).
Proof. induction a0 as [|? ? IH] || induction a0 as [|? IH]; intros; cbn [gen_rows_x]; quad. Qed.
#[global] Hint Resolve gen_rows_quad : quad.
Lemma ecmult_gen_context_new_quad : quad (ecmult_gen_context_new_x (true, true)) (ecmult_gen_context_new_x (true, false)) (ecmult_gen_context_new_x (false, true)) (ecmult_gen_context_new_x (false, false)).
Proof. intros. unfold ecmult_gen_context_new_x. quad. Qed.
#[global] Hint Resolve ecmult_gen_context_new_quad : quad.
Lemma digit_asserts_quad : forall (a0 : Z) (a1 : Z), quad (digit_asserts_x (true, true) a0 a1) (digit_asserts_x (true, false) a0 a1) (digit_asserts_x (false, true) a0 a1) (digit_asserts_x (false, false) a0 a1).
Proof. intros. unfold digit_asserts_x. quad. Qed.
#[global] Hint Resolve digit_asserts_quad : quad.
Lemma table_get_ge_quad : forall (a0 : list affine) (a1 : Z) (a2 : Z), quad (table_get_ge_x (true, true) a0 a1 a2) (table_get_ge_x (true, false) a0 a1 a2) (table_get_ge_x (false, true) a0 a1 a2) (table_get_ge_x (false, false) a0 a1 a2).
Proof. intros. unfold table_get_ge_x. quad. Qed.
#[global] Hint Resolve table_get_ge_quad : quad.
Lemma table_get_ge_const_quad : forall (a0 : affine) (a1 : list affine) (a2 : Z) (a3 : Z), quad (table_get_ge_const_x (true, true) a0 a1 a2 a3) (table_get_ge_const_x (true, false) a0 a1 a2 a3) (table_get_ge_const_x (false, true) a0 a1 a2 a3) (table_get_ge_const_x (false, false) a0 a1 a2 a3).
Proof. intros. unfold table_get_ge_const_x. quad. Qed.
#[global] Hint Resolve table_get_ge_const_quad : quad.
Lemma table_get_ge_storage_quad : forall (a0 : list astorage) (a1 : Z) (a2 : Z), quad (table_get_ge_storage_x (true, true) a0 a1 a2) (table_get_ge_storage_x (true, false) a0 a1 a2) (table_get_ge_storage_x (false, true) a0 a1 a2) (table_get_ge_storage_x (false, false) a0 a1 a2).
Proof. intros. unfold table_get_ge_storage_x. quad. Qed.
#[global] Hint Resolve table_get_ge_storage_quad : quad.
Lemma wnaf_loop_quad : forall (a0 : nat) (a1 : scalar) (a2 : Z) (a3 : Z) (a4 : Z) (a5 : Z) (a6 : Z) (a7 : Z) (a8 : list Z), 0 <= a3 -> quad (wnaf_loop_x (true, true) a0 a1 a2 a3 a4 a5 a6 a7 a8) (wnaf_loop_x (true, false) a0 a1 a2 a3 a4 a5 a6 a7 a8) (wnaf_loop_x (false, true) a0 a1 a2 a3 a4 a5 a6 a7 a8) (wnaf_loop_x (false, false) a0 a1 a2 a3 a4 a5 a6 a7 a8).
Proof.
  induction a0 as [|k IH]; intros a1 a2 a3 a4 a5 a6 a7 a8 H; cbn [wnaf_loop_x]; destruct (Z.ltb_spec a5 a2) as [?L|?L]; try (lazymatch goal with |- quad ?x ?x ?x ?x => apply quad_refl end).
  apply quad_bind; [apply s_bits_quad; lia|]. intros b. destruct (b =? a6); [apply IH; exact H|].
  assert (N : 0 <= (if a2 - a5 <? a3 then a2 - a5 else a3)) by (destruct (a2 - a5 <? a3); lia). revert N. generalize (if a2 - a5 <? a3 then a2 - a5 else a3) as now. intros now N. repeat change (bind (Some now) ?f) with (f now). cbv beta.
  apply quad_bind; [apply s_bits_var_quad; exact N|]. intros bv. cbv beta iota delta [fst snd]. repeat match goal with |- quad (wnaf_loop_x _ _ _ _ _ _ _ _ _ _) _ _ _ => apply IH; exact H | _ => quad1 end.
Qed.
#[global] Hint Resolve wnaf_loop_quad : quad.
Lemma s_bits_one a0 a1 : a1 < 256 -> s_bits_x (true, true) a0 a1 1 = s_bits_x (true, false) a0 a1 1.
Proof.
  intros H. destruct (Z.leb_spec 0 a1) as [?L|?L]; [apply s_bits_both; lia|].
  assert (N : idx (s_limbs a0) (Z.shiftr a1 5) = None) by (unfold idx; destruct (Z.ltb_spec (Z.shiftr a1 5) 0) as [?E|?E]; [reflexivity | apply Z.shiftr_nonneg in E; lia]).
  unfold s_bits_x. cbv beta iota delta [fst snd]. rewrite N. destruct (bind (add64 true a1 1) _), (bind (add64 false a1 1) _); reflexivity.
Qed.
Lemma high_bits_zero_both : forall (a0 : nat) (a1 : scalar) (a2 : Z), high_bits_zero_x (true, true) a0 a1 a2 = high_bits_zero_x (true, false) a0 a1 a2.
Proof. induction a0 as [|k IH]; intros a1 a2; cbn [high_bits_zero_x]; [reflexivity|]. destruct (Z.ltb_spec a2 256) as [?L|?L]; [|reflexivity]. rewrite s_bits_one by assumption. destruct (s_bits_x _ _ _ _); [|reflexivity]. change (bind (Some ?x) ?f) with (f x). cbv beta. rewrite IH. reflexivity. Qed.
Lemma high_bits_zero_quad : forall (a0 : nat) (a1 : scalar) (a2 : Z), quad (high_bits_zero_x (true, true) a0 a1 a2) (high_bits_zero_x (true, false) a0 a1 a2) (high_bits_zero_x (false, true) a0 a1 a2) (high_bits_zero_x (false, false) a0 a1 a2).
Proof. intros. split; [apply high_bits_zero_off; split; auto|]. split; [apply high_bits_zero_off; split; auto|]. intros v E _. rewrite high_bits_zero_both. exact E. Qed.
#[global] Hint Resolve high_bits_zero_quad : quad.
Lemma ecmult_wnaf_quad : forall (a0 : Z) (a1 : scalar) (a2 : Z), 0 <= a2 -> quad (ecmult_wnaf_x (true, true) a0 a1 a2) (ecmult_wnaf_x (true, false) a0 a1 a2) (ecmult_wnaf_x (false, true) a0 a1 a2) (ecmult_wnaf_x (false, false) a0 a1 a2).
Proof.
  intros a0 a1 a2 H. unfold ecmult_wnaf_x. cbv beta iota delta [fst snd]. repeat match goal with |- context [high_bits_zero_x (true, true) ?k ?s ?b] => rewrite (high_bits_zero_both k s b) | |- quad (wnaf_loop_x _ _ _ _ _ _ _ _ _ _) _ _ _ => apply wnaf_loop_quad; exact H | |- quad ?x ?x ?y ?y => apply quad_a, ref_unit | _ => quad1 end.
Qed.
#[global] Hint Resolve ecmult_wnaf_quad : quad.
Lemma wnaf_const_loop_quad : forall (a0 : nat) (a1 : Z) (a2 : Z) (a3 : scalar) (a4 : Z) (a5 : Z) (a6 : Z) (a7 : list Z), quad (wnaf_const_loop_x (true, true) a0 a1 a2 a3 a4 a5 a6 a7) (wnaf_const_loop_x (true, false) a0 a1 a2 a3 a4 a5 a6 a7) (wnaf_const_loop_x (false, true) a0 a1 a2 a3 a4 a5 a6 a7) (wnaf_const_loop_x (false, false) a0 a1 a2 a3 a4 a5 a6 a7).
Proof. induction a0 as [|? ? IH] || induction a0 as [|? IH]; intros; cbn [wnaf_const_loop_x]; quad. Qed.
#[global] Hint Resolve wnaf_const_loop_quad : quad.
Lemma ecmult_wnaf_const_quad : forall (a0 : Z) (a1 : scalar) (a2 : Z), quad (ecmult_wnaf_const_x (true, true) a0 a1 a2) (ecmult_wnaf_const_x (true, false) a0 a1 a2) (ecmult_wnaf_const_x (false, true) a0 a1 a2) (ecmult_wnaf_const_x (false, false) a0 a1 a2).
Proof. intros. unfold ecmult_wnaf_const_x. quad. Qed.
#[global] Hint Resolve ecmult_wnaf_const_quad : quad.
Lemma ecmult_loop_quad : forall (a0 : nat) (a1 : list astorage) (a2 : list affine) (a3 : field) (a4 : list Z) (a5 : list Z) (a6 : Z) (a7 : Z) (a8 : jac), quad (ecmult_loop_x (true, true) a0 a1 a2 a3 a4 a5 a6 a7 a8) (ecmult_loop_x (true, false) a0 a1 a2 a3 a4 a5 a6 a7 a8) (ecmult_loop_x (false, true) a0 a1 a2 a3 a4 a5 a6 a7 a8) (ecmult_loop_x (false, false) a0 a1 a2 a3 a4 a5 a6 a7 a8).
Proof. induction a0 as [|? ? IH] || induction a0 as [|? IH]; intros; cbn [ecmult_loop_x]; quad. Qed.
#[global] Hint Resolve ecmult_loop_quad : quad.
Lemma ecmult_quad : forall (a0 : ecctx) (a1 : jac) (a2 : scalar) (a3 : scalar), quad (ecmult_x (true, true) a0 a1 a2 a3) (ecmult_x (true, false) a0 a1 a2 a3) (ecmult_x (false, true) a0 a1 a2 a3) (ecmult_x (false, false) a0 a1 a2 a3).
Proof. intros. unfold ecmult_x. quad. Qed.
#[global] Hint Resolve ecmult_quad : quad.
Lemma double_nonzero_n_quad : forall (a0 : nat) (a1 : jac), quad (double_nonzero_n_x (true, true) a0 a1) (double_nonzero_n_x (true, false) a0 a1) (double_nonzero_n_x (false, true) a0 a1) (double_nonzero_n_x (false, false) a0 a1).
Proof. induction a0 as [|? ? IH] || induction a0 as [|? IH]; intros; cbn [double_nonzero_n_x]; quad. Qed.
#[global] Hint Resolve double_nonzero_n_quad : quad.
Lemma ecmult_const_loop_quad : forall (a0 : nat) (a1 : list affine) (a2 : list Z) (a3 : affine) (a4 : jac), quad (ecmult_const_loop_x (true, true) a0 a1 a2 a3 a4) (ecmult_const_loop_x (true, false) a0 a1 a2 a3 a4) (ecmult_const_loop_x (false, true) a0 a1 a2 a3 a4) (ecmult_const_loop_x (false, false) a0 a1 a2 a3 a4).
Proof. induction a0 as [|? ? IH] || induction a0 as [|? IH]; intros; cbn [ecmult_const_loop_x]; quad. Qed.
#[global] Hint Resolve ecmult_const_loop_quad : quad.
Lemma ecmult_const_quad : forall (a0 : affine) (a1 : scalar), quad (ecmult_const_x (true, true) a0 a1) (ecmult_const_x (true, false) a0 a1) (ecmult_const_x (false, true) a0 a1) (ecmult_const_x (false, false) a0 a1).
Proof. intros. unfold ecmult_const_x. quad. Qed.
#[global] Hint Resolve ecmult_const_quad : quad.
Lemma ecmult_gen_loop_quad : forall (a0 : list (list astorage)) (a1 : Z) (a2 : scalar) (a3 : astorage) (a4 : jac), quad (ecmult_gen_loop_x (true, true) a0 a1 a2 a3 a4) (ecmult_gen_loop_x (true, false) a0 a1 a2 a3 a4) (ecmult_gen_loop_x (false, true) a0 a1 a2 a3 a4) (ecmult_gen_loop_x (false, false) a0 a1 a2 a3 a4).
Proof. induction a0 as [|? ? IH] || induction a0 as [|? IH]; intros; cbn [ecmult_gen_loop_x]; quad. Qed.
#[global] Hint Resolve ecmult_gen_loop_quad : quad.
Lemma ecmult_gen_quad : forall (a0 : genctx) (a1 : scalar), quad (ecmult_gen_x (true, true) a0 a1) (ecmult_gen_x (true, false) a0 a1) (ecmult_gen_x (false, true) a0 a1) (ecmult_gen_x (false, false) a0 a1).
Proof. intros. unfold ecmult_gen_x. quad. Qed.
#[global] Hint Resolve ecmult_gen_quad : quad.
Lemma verify_raw_quad : forall (a0 : ecctx) (a1 : scalar) (a2 : scalar) (a3 : affine) (a4 : scalar), quad (verify_raw_x (true, true) a0 a1 a2 a3 a4) (verify_raw_x (true, false) a0 a1 a2 a3 a4) (verify_raw_x (false, true) a0 a1 a2 a3 a4) (verify_raw_x (false, false) a0 a1 a2 a3 a4).
Proof. intros. unfold verify_raw_x. quad. Qed.
#[global] Hint Resolve verify_raw_quad : quad.
Lemma recover_raw_quad : forall (a0 : ecctx) (a1 : scalar) (a2 : scalar) (a3 : Z) (a4 : scalar), quad (recover_raw_x (true, true) a0 a1 a2 a3 a4) (recover_raw_x (true, false) a0 a1 a2 a3 a4) (recover_raw_x (false, true) a0 a1 a2 a3 a4) (recover_raw_x (false, false) a0 a1 a2 a3 a4).
Proof. intros. unfold recover_raw_x. quad. Qed.
#[global] Hint Resolve recover_raw_quad : quad.
Lemma sign_raw_quad : forall (a0 : genctx) (a1 : scalar) (a2 : scalar) (a3 : scalar), quad (sign_raw_x (true, true) a0 a1 a2 a3) (sign_raw_x (true, false) a0 a1 a2 a3) (sign_raw_x (false, true) a0 a1 a2 a3) (sign_raw_x (false, false) a0 a1 a2 a3).
Proof. intros. unfold sign_raw_x. quad. Qed.
#[global] Hint Resolve sign_raw_quad : quad.
Lemma ecdh_raw_quad : forall (a0 : (list Z -> list Z)) (a1 : affine) (a2 : scalar), quad (ecdh_raw_x (true, true) a0 a1 a2) (ecdh_raw_x (true, false) a0 a1 a2) (ecdh_raw_x (false, true) a0 a1 a2) (ecdh_raw_x (false, false) a0 a1 a2).
Proof. intros. unfold ecdh_raw_x. quad. Qed.
#[global] Hint Resolve ecdh_raw_quad : quad.
Lemma read_len_loop_quad : forall (a0 : nat) (a1 : Z) (a2 : decoder), quad (read_len_loop_x (true, true) a0 a1 a2) (read_len_loop_x (true, false) a0 a1 a2) (read_len_loop_x (false, true) a0 a1 a2) (read_len_loop_x (false, false) a0 a1 a2).
Proof. induction a0 as [|? ? IH] || induction a0 as [|? IH]; intros; cbn [read_len_loop_x]; quad. Qed.
#[global] Hint Resolve read_len_loop_quad : quad.
Lemma d_read_len_quad : forall (a0 : decoder), quad (d_read_len_x (true, true) a0) (d_read_len_x (true, false) a0) (d_read_len_x (false, true) a0) (d_read_len_x (false, false) a0).
Proof. intros. unfold d_read_len_x. quad. Qed.
#[global] Hint Resolve d_read_len_quad : quad.
Lemma read_scalar_quad : forall (a0 : decoder) (a1 : Z), quad (read_scalar_x (true, true) a0 a1) (read_scalar_x (true, false) a0 a1) (read_scalar_x (false, true) a0 a1) (read_scalar_x (false, false) a0 a1).
Proof. intros. unfold read_scalar_x. quad. Qed.
#[global] Hint Resolve read_scalar_quad : quad.
Lemma d_read_integer_quad : forall (a0 : decoder), quad (d_read_integer_x (true, true) a0) (d_read_integer_x (true, false) a0) (d_read_integer_x (false, true) a0) (d_read_integer_x (false, false) a0).
Proof. intros. unfold d_read_integer_x. quad. Qed.
#[global] Hint Resolve d_read_integer_quad : quad.
Lemma d_read_seq_len_lax_quad : forall (a0 : decoder), quad (d_read_seq_len_lax_x (true, true) a0) (d_read_seq_len_lax_x (true, false) a0) (d_read_seq_len_lax_x (false, true) a0) (d_read_seq_len_lax_x (false, false) a0).
Proof. intros. unfold d_read_seq_len_lax_x. quad. Qed.
#[global] Hint Resolve d_read_seq_len_lax_quad : quad.
Lemma lax_len_loop_quad : forall (a0 : nat) (a1 : Z) (a2 : decoder), quad (lax_len_loop_x (true, true) a0 a1 a2) (lax_len_loop_x (true, false) a0 a1 a2) (lax_len_loop_x (false, true) a0 a1 a2) (lax_len_loop_x (false, false) a0 a1 a2).
Proof. induction a0 as [|? ? IH] || induction a0 as [|? IH]; intros; cbn [lax_len_loop_x]; quad. Qed.
#[global] Hint Resolve lax_len_loop_quad : quad.
Lemma d_read_len_lax_quad : forall (a0 : decoder), quad (d_read_len_lax_x (true, true) a0) (d_read_len_lax_x (true, false) a0) (d_read_len_lax_x (false, true) a0) (d_read_len_lax_x (false, false) a0).
Proof. intros. unfold d_read_len_lax_x. quad. Qed.
#[global] Hint Resolve d_read_len_lax_quad : quad.
Lemma d_read_integer_lax_quad : forall (a0 : decoder), quad (d_read_integer_lax_x (true, true) a0) (d_read_integer_lax_x (true, false) a0) (d_read_integer_lax_x (false, true) a0) (d_read_integer_lax_x (false, false) a0).
Proof. intros. unfold d_read_integer_lax_x. quad. Qed.
#[global] Hint Resolve d_read_integer_lax_quad : quad.
Lemma pk_from_secret_key_quad : forall (a0 : genctx) (a1 : seckey), quad (pk_from_secret_key_x (true, true) a0 a1) (pk_from_secret_key_x (true, false) a0 a1) (pk_from_secret_key_x (false, true) a0 a1) (pk_from_secret_key_x (false, false) a0 a1).
Proof. intros. unfold pk_from_secret_key_x. quad. Qed.
#[global] Hint Resolve pk_from_secret_key_quad : quad.
Lemma pk_parse_quad : forall (a0 : list Z), quad (pk_parse_x (true, true) a0) (pk_parse_x (true, false) a0) (pk_parse_x (false, true) a0) (pk_parse_x (false, false) a0).
Proof. intros. unfold pk_parse_x. quad. Qed.
#[global] Hint Resolve pk_parse_quad : quad.
Lemma pk_parse_compressed_quad : forall (a0 : list Z), quad (pk_parse_compressed_x (true, true) a0) (pk_parse_compressed_x (true, false) a0) (pk_parse_compressed_x (false, true) a0) (pk_parse_compressed_x (false, false) a0).
Proof. intros. unfold pk_parse_compressed_x. quad. Qed.
#[global] Hint Resolve pk_parse_compressed_quad : quad.
Lemma pk_parse_slice_quad : forall (a0 : list Z) (a1 : option pkformat), quad (pk_parse_slice_x (true, true) a0 a1) (pk_parse_slice_x (true, false) a0 a1) (pk_parse_slice_x (false, true) a0 a1) (pk_parse_slice_x (false, false) a0 a1).
Proof. intros. unfold pk_parse_slice_x. quad. Qed.
#[global] Hint Resolve pk_parse_slice_quad : quad.
Lemma pk_serialize_quad : forall (a0 : pubkey), quad (pk_serialize_x (true, true) a0) (pk_serialize_x (true, false) a0) (pk_serialize_x (false, true) a0) (pk_serialize_x (false, false) a0).
Proof. intros. unfold pk_serialize_x. quad. Qed.
#[global] Hint Resolve pk_serialize_quad : quad.
Lemma pk_serialize_compressed_quad : forall (a0 : pubkey), quad (pk_serialize_compressed_x (true, true) a0) (pk_serialize_compressed_x (true, false) a0) (pk_serialize_compressed_x (false, true) a0) (pk_serialize_compressed_x (false, false) a0).
Proof. intros. unfold pk_serialize_compressed_x. quad. Qed.
#[global] Hint Resolve pk_serialize_compressed_quad : quad.
Lemma pk_eq_quad : forall (a0 : pubkey) (a1 : pubkey), quad (pk_eq_x (true, true) a0 a1) (pk_eq_x (true, false) a0 a1) (pk_eq_x (false, true) a0 a1) (pk_eq_x (false, false) a0 a1).
Proof. intros. unfold pk_eq_x. quad. Qed.
#[global] Hint Resolve pk_eq_quad : quad.
Lemma pk_tweak_add_assign_quad : forall (a0 : ecctx) (a1 : pubkey) (a2 : seckey), quad (pk_tweak_add_assign_x (true, true) a0 a1 a2) (pk_tweak_add_assign_x (true, false) a0 a1 a2) (pk_tweak_add_assign_x (false, true) a0 a1 a2) (pk_tweak_add_assign_x (false, false) a0 a1 a2).
Proof. intros. unfold pk_tweak_add_assign_x. quad. Qed.
#[global] Hint Resolve pk_tweak_add_assign_quad : quad.
Lemma pk_tweak_mul_assign_quad : forall (a0 : ecctx) (a1 : pubkey) (a2 : seckey), quad (pk_tweak_mul_assign_x (true, true) a0 a1 a2) (pk_tweak_mul_assign_x (true, false) a0 a1 a2) (pk_tweak_mul_assign_x (false, true) a0 a1 a2) (pk_tweak_mul_assign_x (false, false) a0 a1 a2).
Proof. intros. unfold pk_tweak_mul_assign_x. quad. Qed.
#[global] Hint Resolve pk_tweak_mul_assign_quad : quad.
Lemma combine_loop_quad : forall (a1 : list pubkey) (a0 : jac), quad (combine_loop_x (true, true) a0 a1) (combine_loop_x (true, false) a0 a1) (combine_loop_x (false, true) a0 a1) (combine_loop_x (false, false) a0 a1).
Proof. induction a1 as [|? ? IH] || induction a1 as [|? IH]; intros; cbn [combine_loop_x]; quad. Qed.
#[global] Hint Resolve combine_loop_quad : quad.
Lemma pk_combine_quad : forall (a0 : list pubkey), quad (pk_combine_x (true, true) a0) (pk_combine_x (true, false) a0) (pk_combine_x (false, true) a0) (pk_combine_x (false, false) a0).
Proof. intros. unfold pk_combine_x. quad. Qed.
#[global] Hint Resolve pk_combine_quad : quad.
Lemma pk_try_from_quad : forall (a0 : affine), quad (pk_try_from_x (true, true) a0) (pk_try_from_x (true, false) a0) (pk_try_from_x (false, true) a0) (pk_try_from_x (false, false) a0).
Proof. intros. unfold pk_try_from_x. quad. Qed.
#[global] Hint Resolve pk_try_from_quad : quad.
Lemma sk_parse_quad : forall (a0 : list Z), quad (sk_parse_x (true, true) a0) (sk_parse_x (true, false) a0) (sk_parse_x (false, true) a0) (sk_parse_x (false, false) a0).
Proof. intros. unfold sk_parse_x. quad. Qed.
#[global] Hint Resolve sk_parse_quad : quad.
Lemma sk_parse_slice_quad : forall (a0 : list Z), quad (sk_parse_slice_x (true, true) a0) (sk_parse_slice_x (true, false) a0) (sk_parse_slice_x (false, true) a0) (sk_parse_slice_x (false, false) a0).
Proof. intros. unfold sk_parse_slice_x. quad. Qed.
#[global] Hint Resolve sk_parse_slice_quad : quad.
Lemma sk_tweak_add_assign_quad : forall (a0 : seckey) (a1 : seckey), quad (sk_tweak_add_assign_x (true, true) a0 a1) (sk_tweak_add_assign_x (true, false) a0 a1) (sk_tweak_add_assign_x (false, true) a0 a1) (sk_tweak_add_assign_x (false, false) a0 a1).
Proof. intros. unfold sk_tweak_add_assign_x. quad. Qed.
#[global] Hint Resolve sk_tweak_add_assign_quad : quad.
Lemma sk_tweak_mul_assign_quad : forall (a0 : seckey) (a1 : seckey), quad (sk_tweak_mul_assign_x (true, true) a0 a1) (sk_tweak_mul_assign_x (true, false) a0 a1) (sk_tweak_mul_assign_x (false, true) a0 a1) (sk_tweak_mul_assign_x (false, false) a0 a1).
Proof. intros. unfold sk_tweak_mul_assign_x. quad. Qed.
#[global] Hint Resolve sk_tweak_mul_assign_quad : quad.
Lemma sk_inv_quad : forall (a0 : seckey), quad (sk_inv_x (true, true) a0) (sk_inv_x (true, false) a0) (sk_inv_x (false, true) a0) (sk_inv_x (false, false) a0).
Proof. intros. unfold sk_inv_x. quad. Qed.
#[global] Hint Resolve sk_inv_quad : quad.
Lemma sk_default_quad : quad (sk_default_x (true, true)) (sk_default_x (true, false)) (sk_default_x (false, true)) (sk_default_x (false, false)).
Proof. intros. unfold sk_default_x. quad. Qed.
#[global] Hint Resolve sk_default_quad : quad.
Lemma sig_parse_overflowing_quad : forall (a0 : list Z), quad (sig_parse_overflowing_x (true, true) a0) (sig_parse_overflowing_x (true, false) a0) (sig_parse_overflowing_x (false, true) a0) (sig_parse_overflowing_x (false, false) a0).
Proof. intros. unfold sig_parse_overflowing_x. quad. Qed.
#[global] Hint Resolve sig_parse_overflowing_quad : quad.
Lemma sig_parse_standard_quad : forall (a0 : list Z), quad (sig_parse_standard_x (true, true) a0) (sig_parse_standard_x (true, false) a0) (sig_parse_standard_x (false, true) a0) (sig_parse_standard_x (false, false) a0).
Proof. intros. unfold sig_parse_standard_x. quad. Qed.
#[global] Hint Resolve sig_parse_standard_quad : quad.
Lemma sig_parse_overflowing_slice_quad : forall (a0 : list Z), quad (sig_parse_overflowing_slice_x (true, true) a0) (sig_parse_overflowing_slice_x (true, false) a0) (sig_parse_overflowing_slice_x (false, true) a0) (sig_parse_overflowing_slice_x (false, false) a0).
Proof. intros. unfold sig_parse_overflowing_slice_x. quad. Qed.
#[global] Hint Resolve sig_parse_overflowing_slice_quad : quad.
Lemma sig_parse_standard_slice_quad : forall (a0 : list Z), quad (sig_parse_standard_slice_x (true, true) a0) (sig_parse_standard_slice_x (true, false) a0) (sig_parse_standard_slice_x (false, true) a0) (sig_parse_standard_slice_x (false, false) a0).
Proof. intros. unfold sig_parse_standard_slice_x. quad. Qed.
#[global] Hint Resolve sig_parse_standard_slice_quad : quad.
Lemma sig_parse_der_quad : forall (a0 : list Z), quad (sig_parse_der_x (true, true) a0) (sig_parse_der_x (true, false) a0) (sig_parse_der_x (false, true) a0) (sig_parse_der_x (false, false) a0).
Proof. intros. unfold sig_parse_der_x. quad. Qed.
#[global] Hint Resolve sig_parse_der_quad : quad.
Lemma sig_parse_der_lax_quad : forall (a0 : list Z), quad (sig_parse_der_lax_x (true, true) a0) (sig_parse_der_lax_x (true, false) a0) (sig_parse_der_lax_x (false, true) a0) (sig_parse_der_lax_x (false, false) a0).
Proof. intros. unfold sig_parse_der_lax_x. quad. Qed.
#[global] Hint Resolve sig_parse_der_lax_quad : quad.
Lemma sig_normalize_s_quad : forall (a0 : signature), quad (sig_normalize_s_x (true, true) a0) (sig_normalize_s_x (true, false) a0) (sig_normalize_s_x (false, true) a0) (sig_normalize_s_x (false, false) a0).
Proof. intros. unfold sig_normalize_s_x. quad. Qed.
#[global] Hint Resolve sig_normalize_s_quad : quad.
Lemma msg_parse_quad : forall (a0 : list Z), quad (msg_parse_x (true, true) a0) (msg_parse_x (true, false) a0) (msg_parse_x (false, true) a0) (msg_parse_x (false, false) a0).
Proof. intros. unfold msg_parse_x. quad. Qed.
#[global] Hint Resolve msg_parse_quad : quad.
Lemma msg_parse_slice_quad : forall (a0 : list Z), quad (msg_parse_slice_x (true, true) a0) (msg_parse_slice_x (true, false) a0) (msg_parse_slice_x (false, true) a0) (msg_parse_slice_x (false, false) a0).
Proof. intros. unfold msg_parse_slice_x. quad. Qed.
#[global] Hint Resolve msg_parse_slice_quad : quad.
Lemma shared_secret_new_quad : forall (a0 : (list Z -> list Z)) (a1 : pubkey) (a2 : seckey), quad (shared_secret_new_x (true, true) a0 a1 a2) (shared_secret_new_x (true, false) a0 a1 a2) (shared_secret_new_x (false, true) a0 a1 a2) (shared_secret_new_x (false, false) a0 a1 a2).
Proof. intros. unfold shared_secret_new_x. quad. Qed.
#[global] Hint Resolve shared_secret_new_quad : quad.
Lemma verify_quad : forall (a0 : ecctx) (a1 : message) (a2 : signature) (a3 : pubkey), quad (verify_x (true, true) a0 a1 a2 a3) (verify_x (true, false) a0 a1 a2 a3) (verify_x (false, true) a0 a1 a2 a3) (verify_x (false, false) a0 a1 a2 a3).
Proof. intros. unfold verify_x. quad. Qed.
#[global] Hint Resolve verify_quad : quad.
Lemma recover_quad : forall (a0 : ecctx) (a1 : message) (a2 : signature) (a3 : recid), quad (recover_x (true, true) a0 a1 a2 a3) (recover_x (true, false) a0 a1 a2 a3) (recover_x (false, true) a0 a1 a2 a3) (recover_x (false, false) a0 a1 a2 a3).
Proof. intros. unfold recover_x. quad. Qed.
#[global] Hint Resolve recover_quad : quad.
Lemma pk_ser_quad : forall (a0 : (list Z -> list Z)) (a1 : bool) (a2 : pubkey), quad (pk_ser_x (true, true) a0 a1 a2) (pk_ser_x (true, false) a0 a1 a2) (pk_ser_x (false, true) a0 a1 a2) (pk_ser_x (false, false) a0 a1 a2).
Proof. intros. unfold pk_ser_x. quad. Qed.
#[global] Hint Resolve pk_ser_quad : quad.
Lemma pk_de_quad : forall (a0 : (list Z -> option (list Z))) (a1 : bool) (a2 : list Z), quad (pk_de_x (true, true) a0 a1 a2) (pk_de_x (true, false) a0 a1 a2) (pk_de_x (false, true) a0 a1 a2) (pk_de_x (false, false) a0 a1 a2).
Proof. intros. unfold pk_de_x. quad. Qed.
#[global] Hint Resolve pk_de_quad : quad.
