(** Field operations of the model compute in the field F. *)
From Coq Require Import Znumtheory.
From Verif Require Import Word MField WP FieldMul FieldNorm FieldZero Spec Fp Bits.

Lemma fp_p : fp = p. Proof. reflexivity. Qed.

(** the field element a limb vector stands for *)
Definition fe (f : field) : F := toF (fv f).
(** [f] is well formed, has magnitude at most [k] and stands for [e] *)
Definition frep (k : Z) (f : field) (e : F) : Prop := fok k f /\ fe f = e.
(** [f] is normalized and stands for [e] *)
Definition fcrep (f : field) (e : F) : Prop := fcan f /\ fe f = e.

Lemma frep_mono k k' f e : frep k f e -> k <= k' -> frep k' f e.
Proof. intros [H E] L. split; [eapply fok_mono; eauto | exact E]. Qed.
Lemma fcrep_frep f e k : fcrep f e -> 1 <= k -> frep k f e.
Proof. intros [[H _] E] L. split; [eapply fok_mono; eauto | exact E]. Qed.
Lemma fcrep_val f e : fcrep f e -> fv f = val e.
Proof.
  intros [H <-]. unfold fe. rewrite val_toF, <- fp_p. symmetry. apply Z.mod_small. apply fcan_range. exact H.
Qed.
Lemma fe_shift v k : toF (v - k * fp) = toF v.
Proof.
  apply toF_eq. rewrite <- fp_p. replace (v - k * fp) with (v + (- k) * fp) by ring.
  apply Z.mod_add. discriminate.
Qed.
Lemma fe_mod v : toF (v mod fp) = toF v.
Proof. rewrite fp_p. apply toF_mod. Qed.

Section B.
Variable dbg : bool.

Lemma f_normalize_rep f e : frep 31 f e -> wp (f_normalize dbg f) (fun r => fcrep r e).
Proof.
  intros [H <-]. eapply wp_mono; [apply f_normalize_ok; eapply fok_lim31; [exact H | lia]|].
  intros r [C E]. split; [apply canon_fcan, C|]. unfold fe. rewrite E. apply fe_mod.
Qed.
Lemma f_normalize_lim f : lim31 f -> wp (f_normalize dbg f) (fun r => fcrep r (fe f)).
Proof.
  intros H. eapply wp_mono; [apply f_normalize_ok; exact H|].
  intros r [C E]. split; [apply canon_fcan, C|]. unfold fe. rewrite E. apply fe_mod.
Qed.
Lemma f_normalize_var_rep f e : frep 31 f e -> wp (f_normalize_var dbg f) (fun r => fcrep r e).
Proof.
  intros [H <-]. eapply wp_mono; [apply f_normalize_var_ok; eapply fok_lim31; [exact H | lia]|].
  intros r [C E]. split; [apply canon_fcan, C|]. unfold fe. rewrite E. apply fe_mod.
Qed.
Lemma f_normalize_weak_rep f e : frep 31 f e -> wp (f_normalize_weak dbg f) (fun r => frep 1 r e).
Proof.
  intros [H <-]. destruct (f_norm f) eqn:N.
  - assert (C : fcan f).
    { destruct H as (A & V & M). split; [|exact N]. split; [exact A|]. split; [exact V|].
      destruct f as [n0 n1 n2 n3 n4 n5 n6 n7 n8 n9 m nrm]; cbn [f_norm f_mag] in *; subst nrm.
      apply verify_canon_inv in V; [lia | exact A | lia]. }
    eapply wp_mono; [apply f_normalize_weak_can; exact C|].
    intros r (Cr & _ & E). split; [apply Cr|]. unfold fe. rewrite E. reflexivity.
  - eapply wp_mono; [apply f_normalize_weak_raw; [eapply fok_lim31; [exact H | lia] | exact N]|].
    intros r (Cr & _ & _ & k & E). split; [apply Cr|]. unfold fe. rewrite E. apply fe_shift.
Qed.
Lemma f_normalize_weak_lim f : lim31 f -> f_norm f = false ->
  wp (f_normalize_weak dbg f) (fun r => frep 1 r (fe f)).
Proof.
  intros H N. eapply wp_mono; [apply f_normalize_weak_raw; [exact H | exact N]|].
  intros r (Cr & _ & _ & k & E). split; [apply Cr|]. unfold fe. rewrite E. apply fe_shift.
Qed.

Lemma val_eqb0 v : (v mod fp =? 0) = feqb (toF v) f0.
Proof. unfold feqb. rewrite val_toF. unfold f0. rewrite val_toF, fp_p, Z.mod_0_l by discriminate. reflexivity. Qed.
Lemma f_normalizes_to_zero_rep f e : frep 31 f e ->
  wp (f_normalizes_to_zero dbg f) (fun b => b = feqb e f0).
Proof.
  intros [H <-]. eapply wp_mono; [apply f_normalizes_to_zero_ok; eapply fok_lim31; [exact H | lia]|].
  intros r ->. apply val_eqb0.
Qed.
Lemma f_normalizes_to_zero_var_rep f e : frep 31 f e ->
  wp (f_normalizes_to_zero_var dbg f) (fun b => b = feqb e f0).
Proof.
  intros [H <-]. eapply wp_mono; [apply f_normalizes_to_zero_var_ok; eapply fok_lim31; [exact H | lia]|].
  intros r ->. apply val_eqb0.
Qed.

Lemma fcan_small a : 0 <= a <= 67108863 -> fcan (Fe a 0 0 0 0 0 0 0 0 0 1 true).
Proof.
  intros H. apply canon_fcan. cbn [canon]. unfold lim26, val10, fp. lia.
Qed.
Lemma f_set_int_rep a : 0 <= a <= 67108863 -> wp (f_set_int dbg a) (fun r => fcrep r (toF a)).
Proof.
  intros H. unfold f_set_int. pose proof (fcan_small a H) as C.
  refine (wp_let_any _ _ _ _); cbv beta.
  apply wp_dassert; [apply C|]. apply wp_some. split; [exact C|].
  unfold fe. f_equal. cbn [fv]. unfold val10. lia.
Qed.
Lemma fcrep_default : fcrep f_default f0.
Proof.
  split; [|reflexivity]. split; [|reflexivity]. split; [cbn; lia|]. split; [reflexivity | cbn; lia].
Qed.
Lemma fcan_verify f : fcan f -> f_verify f = true. Proof. intros [(A & V & M) N]. exact V. Qed.
Lemma fcan_lim f : fcan f -> match f with Fe n0 n1 n2 n3 n4 n5 n6 n7 n8 n9 m nrm =>
  lim26 n0 n1 n2 n3 n4 n5 n6 n7 n8 /\ 0 <= n9 <= 4194303 end.
Proof.
  destruct f as [n0 n1 n2 n3 n4 n5 n6 n7 n8 n9 m nrm]; intros [(A & V & M) N]; cbn [f_norm f_mag] in *; subst nrm.
  apply verify_canon_inv in V; [|exact A|lia]. tauto.
Qed.
Lemma val_is0 e : (val e =? 0) = feqb e f0.
Proof. unfold feqb. unfold f0. rewrite val_toF, Z.mod_0_l by discriminate. reflexivity. Qed.

Lemma f_is_zero_rep f e : fcrep f e -> wp (f_is_zero dbg f) (fun b => b = feqb e f0).
Proof.
  intros H. pose proof (fcrep_val _ _ H) as V. pose proof (fcan_lim _ (proj1 H)) as L.
  unfold f_is_zero. apply wp_dassert; [apply H|]. apply wp_dassert; [apply fcan_verify, H|].
  destruct f as [n0 n1 n2 n3 n4 n5 n6 n7 n8 n9 m nrm]. apply wp_some.
  rewrite <- val_is0, <- V. cbn [fv]. destruct L as [L L9].
  pose proof (lor10_zero n0 n1 n2 n3 n4 n5 n6 n7 n8 n9 L (proj1 L9)) as Z0. unfold lor10 in Z0.
  apply eq_true_iff_eq. rewrite !Z.eqb_eq. exact Z0.
Qed.
Lemma f_is_odd_rep f e : fcrep f e -> wp (f_is_odd dbg f) (fun b => b = Z.odd (val e)).
Proof.
  intros H. pose proof (fcrep_val _ _ H) as V.
  unfold f_is_odd. apply wp_dassert; [apply H|]. apply wp_dassert; [apply fcan_verify, H|].
  destruct f as [n0 n1 n2 n3 n4 n5 n6 n7 n8 n9 m nrm]. apply wp_some.
  rewrite <- V. cbn [fv]. unfold val10.
  replace (n0 + n1 * 2 ^ 26 + n2 * 2 ^ 52 + n3 * 2 ^ 78 + n4 * 2 ^ 104 + n5 * 2 ^ 130 + n6 * 2 ^ 156 + n7 * 2 ^ 182 + n8 * 2 ^ 208 + n9 * 2 ^ 234)
    with (n0 + 2 * (n1 * 2 ^ 25 + n2 * 2 ^ 51 + n3 * 2 ^ 77 + n4 * 2 ^ 103 + n5 * 2 ^ 129 + n6 * 2 ^ 155 + n7 * 2 ^ 181 + n8 * 2 ^ 207 + n9 * 2 ^ 233)) by ring.
  rewrite Z.odd_add_mul_2. rewrite (land_mod n0 1 1) by (reflexivity || lia).
  change (2 ^ 1) with 2. rewrite Zmod_odd. destruct (Z.odd n0); reflexivity.
Qed.

Lemma f_neg_rep f e m : frep m f e -> 0 <= m <= 31 -> wp (f_neg dbg f m) (fun r => frep (m + 1) r (- e)%F).
Proof.
  intros [(A & V & M) <-] Hm. unfold f_neg.
  apply wp_dassert; [apply Z.leb_le; lia|]. apply wp_dassert; [exact V|].
  destruct f as [n0 n1 n2 n3 n4 n5 n6 n7 n8 n9 mg nrm]; cbn [f_mag fnn] in *.
  apply verify_bounds in V; [|lia]. cbn zeta in V.
  assert (K : (if nrm then 1 else 2) * mg <= 2 * m) by (destruct nrm; lia).
  set (kk := (if nrm then 1 else 2) * mg) in *. clearbody kk.
  unfold add32, f_neg_limb, mul32, sub32.
  rewrite (uchk_ok 32 dbg (m + 1)) by (change (2^32) with 4294967296; lia). cbn [bind].
  repeat (rewrite uchk_ok by (change (2 ^ 32) with 4294967296; lia); cbn [bind]).
  apply wp_dassert; [apply verify_weak; lia|].
  apply wp_some. split.
  - split; [cbn [fnn]; lia|]. split; [apply verify_weak; lia | cbn [f_mag]; lia].
  - unfold fe. cbn [fv]. rewrite <- toF_opp.
    rewrite <- (fe_shift (- _) (- (2 * (m + 1)))). f_equal. unfold val10, fp. ring.
Qed.
Lemma f_mul_int_rep f e k a : frep k f e -> 0 <= a -> k * a <= 32 ->
  wp (f_mul_int dbg f a) (fun r => frep (k * a) r (toF a * e)%F).
Proof.
  intros [(A & V & M) <-] Ha Hk. unfold f_mul_int.
  destruct f as [n0 n1 n2 n3 n4 n5 n6 n7 n8 n9 mg nrm]; cbn [f_mag fnn] in *.
  apply verify_bounds in V; [|lia]. cbn zeta in V.
  assert (K : (if nrm then 1 else 2) * mg <= 2 * mg) by (destruct nrm; lia).
  set (kk := (if nrm then 1 else 2) * mg) in *. clearbody kk.
  assert (mg * a <= 32) by nia.
  unfold mul32.
  assert (L : forall x c, 0 <= x <= c * (2 * mg) -> 0 <= c -> 0 <= x * a <= c * (2 * (mg * a))).
  { intros x c Hx Hc. split; [nia|]. replace (c * (2 * (mg * a))) with (c * (2 * mg) * a) by ring. nia. }
  pose proof (L n0 67108863 ltac:(lia) ltac:(lia)). pose proof (L n1 67108863 ltac:(lia) ltac:(lia)).
  pose proof (L n2 67108863 ltac:(lia) ltac:(lia)). pose proof (L n3 67108863 ltac:(lia) ltac:(lia)).
  pose proof (L n4 67108863 ltac:(lia) ltac:(lia)). pose proof (L n5 67108863 ltac:(lia) ltac:(lia)).
  pose proof (L n6 67108863 ltac:(lia) ltac:(lia)). pose proof (L n7 67108863 ltac:(lia) ltac:(lia)).
  pose proof (L n8 67108863 ltac:(lia) ltac:(lia)). pose proof (L n9 4194303 ltac:(lia) ltac:(lia)).
  clear L V A.
  assert (0 <= mg * a) by nia. assert (mg * a <= k * a) by nia.
  repeat (rewrite uchk_ok by (change (2 ^ 32) with 4294967296; lia); cbn [bind]).
  apply wp_dassert; [apply verify_weak; lia|].
  apply wp_some. split.
  - split; [cbn [fnn]; lia|]. split; [apply verify_weak; lia | cbn [f_mag]; lia].
  - unfold fe. cbn [fv]. rewrite <- toF_mul. f_equal. unfold val10. ring.
Qed.
Lemma f_add_rep f g e e' k k' : frep k f e -> frep k' g e' -> k + k' <= 32 ->
  wp (f_add dbg f g) (fun r => frep (k + k') r (e + e')%F).
Proof.
  intros [(A & V & M) <-] [(A' & V' & M') <-] Hk. unfold f_add.
  destruct f as [n0 n1 n2 n3 n4 n5 n6 n7 n8 n9 mg nrm]; cbn [f_mag fnn] in *.
  destruct g as [o0 o1 o2 o3 o4 o5 o6 o7 o8 o9 mg' nrm']; cbn [f_mag fnn] in *.
  apply verify_bounds in V; [|lia]. cbn zeta in V.
  apply verify_bounds in V'; [|lia]. cbn zeta in V'.
  assert (K : (if nrm then 1 else 2) * mg <= 2 * mg) by (destruct nrm; lia).
  assert (K' : (if nrm' then 1 else 2) * mg' <= 2 * mg') by (destruct nrm'; lia).
  set (kk := (if nrm then 1 else 2) * mg) in *. clearbody kk.
  set (kk' := (if nrm' then 1 else 2) * mg') in *. clearbody kk'.
  unfold add32.
  repeat (rewrite uchk_ok by (change (2 ^ 32) with 4294967296; lia); cbn [bind]).
  apply wp_dassert; [apply verify_weak; lia|].
  apply wp_some. split.
  - split; [cbn [fnn]; lia|]. split; [apply verify_weak; lia | cbn [f_mag]; lia].
  - unfold fe. cbn [fv]. rewrite <- toF_add. f_equal. unfold val10. ring.
Qed.
Lemma f_mul_rep f g e e' : frep 8 f e -> frep 8 g e' -> wp (f_mul dbg f g) (fun r => frep 1 r (e * e')%F).
Proof.
  intros [A <-] [B <-]. unfold f_mul.
  apply wp_dassert; [apply Z.leb_le, A|]. apply wp_dassert; [apply Z.leb_le, B|].
  apply wp_dassert; [apply A|]. apply wp_dassert; [apply B|].
  eapply wp_bind; [apply f_mul_inner_ok; apply fok_mulable; assumption|].
  intros r (R & k & E). apply mag1_fok in R. apply wp_dassert; [apply R|]. apply wp_some.
  split; [apply R|]. unfold fe. rewrite E, fe_shift. apply toF_mul.
Qed.
Lemma f_sqr_rep f e : frep 8 f e -> wp (f_sqr dbg f) (fun r => frep 1 r (e * e)%F).
Proof.
  intros [A <-]. unfold f_sqr.
  apply wp_dassert; [apply Z.leb_le, A|]. apply wp_dassert; [apply A|].
  eapply wp_bind; [apply f_sqr_inner_ok; apply fok_mulable; assumption|].
  intros r (R & k & E). apply mag1_fok in R. apply wp_dassert; [apply A|]. apply wp_some.
  split; [apply R|]. unfold fe. rewrite E, fe_shift. apply toF_mul.
Qed.

(** comparison *)
Lemma cmp2_10 a0 a1 a2 a3 a4 a5 a6 a7 a8 a9 b0 b1 b2 b3 b4 b5 b6 b7 b8 b9 :
  lim26 a0 a1 a2 a3 a4 a5 a6 a7 a8 -> lim26 b0 b1 b2 b3 b4 b5 b6 b7 b8 ->
  cmp_limbs [a9; a8; a7; a6; a5; a4; a3; a2; a1; a0] [b9; b8; b7; b6; b5; b4; b3; b2; b1; b0] =
  (val10 a0 a1 a2 a3 a4 a5 a6 a7 a8 a9 ?= val10 b0 b1 b2 b3 b4 b5 b6 b7 b8 b9).
Proof.
  intros A B. symmetry. unfold lim26, val10 in *. unfold cmp_limbs.
  repeat match goal with
  | |- _ = (if ?x <? ?y then _ else _) =>
     destruct (Z.ltb_spec x y); [first [apply Z.compare_gt_iff; lia | apply Z.compare_lt_iff; lia]|]
  end.
  apply Z.compare_eq_iff. lia.
Qed.
Lemma f_cmp_var_rep f g e e' : fcrep f e -> fcrep g e' ->
  wp (f_cmp_var dbg f g) (fun c => c = (val e ?= val e')).
Proof.
  intros A B. unfold f_cmp_var.
  apply wp_dassert; [apply A|]. apply wp_dassert; [apply B|].
  apply wp_dassert; [apply fcan_verify, A|]. apply wp_dassert; [apply fcan_verify, B|].
  rewrite <- (fcrep_val _ _ A), <- (fcrep_val _ _ B).
  pose proof (fcan_lim _ (proj1 A)) as LA. pose proof (fcan_lim _ (proj1 B)) as LB.
  destruct f, g. apply wp_some. cbn [fv]. apply cmp2_10; tauto.
Qed.
Lemma f_ge_rep f g e e' : fcrep f e -> fcrep g e' -> wp (f_ge dbg f g) (fun c => c = (val e' <=? val e)).
Proof.
  intros A B. unfold f_ge. eapply wp_bind; [apply f_cmp_var_rep; eassumption|].
  intros c ->. apply wp_some. destruct (Z.compare_spec (val e) (val e')); symmetry;
    [apply Z.leb_le; lia | apply Z.leb_gt; lia | apply Z.leb_le; lia].
Qed.
Lemma feqb_neg_add e e' : feqb (- e + e')%F f0 = feqb e e'.
Proof.
  destruct (feqb_spec (- e + e')%F f0) as [H|H]; destruct (feqb_spec e e') as [E|E]; auto.
  - exfalso. apply E. replace e' with (e + (- e + e'))%F by ring. rewrite H. ring.
  - exfalso. apply H. subst. ring.
Qed.
Lemma f_eq_var_rep f g e e' k : frep 1 f e -> frep k g e' -> k <= 29 ->
  wp (f_eq_var dbg f g) (fun b => b = feqb e e').
Proof.
  intros A B K. unfold f_eq_var.
  eapply wp_bind; [apply f_neg_rep; [eassumption|lia]|]. intros na NA.
  eapply wp_bind; [eapply f_add_rep; [exact NA | exact B | lia]|]. intros s S.
  eapply wp_mono; [apply f_normalizes_to_zero_var_rep; eapply frep_mono; [exact S | lia]|].
  cbv beta. intros b ->. apply feqb_neg_add.
Qed.
Lemma f_eq_rep f g e e' k k' : frep k f e -> frep k' g e' -> k + k' <= 30 ->
  wp (f_eq dbg f g) (fun b => b = feqb e e').
Proof.
  intros A B K. unfold f_eq. assert (f_mag f <= k) by (destruct A as [(?&?&?) ?]; lia).
  assert (A' : frep (f_mag f) f e).
  { destruct A as [(a&b&c) E]. split; [|exact E]. split; [exact a|]. split; [exact b|]. lia. }
  assert (0 <= k') by (destruct B as [(?&?&?) ?]; lia).
  assert (0 <= f_mag f) by (destruct A as [(?&?&?) ?]; lia).
  eapply wp_bind; [apply f_neg_rep; [exact A'|lia]|]. intros na NA.
  eapply wp_bind; [eapply f_add_rep; [exact NA | exact B | lia]|]. intros s S.
  eapply wp_mono; [apply f_normalizes_to_zero_rep; eapply frep_mono; [exact S | lia]|].
  cbv beta. intros b ->. apply feqb_neg_add.
Qed.

(** powers *)
Lemma f_sqr_n_rep k : forall f e, frep 1 f e -> wp (f_sqr_n dbg k f) (fun r => frep 1 r (fexp e (2 ^ Z.of_nat k))).
Proof.
  induction k as [|k IH]; intros f e H; cbn [f_sqr_n].
  - apply wp_some. change (2 ^ Z.of_nat 0) with 1. rewrite fexp_1. exact H.
  - eapply wp_bind; [apply f_sqr_rep; eapply frep_mono; [exact H | lia]|]. intros y Y.
    eapply wp_mono; [apply IH; exact Y|]. cbv beta. intros r R.
    rewrite Nat2Z.inj_succ, Z.pow_succ_r, fexp_mul, fexp_2 by lia. exact R.
Qed.

(** [f] has magnitude 1 and stands for [x^i] *)
Definition frepx (x : F) (f : field) (i : Z) : Prop := frep 1 f (fexp x i).
Lemma px_sqr x f i : frepx x f i -> 0 <= i -> wp (f_sqr dbg f) (fun r => frepx x r (2 * i)).
Proof.
  intros H Hi. eapply wp_mono; [apply f_sqr_rep; eapply frep_mono; [exact H|lia]|]. cbv beta.
  intros r R. unfold frepx. replace (2 * i) with (i + i) by lia. rewrite fexp_add by lia. exact R.
Qed.
Lemma px_sqr_n x f i k : frepx x f i -> 0 <= i -> wp (f_sqr_n dbg k f) (fun r => frepx x r (i * 2 ^ Z.of_nat k)).
Proof.
  intros H Hi. eapply wp_mono; [apply f_sqr_n_rep; exact H|]. cbv beta.
  intros r R. unfold frepx. rewrite fexp_mul by (try apply Z.pow_nonneg; lia). exact R.
Qed.
Lemma px_mul x f g i j : frepx x f i -> frepx x g j -> 0 <= i -> 0 <= j ->
  wp (f_mul dbg f g) (fun r => frepx x r (i + j)).
Proof.
  intros A B Hi Hj. eapply wp_mono; [apply f_mul_rep; eapply frep_mono; [exact A|lia|exact B|lia]|]. cbv beta.
  intros r R. unfold frepx. rewrite fexp_add by lia. exact R.
Qed.

Ltac px_norm H :=
  cbv beta in H;
  lazymatch type of H with
  | frepx ?x ?r ?i => let i' := eval vm_compute in i in change (frepx x r i') in H
  end.
Ltac px_step :=
  lazymatch goal with
  | |- wp (bind (f_sqr _ ?f) _) _ =>
      lazymatch goal with H : frepx ?x f ?i |- _ =>
        refine (wp_bind _ _ _ _ (px_sqr x f i H _) _); [apply Z.leb_le; reflexivity|]; let r := fresh "r" in let R := fresh "R" in intros r R; px_norm R end
  | |- wp (bind (f_sqr_n _ ?k ?f) _) _ =>
      lazymatch goal with H : frepx ?x f ?i |- _ =>
        refine (wp_bind _ _ _ _ (px_sqr_n x f i k H _) _); [apply Z.leb_le; reflexivity|]; let r := fresh "r" in let R := fresh "R" in intros r R; px_norm R end
  | |- wp (bind (f_mul _ ?f ?g) _) _ =>
      lazymatch goal with H : frepx ?x f ?i, H' : frepx ?x g ?j |- _ =>
        refine (wp_bind _ _ _ _ (px_mul x f g i j H H' _ _) _); [apply Z.leb_le; reflexivity|apply Z.leb_le; reflexivity|]; let r := fresh "r" in let R := fresh "R" in intros r R; px_norm R end
  | |- wp (bind (f_mul _ ?f ?f) _) _ =>
      lazymatch goal with H : frepx ?x f ?i |- _ =>
        refine (wp_bind _ _ _ _ (px_mul x f f i i H H _ _) _); [apply Z.leb_le; reflexivity|apply Z.leb_le; reflexivity|]; let r := fresh "r" in let R := fresh "R" in intros r R; px_norm R end
  end; cbv beta.

(** the addition chains start from an element of magnitude up to 8; the first steps multiply by it *)
Definition frepx8 (x : F) (f : field) : Prop := frep 8 f x.
Lemma f_chain223_rep a x : frep 8 a x ->
  wp (f_chain223 dbg a) (fun '(x2, x22, x223) =>
    frepx x x2 3 /\ frepx x x22 (2 ^ 22 - 1) /\ frepx x x223 (2 ^ 223 - 1)).
Proof.
  intros A. unfold f_chain223.
  eapply wp_bind; [apply f_sqr_rep; exact A|]. intros s2 S2.
  assert (MulA : forall f i, frepx x f i -> 0 <= i -> wp (f_mul dbg f a) (fun r => frepx x r (i + 1))).
  { intros f i H Hi. eapply wp_mono; [apply f_mul_rep; [eapply frep_mono; [exact H|lia] | exact A]|].
    cbv beta. intros r R. unfold frepx. rewrite fexp_add, fexp_1 by lia. exact R. }
  assert (frepx x s2 2) as S2' by (unfold frepx; rewrite fexp_2; exact S2). clear S2.
  eapply wp_bind; [apply (MulA s2 2 S2'); lia|]. intros x2 X2. px_norm X2.
  px_step.
  eapply wp_bind; [apply (MulA _ _ R); lia|]. intros x3 X3. px_norm X3. clear MulA.
  do 18 px_step.
  apply wp_some. split; [exact X2 | split; [exact R7 | exact R17]].
Qed.
Lemma f_inv_rep a x : frep 8 a x -> wp (f_inv dbg a) (fun r => frep 1 r (finv x)).
Proof.
  intros A. unfold f_inv. eapply wp_bind; [apply f_chain223_rep; exact A|].
  intros [[x2 x22] x223] (X2 & X22 & X223). px_norm X22; px_norm X223.
  do 3 px_step.
  assert (MulA : forall f i, frepx x f i -> 0 <= i -> wp (f_mul dbg f a) (fun r => frepx x r (i + 1))).
  { intros f i H Hi. eapply wp_mono; [apply f_mul_rep; [eapply frep_mono; [exact H|lia] | exact A]|].
    cbv beta. intros r' R'. unfold frepx. rewrite fexp_add, fexp_1 by lia. exact R'. }
  eapply wp_bind; [apply (MulA _ _ R1); lia|]. intros t T. px_norm T. clear MulA.
  do 3 px_step.
  eapply wp_mono; [apply f_mul_rep; [exact A | eapply frep_mono; [eassumption | lia]]|]. cbv beta.
  intros r' R'. rewrite <- fexp_inv, p_eq.
  match type of R' with frep 1 _ (x * fexp x ?i)%F => 
    replace (x * fexp x i)%F with (fexp x (i + 1)) in R' by (rewrite fexp_add, fexp_1 by lia; ring) end.
  exact R'.
Qed.
Definition fsqrt (x : F) : F := fexp x ((p + 1) / 4).
Lemma f_sqrt_rep a x : frep 8 a x ->
  wp (f_sqrt dbg a) (fun '(r, b) => frep 1 r (fsqrt x) /\ b = feqb (fsqrt x * fsqrt x)%F x).
Proof.
  intros A. unfold f_sqrt. eapply wp_bind; [apply f_chain223_rep; exact A|].
  intros [[x2 x22] x223] (X2 & X22 & X223). px_norm X22; px_norm X223.
  do 6 px_step.
  eapply wp_bind; [eapply f_sqr_rep; eapply frep_mono; [eassumption|lia]|]. intros s S.
  eapply wp_bind; [eapply f_eq_rep; [exact S | exact A | lia]|].
  intros e ->. apply wp_some. split; [|reflexivity].
  unfold fsqrt. rewrite p_eq. exact R4.
Qed.

(** [fsqrt] finds a root whenever there is one (p = 3 mod 4) *)
Lemma fsqrt_complete x y : (y * y = x)%F -> (fsqrt x * fsqrt x = x)%F.
Proof.
  intros <-. unfold fsqrt. rewrite <- fexp_2, <- fexp_mul by (rewrite ?p_eq; vm_compute; discriminate).
  replace ((p + 1) / 4 * 2) with ((p - 1) / 2 + 1) by (rewrite p_eq; reflexivity).
  rewrite fexp_add, fexp_1 by (rewrite ?p_eq; vm_compute; discriminate).
  rewrite <- (fexp_2 y) at 1. rewrite <- fexp_mul by (rewrite ?p_eq; vm_compute; discriminate).
  replace (2 * ((p - 1) / 2)) with (p - 1) by (rewrite p_eq; reflexivity).
  destruct (F_dec y f0) as [->|N]; [rewrite fexp_0_l by (rewrite p_eq; reflexivity); ring|].
  rewrite fexp_fermat by exact N. ring.
Qed.
Lemma fsqrt_odd x y : (y * y = x)%F -> fsqrt x = y \/ fsqrt x = (- y)%F.
Proof.
  intros H. pose proof (fsqrt_complete x y H) as E.
  assert ((fsqrt x - y) * (fsqrt x + y) = 0)%F as D.
  { transitivity (fsqrt x * fsqrt x - y * y)%F; [ring|]. rewrite E, H. ring. }
  apply fmul_eq0 in D. destruct D as [D|D]; [left; apply fsub_eq0, D | right; apply fadd_eq0, D].
Qed.
Lemma f_is_quad_var_rep a x : frep 8 a x ->
  wp (f_is_quad_var dbg a) (fun b => b = true <-> exists y, (y * y = x)%F).
Proof.
  intros A. unfold f_is_quad_var. eapply wp_bind; [apply f_sqrt_rep; exact A|].
  intros [r b] (R & ->). apply wp_some. destruct (feqb_spec (fsqrt x * fsqrt x)%F x) as [E|E].
  - split; eauto.
  - split; [discriminate|]. intros [y Y]. elim E. eapply fsqrt_complete; exact Y.
Qed.
End B.

Ltac px_norm H :=
  cbv beta in H;
  lazymatch type of H with
  | frepx ?x ?r ?i => let i' := eval vm_compute in i in change (frepx x r i') in H
  end.
