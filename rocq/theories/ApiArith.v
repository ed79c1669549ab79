(** Field and scalar arithmetic. *)
From Coq Require Import Znumtheory Zdiv.
From Verif Require Import Word MField MScalar WP FieldMul FieldNorm FieldZero Spec Fp Bits FieldOps FieldCodec FieldStore ScalarMul ScalarOps ScalarMore ScalarBits Denote Curve Key ApiScalar ApiPub.

(** * C44 *)
(** Value of limbs in radix 2^w, least significant first. *)
Definition radix (w : Z) (l : list Z) : Z := fold_right (fun a r => a + 2 ^ w * r) 0 l.
(** The representation contract of core/src/field.rs: magnitude at most m (and at most 32); limbs at most 2*mag*(2^26-1), the top one 2*mag*(2^22-1);
    an element flagged normalized has magnitude at most 1, limbs at most mag*(2^26-1) and a value below p. *)
Definition contract (m : Z) (f : field) : Prop :=
  match f with Fe n0 n1 n2 n3 n4 n5 n6 n7 n8 n9 mag nrm =>
    0 <= mag <= m /\ mag <= 32 /\
    Forall (fun a => 0 <= a <= (2 ^ 26 - 1) * ((if nrm then 1 else 2) * mag)) [n0; n1; n2; n3; n4; n5; n6; n7; n8] /\ 0 <= n9 <= (2 ^ 22 - 1) * ((if nrm then 1 else 2) * mag) /\
    (nrm = true -> mag <= 1 /\ radix 26 [n0; n1; n2; n3; n4; n5; n6; n7; n8; n9] < p)
  end.
Lemma radix_fv n0 n1 n2 n3 n4 n5 n6 n7 n8 n9 m b : fv (Fe n0 n1 n2 n3 n4 n5 n6 n7 n8 n9 m b) = radix 26 [n0; n1; n2; n3; n4; n5; n6; n7; n8; n9].
Proof. cbn [fv radix fold_right]. unfold val10. lia. Qed.
(** The predicate used in the theorems ([Field::verify] holds, limbs non-negative, magnitude at most m) is exactly this contract. *)
Lemma C44_contract_pf : forall m f, fok m f <-> contract m f.
Proof.
  intros m [n0 n1 n2 n3 n4 n5 n6 n7 n8 n9 mag nrm]. unfold fok, contract. cbn [f_mag fnn]. split.
  - intros (N & V & M). pose proof (verify_bounds _ _ _ _ _ _ _ _ _ _ _ _ V ltac:(lia)) as B. cbv zeta in B. destruct B as (B0 & B). change (2 ^ 26 - 1) with 67108863. change (2 ^ 22 - 1) with 4194303.
    assert (M32 : mag <= 32). { cbn [f_verify] in V. cbv zeta in V. rewrite !andb_true_iff in V. rewrite !Z.leb_le in V. tauto. }
    split; [exact M|]. split; [exact M32|]. split; [repeat apply Forall_cons; try apply Forall_nil; lia|]. split; [lia|]. intros ->.
    assert (M1 : mag <= 1). { cbn [f_verify] in V. cbv zeta in V. rewrite !andb_true_iff in V. rewrite !Z.leb_le in V. tauto. } split; [exact M1|].
    rewrite <- (radix_fv _ _ _ _ _ _ _ _ _ _ mag true). apply fcan_range. split; [split; [exact N|]; split; [exact V|]; cbn [f_mag]; lia | reflexivity].
  - intros (M & M32 & L & L9 & R). change (2 ^ 26 - 1) with 67108863 in L. change (2 ^ 22 - 1) with 4194303 in L9. repeat (apply Forall_cons_iff in L; destruct L as [? L]).
    split; [repeat apply conj; lia|]. split; [|lia]. destruct nrm.
    + destruct (R eq_refl) as [M1 V]. assert (MM : mag = 0 \/ mag = 1) by lia. destruct MM as [->| ->].
      * replace n0 with 0 by lia. replace n1 with 0 by lia. replace n2 with 0 by lia. replace n3 with 0 by lia. replace n4 with 0 by lia. replace n5 with 0 by lia. replace n6 with 0 by lia. replace n7 with 0 by lia. replace n8 with 0 by lia. replace n9 with 0 by lia. reflexivity.
      * apply canon_verify. cbn [canon]. unfold lim26. rewrite <- (radix_fv _ _ _ _ _ _ _ _ _ _ 1 true) in V. cbn [fv] in V. repeat apply conj; try lia. exact V.
    + cbn [f_verify]. cbv zeta. rewrite !andb_true_iff, !Z.leb_le. repeat apply conj; lia || reflexivity.
Qed.
Lemma C44_contract_example_pf : contract 1 (Fe 67108863 0 0 0 0 0 0 0 0 4194303 1 true) /\ ~ contract 1 (Fe 67108863 67108863 67108863 67108863 67108863 67108863 67108863 67108863 67108863 4194303 1 true).
Proof.
  split.
  - cbn [contract]. repeat apply conj; try lia; [repeat apply Forall_cons; try apply Forall_nil; lia | intros _; split; [lia | vmr]].
  - intros (_ & _ & _ & _ & H). destruct (H eq_refl) as [_ L]. revert L. vm_compute. discriminate.
Qed.
Lemma fok_val k f : fok k f -> frep k f (toF (fv f)). Proof. intros H. split; [exact H | reflexivity]. Qed.
Lemma fcan_val f : fcan f -> fcrep f (toF (fv f)). Proof. intros H. split; [exact H | reflexivity]. Qed.
Lemma fe_out f v : fe f = toF v -> fv f mod p = v mod p. Proof. intros H. apply fe_eq in H. rewrite H. apply val_toF. Qed.
Lemma C44_add_pf : forall dbg f g k k', fok k f -> fok k' g -> k + k' <= 32 -> exists r, f_add dbg f g = Some r /\ fok (k + k') r /\ fv r mod p = (fv f + fv g) mod p.
Proof.
  intros dbg f g k k' F G K. destruct (wp_ex _ _ (f_add_rep dbg f g _ _ k k' (fok_val _ _ F) (fok_val _ _ G) K)) as (r & -> & R & V). exists r. split; [reflexivity|]. split; [exact R|].
  rewrite <- toF_add in V. exact (fe_out _ _ V).
Qed.
Lemma big_ok m : 1 <= m <= 32 -> fok m (Fe (134217726 * m) (134217726 * m) (134217726 * m) (134217726 * m) (134217726 * m) (134217726 * m) (134217726 * m) (134217726 * m) (134217726 * m) (8388606 * m) m false).
Proof.
  intros M. apply C44_contract_pf. cbn [contract]. change (2 ^ 26 - 1) with 67108863. change (2 ^ 22 - 1) with 4194303. repeat apply conj; try lia; repeat apply Forall_cons; try apply Forall_nil; lia.
Qed.
Definition top_field (m : Z) : field := Fe (134217726 * m) (134217726 * m) (134217726 * m) (134217726 * m) (134217726 * m) (134217726 * m) (134217726 * m) (134217726 * m) (134217726 * m) (8388606 * m) m false.
(** All limbs at their limits. *)
Lemma C44_add_example_pf : fok 16 (top_field 16) /\ f_add true (top_field 16) (top_field 16) = Some (top_field 32).
Proof. split; [apply big_ok; lia | vm_compute; reflexivity]. Qed.
Lemma C44_neg_pf : forall dbg f m, fok m f -> 0 <= m <= 31 -> exists r, f_neg dbg f m = Some r /\ fok (m + 1) r /\ fv r mod p = (- fv f) mod p.
Proof.
  intros dbg f m F M. destruct (wp_ex _ _ (f_neg_rep dbg f _ m (fok_val _ _ F) M)) as (r & -> & R & V). exists r. split; [reflexivity|]. split; [exact R|]. rewrite <- toF_opp in V. exact (fe_out _ _ V).
Qed.
Lemma C44_neg_example_pf : fok 31 (top_field 31) /\ 0 <= 31 <= 31.
Proof. split; [apply big_ok; lia | lia]. Qed.
Lemma C44_mul_int_pf : forall dbg f k a, fok k f -> 0 <= a -> k * a <= 32 -> exists r, f_mul_int dbg f a = Some r /\ fok (k * a) r /\ fv r mod p = (a * fv f) mod p.
Proof.
  intros dbg f k a F A K. destruct (wp_ex _ _ (f_mul_int_rep dbg f _ k a (fok_val _ _ F) A K)) as (r & -> & R & V). exists r. split; [reflexivity|]. split; [exact R|]. rewrite <- toF_mul in V. exact (fe_out _ _ V).
Qed.
Lemma C44_mul_int_example_pf : fok 4 (top_field 4) /\ 4 * 8 <= 32.
Proof. split; [apply big_ok; lia | lia]. Qed.
Lemma C44_mul_pf : forall dbg f g, fok 8 f -> fok 8 g -> exists r, f_mul dbg f g = Some r /\ fok 1 r /\ fv r mod p = (fv f * fv g) mod p.
Proof.
  intros dbg f g F G. destruct (wp_ex _ _ (f_mul_rep dbg f g _ _ (fok_val _ _ F) (fok_val _ _ G))) as (r & -> & R & V). exists r. split; [reflexivity|]. split; [exact R|]. rewrite <- toF_mul in V. exact (fe_out _ _ V).
Qed.
Lemma C44_mul_example_pf : fok 8 (top_field 8) /\ match f_mul true (top_field 8) (top_field 8) with Some r => fv r mod p = (fv (top_field 8) * fv (top_field 8)) mod p | None => False end.
Proof. split; [apply big_ok; lia|]. vm_compute. reflexivity. Qed.
Lemma C44_sqr_pf : forall dbg f, fok 8 f -> exists r, f_sqr dbg f = Some r /\ fok 1 r /\ fv r mod p = (fv f * fv f) mod p.
Proof.
  intros dbg f F. destruct (wp_ex _ _ (f_sqr_rep dbg f _ (fok_val _ _ F))) as (r & -> & R & V). exists r. split; [reflexivity|]. split; [exact R|]. rewrite <- toF_mul in V. exact (fe_out _ _ V).
Qed.
Lemma C44_sqr_example_pf : fok 8 (top_field 8).
Proof. apply big_ok; lia. Qed.
Lemma fcan_mod f v : fcrep f (toF v) -> fv f = v mod p.
Proof. intros H. rewrite (fcrep_val _ _ H). apply val_toF. Qed.
(** [normalize] and [normalize_var] give the canonical representation; [normalize_weak] keeps the value. *)
Lemma C44_normalize_pf : forall dbg f, fok 31 f ->
  (exists r, f_normalize dbg f = Some r /\ fcan r /\ fv r = fv f mod p) /\ (exists r, f_normalize_var dbg f = Some r /\ fcan r /\ fv r = fv f mod p) /\
  (exists r, f_normalize_weak dbg f = Some r /\ fok 1 r /\ fv r mod p = fv f mod p).
Proof.
  intros dbg f F. apply fok_val in F. split; [|split].
  - destruct (wp_ex _ _ (f_normalize_rep dbg f _ F)) as (r & -> & R). exists r. split; [reflexivity|]. split; [apply R | apply fcan_mod, R].
  - destruct (wp_ex _ _ (f_normalize_var_rep dbg f _ F)) as (r & -> & R). exists r. split; [reflexivity|]. split; [apply R | apply fcan_mod, R].
  - destruct (wp_ex _ _ (f_normalize_weak_rep dbg f _ F)) as (r & -> & R & V). exists r. split; [reflexivity|]. split; [exact R | exact (fe_out _ _ V)].
Qed.
Lemma C44_normalize_example_pf : fok 31 (top_field 31) /\ fok 31 (Fe 67107887 67108799 67108863 67108863 67108863 67108863 67108863 67108863 67108863 4194303 1 false) /\
  fv (Fe 67107887 67108799 67108863 67108863 67108863 67108863 67108863 67108863 67108863 4194303 1 false) = p.
Proof.
  split; [apply big_ok; lia|]. split; [|vm_compute; reflexivity]. apply C44_contract_pf. cbn [contract]. repeat apply conj; try lia; repeat apply Forall_cons; try apply Forall_nil; lia.
Qed.
Lemma radix_inj w l l' : 0 < w -> length l = length l' -> Forall (fun a => 0 <= a < 2 ^ w) l -> Forall (fun a => 0 <= a < 2 ^ w) l' -> radix w l = radix w l' -> l = l'.
Proof.
  intros W. revert l'. induction l as [|a l IH]; intros [|b l'] L F G E; try discriminate; [reflexivity|]. cbn [radix fold_right] in E. fold (radix w l) (radix w l') in E.
  inversion_clear F as [|? ? A F']. inversion_clear G as [|? ? B G']. assert (P : 0 < 2 ^ w) by lia.
  assert (Q : radix w l = radix w l') by nia. rewrite Q in E. assert (a = b) by lia. subst b. f_equal. apply IH; [injection L; auto | assumption..].
Qed.
(** Normalized elements with equal values are equal limb by limb (up to the magnitude, 0 or 1, of zero). *)
Lemma C44_canonical_pf : forall n0 n1 n2 n3 n4 n5 n6 n7 n8 n9 m a0 a1 a2 a3 a4 a5 a6 a7 a8 a9 m',
  fcan (Fe n0 n1 n2 n3 n4 n5 n6 n7 n8 n9 m true) -> fcan (Fe a0 a1 a2 a3 a4 a5 a6 a7 a8 a9 m' true) ->
  fv (Fe n0 n1 n2 n3 n4 n5 n6 n7 n8 n9 m true) mod p = fv (Fe a0 a1 a2 a3 a4 a5 a6 a7 a8 a9 m' true) mod p ->
  [n0; n1; n2; n3; n4; n5; n6; n7; n8; n9] = [a0; a1; a2; a3; a4; a5; a6; a7; a8; a9].
Proof.
  intros n0 n1 n2 n3 n4 n5 n6 n7 n8 n9 m a0 a1 a2 a3 a4 a5 a6 a7 a8 a9 m' H K E0.
  pose proof (fcan_range _ H) as RH. pose proof (fcan_range _ K) as RK. change fp with p in RH, RK. rewrite !Z.mod_small in E0 by assumption. clear RH RK.
  destruct H as [H _], K as [K _]. apply C44_contract_pf in H, K. cbn [contract] in H, K. destruct H as (HM & _ & HL & H9 & _), K as (KM & _ & KL & K9 & _).
  rewrite !radix_fv in E0. apply (radix_inj 26); [lia | reflexivity | | | exact E0]; clear E0.
  - apply (Forall_app _ [_; _; _; _; _; _; _; _; _] [_]). split; [eapply Forall_impl; [|exact HL]; cbv beta; intros; lia | repeat constructor; lia].
  - apply (Forall_app _ [_; _; _; _; _; _; _; _; _] [_]). split; [eapply Forall_impl; [|exact KL]; cbv beta; intros; lia | repeat constructor; lia].
Qed.
Lemma C44_canonical_example_pf : fcan (Fe 0 0 0 0 0 0 0 0 0 0 0 true) /\ fcan (Fe 0 0 0 0 0 0 0 0 0 0 1 true).
Proof. split; (split; [|reflexivity]); apply C44_contract_pf; cbn [contract]; (repeat apply conj; try lia; [repeat apply Forall_cons; try apply Forall_nil; lia | intros _; split; [lia | vmr]]). Qed.
Lemma C44_zero_test_pf : forall dbg f, fok 31 f ->
  f_normalizes_to_zero dbg f = Some (fv f mod p =? 0) /\ f_normalizes_to_zero_var dbg f = Some (fv f mod p =? 0).
Proof.
  intros dbg f F. apply fok_val in F. change p with fp. rewrite val_eqb0. split.
  - destruct (wp_ex _ _ (f_normalizes_to_zero_rep dbg f _ F)) as (r & -> & ->). reflexivity.
  - destruct (wp_ex _ _ (f_normalizes_to_zero_var_rep dbg f _ F)) as (r & -> & ->). reflexivity.
Qed.
Lemma C44_zero_test_example_pf : f_normalizes_to_zero true (Fe 67107887 67108799 67108863 67108863 67108863 67108863 67108863 67108863 67108863 4194303 1 false) = Some true /\
  f_normalizes_to_zero_var true (Fe 67107888 67108799 67108863 67108863 67108863 67108863 67108863 67108863 67108863 4194303 1 false) = Some false.
Proof. split; vm_compute; reflexivity. Qed.
Lemma toF_eqb a b : feqb (toF a) (toF b) = (a mod p =? b mod p). Proof. unfold feqb. rewrite !val_toF. reflexivity. Qed.
(** [==] and [eq_var] compare values, not representations. *)
Lemma C44_equality_pf : forall dbg f g,
  (forall k k', fok k f -> fok k' g -> k + k' <= 30 -> f_eq dbg f g = Some (fv f mod p =? fv g mod p)) /\
  (fok 1 f -> fok 29 g -> f_eq_var dbg f g = Some (fv f mod p =? fv g mod p)).
Proof.
  intros dbg f g. rewrite <- toF_eqb. split.
  - intros k k' F G K. destruct (wp_ex _ _ (f_eq_rep dbg f g _ _ k k' (fok_val _ _ F) (fok_val _ _ G) K)) as (r & -> & ->). reflexivity.
  - intros F G. destruct (wp_ex _ _ (f_eq_var_rep dbg f g _ _ 29 (fok_val _ _ F) (fok_val _ _ G) ltac:(lia))) as (r & -> & ->). reflexivity.
Qed.
Lemma C44_equality_example_pf : f_eq true (top_field 15) (top_field 15) = Some true /\ f_eq true (top_field 15) (top_field 14) = Some false.
Proof. split; vm_compute; reflexivity. Qed.

(** * C45 *)
Lemma fe_val f : val (toF (fv f)) = fv f mod p. Proof. apply val_toF. Qed.
Lemma C45_inv_pf : forall dbg f, fok 8 f -> exists r, f_inv dbg f = Some r /\ fok 1 r /\
  (fv f mod p <> 0 -> (fv r * fv f) mod p = 1) /\ (fv f mod p = 0 -> fv r mod p = 0).
Proof.
  intros dbg f F. destruct (wp_ex _ _ (f_inv_rep dbg f _ (fok_val _ _ F))) as (r & -> & R & V). exists r. split; [reflexivity|]. split; [exact R|].
  unfold finv in V. rewrite val_toF in V. apply fe_out in V. rewrite inv_mod_mod in V by (vm_compute; reflexivity). split.
  - intros Z0. rewrite Z.mul_mod, V by (vm_compute; discriminate). rewrite <- Z.mul_mod by (vm_compute; discriminate). apply inv_mod_ok; [exact prime_p | vm_compute; reflexivity | exact Z0].
  - intros Z0. rewrite V. rewrite <- inv_mod_mod, Z0 by (vm_compute; reflexivity). vm_compute. reflexivity.
Qed.
Lemma C45_inv_example_pf : fok 8 (top_field 8) /\ fv (top_field 8) mod p <> 0.
Proof. split; [apply big_ok; lia | vm_compute; discriminate]. Qed.
Lemma toF_sq y f : (toF y * toF y = toF (fv f))%F <-> (y * y) mod p = fv f mod p.
Proof. rewrite <- toF_mul. apply toF_eq. Qed.
Lemma fsqrt_neg x : (fsqrt x * fsqrt x <> x)%F -> (fsqrt x * fsqrt x = - x)%F.
Proof.
  destruct (F_dec x f0) as [->|N].
  { unfold fsqrt. rewrite fexp_0_l by (vm_compute; reflexivity). intros _. ring. }
  assert (E : (fsqrt x * fsqrt x = fexp x ((p - 1) / 2) * x)%F).
  { unfold fsqrt. rewrite <- fexp_2, <- fexp_mul by (vm_compute; discriminate). replace ((p + 1) / 4 * 2) with ((p - 1) / 2 + 1) by (vm_compute; reflexivity). rewrite fexp_add, fexp_1 by (vm_compute; discriminate). reflexivity. }
  rewrite E. clear E. set (h := fexp x ((p - 1) / 2)).
  assert (H : (h * h = f1)%F). { unfold h. rewrite <- fexp_2, <- fexp_mul by (vm_compute; discriminate). replace ((p - 1) / 2 * 2) with (p - 1) by (vm_compute; reflexivity). apply fexp_fermat, N. }
  assert (D : ((h - f1) * (h + f1) = f0)%F). { transitivity (h * h - f1)%F; [ring|]. rewrite H. ring. }
  apply fmul_eq0 in D. destruct D as [D|D].
  - assert (D1 : h = f1) by exact (proj1 (fsub_eq0 _ _) D). rewrite D1. intros K. destruct K. ring.
  - assert (D1 : h = (- f1)%F) by exact (proj1 (fadd_eq0 _ _) D). rewrite D1. intros _. ring.
Qed.
(** [sqrt] reports whether the input is a square; its result is a root of the input or of its negation. *)
Lemma C45_sqrt_pf : forall dbg f, fok 8 f -> exists r b, f_sqrt dbg f = Some (r, b) /\ f_is_quad_var dbg f = Some b /\ fok 1 r /\
  (b = true <-> exists y, (y * y) mod p = fv f mod p) /\ (b = true -> (fv r * fv r) mod p = fv f mod p) /\ (b = false -> (fv r * fv r) mod p = (- fv f) mod p).
Proof.
  intros dbg f F. destruct (wp_ex _ _ (f_sqrt_rep dbg f _ (fok_val _ _ F))) as ([r b] & E & R & B). exists r, b. split; [exact E|]. unfold f_is_quad_var. rewrite E.
  split; [reflexivity|]. destruct R as [R V]. split; [exact R|].
  assert (RV : toF (fv r) = fsqrt (toF (fv f))) by exact V. subst b. destruct (feqb_spec (fsqrt (toF (fv f)) * fsqrt (toF (fv f)))%F (toF (fv f))) as [Q|Q].
  - split; [|split; [|discriminate]]. + split; [|reflexivity]. intros _. exists (fv r). apply toF_sq. rewrite RV. exact Q. + intros _. apply toF_sq. rewrite RV. exact Q.
  - split; [|split; [discriminate|]].
    + split; [discriminate|]. intros [y Y]. apply toF_sq in Y. destruct Q. eapply fsqrt_complete. exact Y.
    + intros _. pose proof (fsqrt_neg (toF (fv f)) Q) as N. rewrite <- RV, <- toF_mul, <- toF_opp in N. apply toF_eq in N. exact N.
Qed.

Lemma m1_nonsquare y : (y * y) mod p <> (-1) mod p.
Proof.
  intros H. apply toF_eq in H. rewrite toF_mul in H. set (u := toF y) in *.
  assert (N : u <> f0). { intros K. rewrite K in H. apply (f_equal val) in H. revert H. vm_compute. discriminate. }
  pose proof (fexp_fermat u N) as E. replace (p - 1) with (2 * ((p - 1) / 2)) in E by (vm_compute; reflexivity). rewrite fexp_mul, fexp_2, H in E by (vm_compute; discriminate).
  replace ((p - 1) / 2) with (2 * ((p - 3) / 4) + 1) in E by (vm_compute; reflexivity). rewrite fexp_add, fexp_1, fexp_mul, fexp_2 in E by (vm_compute; discriminate).
  rewrite <- toF_mul in E. change (toF (-1 * -1)) with f1 in E. rewrite fexp_1_l in E by (vm_compute; discriminate). apply (f_equal val) in E. revert E. vm_compute. discriminate.
Qed.
(** A square (4) and a non-square (p - 1). *)
Lemma C45_sqrt_example_pf : (exists r, f_sqrt true (Fe 4 0 0 0 0 0 0 0 0 0 1 true) = Some (r, true)) /\
  (exists r, f_sqrt true (Fe 67107886 67108799 67108863 67108863 67108863 67108863 67108863 67108863 67108863 4194303 1 true) = Some (r, false)).
Proof.
  split.
  - destruct (C45_sqrt_pf true (Fe 4 0 0 0 0 0 0 0 0 0 1 true)) as (r & b & E & _ & _ & B & _).
    { apply C44_contract_pf. cbn [contract]. repeat apply conj; try lia; [repeat apply Forall_cons; try apply Forall_nil; lia | intros _; split; [lia | vmr]]. }
    exists r. rewrite E. repeat f_equal. apply B. exists 2. vm_compute. reflexivity.
  - destruct (C45_sqrt_pf true (Fe 67107886 67108799 67108863 67108863 67108863 67108863 67108863 67108863 67108863 4194303 1 true)) as (r & b & E & _ & _ & B & _).
    { apply C44_contract_pf. cbn [contract]. repeat apply conj; try lia; [repeat apply Forall_cons; try apply Forall_nil; lia | intros _; split; [lia | vmr]]. }
    exists r. rewrite E. repeat f_equal. destruct b; [|reflexivity]. destruct (proj1 B eq_refl) as [y Y]. destruct (m1_nonsquare y). rewrite Y. vm_compute. reflexivity.
Qed.

(** * C46 *)
Lemma C46_set_b32_pf : forall dbg old l, length l = 32%nat -> bytes l -> exists r, f_set_b32 dbg old l = Some (r, be_val l <? p) /\ (be_val l < p -> fcan r /\ fv r = be_val l).
Proof.
  intros dbg old l L B. destruct (wp_ex _ _ (f_set_b32_rep dbg old l L B)) as ([r b] & -> & -> & R). exists r. split; [reflexivity|]. intros K. specialize (R K). split; [apply R|].
  rewrite (fcan_mod _ _ R). apply Z.mod_small. pose proof (be_val_32 l L B); lia.
Qed.
Lemma C46_set_b32_example_pf : exists r, f_set_b32 true f_default (be_bytes 32 (p - 1)) = Some (r, true) /\ exists r', f_set_b32 true f_default (be_bytes 32 p) = Some (r', false).
Proof. eexists. split; [vm_compute; reflexivity|]. eexists. vm_compute. reflexivity. Qed.
Lemma C46_b32_pf : forall dbg f, fcan f -> f_b32 dbg f = Some (be_bytes 32 (fv f)) /\ (forall old, exists r, f_set_b32 dbg old (be_bytes 32 (fv f)) = Some (r, true) /\ fcan r /\ fv r = fv f).
Proof.
  intros dbg f F. pose proof (fcan_range _ F) as R. change fp with p in R. split.
  - destruct (wp_ex _ _ (f_b32_rep dbg f _ (fcan_val _ F))) as (r & -> & ->). rewrite fe_val, Z.mod_small by exact R. reflexivity.
  - intros old. destruct (C46_set_b32_pf dbg old (be_bytes 32 (fv f)) (be_bytes_length _ _) (be_bytes_bytes _ _)) as (r & E & K). assert (V : be_val (be_bytes 32 (fv f)) = fv f) by (apply be_val_bytes_id; change (256 ^ Z.of_nat 32) with (2 ^ 256); assert (p < 2 ^ 256) by (vm_compute; reflexivity); lia).
    rewrite V in E, K. exists r. rewrite E. destruct (Z.ltb_spec (fv f) p); [|lia]. split; [reflexivity|]. apply K. apply R.
Qed.
Lemma C46_b32_example_pf : fcan (Fe 67107886 67108799 67108863 67108863 67108863 67108863 67108863 67108863 67108863 4194303 1 true).
Proof. split; [|reflexivity]. apply C44_contract_pf. cbn [contract]. repeat apply conj; try lia; [repeat apply Forall_cons; try apply Forall_nil; lia | intros _; split; [lia | vmr]]. Qed.
(** Storage holds the value in eight 32-bit words and the conversion back gives the element again. *)
Lemma C46_storage_pf : forall dbg f, fcan f -> exists s, f_to_storage dbg f = Some s /\ fsv s = fv f /\ fcan (f_from_storage s) /\ fv (f_from_storage s) = fv f.
Proof.
  intros dbg f F. pose proof (fcan_range _ F) as R. change fp with p in R. destruct (wp_ex _ _ (f_storage_roundtrip dbg f _ (fcan_val _ F))) as (s & -> & S & V & C).
  rewrite fe_val, Z.mod_small in V by exact R. exists s. split; [reflexivity|]. split; [exact V|]. split; [apply C|]. rewrite (fcan_mod _ _ C), Z.mod_small by exact R. reflexivity.
Qed.
Lemma C46_storage_example_pf : f_to_storage true (Fe 67107886 67108799 67108863 67108863 67108863 67108863 67108863 67108863 67108863 4194303 1 true) = Some (Fs 4294966318 4294967294 4294967295 4294967295 4294967295 4294967295 4294967295 4294967295).
Proof. vm_compute. reflexivity. Qed.
Lemma C46_compare_pf : forall dbg f g, fcan f -> fcan g -> f_cmp_var dbg f g = Some (fv f ?= fv g) /\
  f_is_zero dbg f = Some (fv f =? 0) /\ f_is_odd dbg f = Some (Z.odd (fv f)).
Proof.
  intros dbg f g F G. pose proof (fcan_range _ F) as RF. pose proof (fcan_range _ G) as RG. change fp with p in RF, RG. split; [|split].
  - destruct (wp_ex _ _ (f_cmp_var_rep dbg f g _ _ (fcan_val _ F) (fcan_val _ G))) as (r & -> & ->). rewrite !fe_val, !Z.mod_small by assumption. reflexivity.
  - destruct (wp_ex _ _ (f_is_zero_rep dbg f _ (fcan_val _ F))) as (r & -> & ->). rewrite <- val_eqb0. change fp with p. rewrite Z.mod_small by exact RF. reflexivity.
  - destruct (wp_ex _ _ (f_is_odd_rep dbg f _ (fcan_val _ F))) as (r & -> & ->). rewrite fe_val, Z.mod_small by exact RF. reflexivity.
Qed.
Lemma C46_compare_example_pf : f_cmp_var true (Fe 67108863 0 0 0 0 0 0 0 0 0 1 true) (Fe 0 1 0 0 0 0 0 0 0 0 1 true) = Some Lt.
Proof. vm_compute. reflexivity. Qed.

(** * C47 *)
(** The eight 32-bit words determine the scalar: every word-bounded scalar is [scalar_of v] for one v below 2^256, and the canonical ones have v < n. *)
Lemma C47_representation_pf : forall d0 d1 d2 d3 d4 d5 d6 d7, Forall (fun d => 0 <= d < 2 ^ 32) [d0; d1; d2; d3; d4; d5; d6; d7] ->
  exists v, 0 <= v < 2 ^ 256 /\ v = radix 32 [d0; d1; d2; d3; d4; d5; d6; d7] /\ Sc d0 d1 d2 d3 d4 d5 d6 d7 = scalar_of v /\ (forall w, 0 <= w < 2 ^ 256 -> Sc d0 d1 d2 d3 d4 d5 d6 d7 = scalar_of w -> w = v).
Proof.
  intros d0 d1 d2 d3 d4 d5 d6 d7 H. assert (U : s_u (Sc d0 d1 d2 d3 d4 d5 d6 d7)). { cbn [s_u]. unfold u32x8, u32. repeat (apply Forall_cons_iff in H; destruct H as [? H]). repeat apply conj; lia. }
  exists (sv (Sc d0 d1 d2 d3 d4 d5 d6 d7)). split; [apply sv_range, U|]. split; [cbn [sv radix fold_right]; unfold val8; change (2 ^ 32) with 4294967296; lia|]. split; [apply scalar_of_id, U|].
  intros w W ->. symmetry. apply scalar_of_sv, W.
Qed.
Lemma C47_representation_example_pf : scalar_of (n - 1) = Sc 3493216576 3218235020 2940772411 3132021990 4294967294 4294967295 4294967295 4294967295.
Proof. vm_compute. reflexivity. Qed.
Lemma C47_ring_pf : forall dbg a b, 0 <= a < n -> 0 <= b < n ->
  s_add dbg (scalar_of a) (scalar_of b) = Some (scalar_of ((a + b) mod n)) /\ s_mul dbg (scalar_of a) (scalar_of b) = Some (scalar_of ((a * b) mod n)) /\
  s_sqr dbg (scalar_of a) = Some (scalar_of ((a * a) mod n)) /\ s_neg dbg (scalar_of a) = Some (scalar_of ((- a) mod n)) /\
  (forall flag, s_cond_neg dbg (scalar_of a) flag = Some (scalar_of (if flag then (- a) mod n else a))).
Proof.
  intros dbg a b A B. pose proof n_lt as NL. assert (A' : 0 <= a < 2 ^ 256) by lia. assert (B' : 0 <= b < 2 ^ 256) by lia.
  split; [apply s_add_eq; assumption|]. split; [apply s_mul_eq; assumption|]. split; [apply s_sqr_eq; assumption|]. split; [apply s_neg_eq; assumption|]. intros f. apply s_cond_neg_eq; assumption.
Qed.
Lemma C47_ring_example_pf : s_add true (scalar_of (n - 1)) (scalar_of (n - 1)) = Some (scalar_of (n - 2)) /\ s_mul true (scalar_of (n - 1)) (scalar_of (n - 2)) = Some (scalar_of 2) /\ s_neg true (scalar_of 0) = Some (scalar_of 0).
Proof. split; [|split]; vm_compute; reflexivity. Qed.
(** Multiplication also reduces non-canonical operands. *)
Lemma C47_mul_any_pf : forall dbg a b, 0 <= a < 2 ^ 256 -> 0 <= b < 2 ^ 256 -> s_mul dbg (scalar_of a) (scalar_of b) = Some (scalar_of ((a * b) mod n)) /\ s_sqr dbg (scalar_of a) = Some (scalar_of ((a * a) mod n)).
Proof. intros dbg a b A B. split; [apply s_mul_eq; assumption | apply s_sqr_eq; assumption]. Qed.
Lemma C47_mul_any_example_pf : s_mul true (scalar_of (2 ^ 256 - 1)) (scalar_of (2 ^ 256 - 1)) = Some (scalar_of (((2 ^ 256 - 1) * (2 ^ 256 - 1)) mod n)).
Proof. vm_compute. reflexivity. Qed.
Lemma C47_inv_pf : forall dbg a, 0 <= a < n -> exists b, s_inv dbg (scalar_of a) = Some (scalar_of b) /\ 0 <= b < n /\ (a <> 0 -> (b * a) mod n = 1) /\ (a = 0 -> b = 0).
Proof.
  intros dbg a A. pose proof n_lt as NL. exists (inv_mod n a). split; [apply s_inv_eq; lia|]. split; [apply inv_mod_range; lia|]. split.
  - intros NZ. apply inv_mod_ok; [exact prime_n | exact NL | rewrite Z.mod_small by exact A; exact NZ].
  - intros ->. vm_compute. reflexivity.
Qed.
Lemma C47_inv_example_pf : s_inv true (scalar_of 2) = Some (scalar_of ((n + 1) / 2)).
Proof. rewrite s_inv_eq by (split; [discriminate | reflexivity]). vm_compute. reflexivity. Qed.
Lemma C47_codec_pf : forall dbg a l, 0 <= a < n -> length l = 32%nat -> bytes l ->
  s_b32 (scalar_of a) = be_bytes 32 a /\ s_set_b32 dbg l = Some (scalar_of (be_val l mod n), n <=? be_val l).
Proof. intros dbg a l A L B. pose proof n_lt as NL. split; [apply s_b32_eq; lia | apply s_set_b32_eq; assumption]. Qed.
Lemma C47_codec_example_pf : s_set_b32 true (be_bytes 32 n) = Some (scalar_of 0, true) /\ s_set_b32 true (be_bytes 32 (n - 1)) = Some (scalar_of (n - 1), false).
Proof. split; vm_compute; reflexivity. Qed.

(** * C48 *)
Lemma C48_bits_pf : forall dbg a off c, 0 <= a < 2 ^ 256 -> 0 <= off -> 0 < c < 32 -> off + c <= 256 ->
  s_bits_var dbg (scalar_of a) off c = Some ((a / 2 ^ off) mod 2 ^ c) /\ ((off + c - 1) / 32 = off / 32 -> s_bits dbg (scalar_of a) off c = Some ((a / 2 ^ off) mod 2 ^ c)).
Proof.
  intros dbg a off c A O C L. pose proof (scalar_of_u a) as U. split; [|intros W].
  - destruct (wp_ex _ _ (s_bits_var_ok dbg _ off c U O C L)) as (r & -> & ->). rewrite scalar_of_sv by exact A. reflexivity.
  - destruct (wp_ex _ _ (s_bits_ok dbg _ off c U O C L W)) as (r & -> & ->). rewrite scalar_of_sv by exact A. reflexivity.
Qed.
Lemma C48_bits_example_pf : s_bits_var true (scalar_of (n - 1)) 27 15 = Some 20890 /\ s_bits true (scalar_of (n - 1)) 252 4 = Some 15.
Proof. split; vm_compute; reflexivity. Qed.
Lemma C48_shr_int_pf : forall dbg a k, 0 <= a < 2 ^ 256 -> 0 < k < 16 -> s_shr_int dbg (scalar_of a) k = Some (scalar_of (a / 2 ^ k), a mod 2 ^ k).
Proof.
  intros dbg a k A K. destruct (wp_ex _ _ (s_shr_int_ok dbg _ k (scalar_of_u a) K)) as ([r b] & -> & U & V & ->). rewrite scalar_of_sv in V |- * by exact A. rewrite (scalar_of_id r U), V. reflexivity.
Qed.
Lemma C48_shr_int_example_pf : s_shr_int true (scalar_of (n - 1)) 15 = Some (scalar_of ((n - 1) / 2 ^ 15), (n - 1) mod 2 ^ 15).
Proof. vm_compute. reflexivity. Qed.
Lemma C48_cadd_bit_pf : forall dbg a bit (flag : bool), 0 <= a < 2 ^ 256 -> 0 <= bit < 256 -> a + (if flag then 2 ^ bit else 0) < n -> s_cadd_bit dbg (scalar_of a) bit flag = Some (scalar_of (a + if flag then 2 ^ bit else 0)).
Proof.
  intros dbg a bit flag A B L. pose proof (s_cadd_bit_ok dbg (scalar_of a) bit flag (scalar_of_u a) B) as H. rewrite scalar_of_sv in H by exact A.
  replace (b2z flag * 2 ^ bit) with (if flag then 2 ^ bit else 0) in H by (destruct flag; cbn [b2z]; ring). destruct (wp_ex _ _ (H L)) as (r & -> & S & V). rewrite (scan_of _ S), V. reflexivity.
Qed.
Lemma C48_cadd_bit_example_pf : s_cadd_bit true (scalar_of (2 ^ 255 - 1)) 254 true = Some (scalar_of (2 ^ 255 - 1 + 2 ^ 254)) /\ s_cadd_bit true (scalar_of (2 ^ 128 - 1)) 0 true = Some (scalar_of (2 ^ 128)).
Proof. split; vm_compute; reflexivity. Qed.
