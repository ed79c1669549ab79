(** Release builds: the field and group functions never panic, whatever the limbs, flags and magnitudes are. *)
From Verif Require Import Word MField MScalar MGroup MEcmult MEcdsa MDer MApi.

Definition tot {A} (x : option A) : Prop := exists r, x = Some r.
Lemma tot_some {A} (x : A) : tot (Some x). Proof. exists x. reflexivity. Qed.
Lemma tot_bind {A B} (x : option A) (f : A -> option B) : tot x -> (forall a, tot (f a)) -> tot (bind x f).
Proof. intros (a & ->) K. apply K. Qed.
Lemma tot_mapo {A B} (f : A -> option B) l : (forall a, tot (f a)) -> tot (mapo f l).
Proof. intros H. induction l as [|a l IH]; cbn [mapo]; [apply tot_some|]. apply tot_bind; [apply H|]. intros b. apply tot_bind; [exact IH|]. intros. apply tot_some. Qed.
Lemma uchk_tot w v : tot (uchk w false v).
Proof. unfold uchk. destruct (_ && _); apply tot_some. Qed.
Lemma ichk_tot v : tot (ichk false v).
Proof. unfold ichk. destruct (_ && _); apply tot_some. Qed.
Lemma dassert_tot b : tot (dassert false b).
Proof. apply tot_some. Qed.
Create HintDb tots discriminated.
#[global] Hint Constants Opaque : tots.
#[global] Hint Variables Opaque : tots.
#[global] Hint Transparent pubkey seckey message recid decoder acc : tots.
#[global] Hint Resolve uchk_tot ichk_tot dassert_tot : tots.
Lemma add32_tot a b : tot (add32 false a b). Proof. apply uchk_tot. Qed.
Lemma sub32_tot a b : tot (sub32 false a b). Proof. apply uchk_tot. Qed.
Lemma mul32_tot a b : tot (mul32 false a b). Proof. apply uchk_tot. Qed.
Lemma add64_tot a b : tot (add64 false a b). Proof. apply uchk_tot. Qed.
Lemma sub64_tot a b : tot (sub64 false a b). Proof. apply uchk_tot. Qed.
Lemma mul64_tot a b : tot (mul64 false a b). Proof. apply uchk_tot. Qed.
Lemma add8_tot a b : tot (add8 false a b). Proof. apply uchk_tot. Qed.
Lemma sub8_tot a b : tot (sub8 false a b). Proof. apply uchk_tot. Qed.
#[global] Hint Resolve add32_tot sub32_tot mul32_tot add64_tot sub64_tot mul64_tot add8_tot sub8_tot : tots.
Ltac tot1 :=
  lazymatch goal with
  | |- tot (Some _) => apply tot_some
  | |- tot (bind _ _) => apply tot_bind; [|intros ?]
  | |- tot (mapo _ _) => apply tot_mapo; intros ?
  | |- tot (if false then _ else _) => cbv beta iota
  | |- tot (match ?e with _ => _ end) => destruct e
  | IH : forall _, _ |- _ => first [apply IH | solve [auto with tots nocore]]
  | |- _ => solve [auto with tots nocore]
  end.
Ltac tots := repeat tot1.
Lemma f_normalize_tot : forall (a0 : field), tot (f_normalize false a0).
Proof. intros. unfold f_normalize. tots. Qed.
#[global] Hint Resolve f_normalize_tot : tots.
Lemma f_normalize_weak_tot : forall (a0 : field), tot (f_normalize_weak false a0).
Proof. intros. unfold f_normalize_weak. tots. Qed.
#[global] Hint Resolve f_normalize_weak_tot : tots.
Lemma f_normalize_var_tot : forall (a0 : field), tot (f_normalize_var false a0).
Proof. intros. unfold f_normalize_var. tots. Qed.
#[global] Hint Resolve f_normalize_var_tot : tots.
Lemma f_normalizes_to_zero_tot : forall (a0 : field), tot (f_normalizes_to_zero false a0).
Proof. intros. unfold f_normalizes_to_zero. tots. Qed.
#[global] Hint Resolve f_normalizes_to_zero_tot : tots.
Lemma f_normalizes_to_zero_var_tot : forall (a0 : field), tot (f_normalizes_to_zero_var false a0).
Proof. intros. unfold f_normalizes_to_zero_var. tots. Qed.
#[global] Hint Resolve f_normalizes_to_zero_var_tot : tots.
Lemma f_set_int_tot : forall (a0 : Z), tot (f_set_int false a0).
Proof. intros. unfold f_set_int. tots. Qed.
#[global] Hint Resolve f_set_int_tot : tots.
Lemma f_is_zero_tot : forall (a0 : field), tot (f_is_zero false a0).
Proof. intros. unfold f_is_zero. tots. Qed.
#[global] Hint Resolve f_is_zero_tot : tots.
Lemma f_is_odd_tot : forall (a0 : field), tot (f_is_odd false a0).
Proof. intros. unfold f_is_odd. tots. Qed.
#[global] Hint Resolve f_is_odd_tot : tots.
Lemma f_b32_tot : forall (a0 : field), tot (f_b32 false a0).
Proof. intros. unfold f_b32. tots. Qed.
#[global] Hint Resolve f_b32_tot : tots.
Lemma f_neg_limb_tot : forall (a0 : Z) (a1 : Z) (a2 : Z), tot (f_neg_limb false a0 a1 a2).
Proof. intros. unfold f_neg_limb. tots. Qed.
#[global] Hint Resolve f_neg_limb_tot : tots.
Lemma f_neg_tot : forall (a0 : field) (a1 : Z), tot (f_neg false a0 a1).
Proof. intros. unfold f_neg. tots. Qed.
#[global] Hint Resolve f_neg_tot : tots.
Lemma f_mul_int_tot : forall (a0 : field) (a1 : Z), tot (f_mul_int false a0 a1).
Proof. intros. unfold f_mul_int. tots. Qed.
#[global] Hint Resolve f_mul_int_tot : tots.
Lemma f_add_tot : forall (a0 : field) (a1 : field), tot (f_add false a0 a1).
Proof. intros. unfold f_add. tots. Qed.
#[global] Hint Resolve f_add_tot : tots.
Lemma f_cmp_var_tot : forall (a0 : field) (a1 : field), tot (f_cmp_var false a0 a1).
Proof. intros. unfold f_cmp_var. tots. Qed.
#[global] Hint Resolve f_cmp_var_tot : tots.
Lemma f_ge_tot : forall (a0 : field) (a1 : field), tot (f_ge false a0 a1).
Proof. intros. unfold f_ge. tots. Qed.
#[global] Hint Resolve f_ge_tot : tots.
Lemma f_eq_var_tot : forall (a0 : field) (a1 : field), tot (f_eq_var false a0 a1).
Proof. intros. unfold f_eq_var. tots. Qed.
#[global] Hint Resolve f_eq_var_tot : tots.
Lemma f_eq_tot : forall (a0 : field) (a1 : field), tot (f_eq false a0 a1).
Proof. intros. unfold f_eq. tots. Qed.
#[global] Hint Resolve f_eq_tot : tots.
Lemma f_mul_inner_tot : forall (a0 : field) (a1 : field), tot (f_mul_inner false a0 a1).
Proof. intros. unfold f_mul_inner. tots. Qed.
#[global] Hint Resolve f_mul_inner_tot : tots.
Lemma f_sqr_inner_tot : forall (a0 : field), tot (f_sqr_inner false a0).
Proof. intros. unfold f_sqr_inner. tots. Qed.
#[global] Hint Resolve f_sqr_inner_tot : tots.
Lemma f_mul_tot : forall (a0 : field) (a1 : field), tot (f_mul false a0 a1).
Proof. intros. unfold f_mul. tots. Qed.
#[global] Hint Resolve f_mul_tot : tots.
Lemma f_sqr_tot : forall (a0 : field), tot (f_sqr false a0).
Proof. intros. unfold f_sqr. tots. Qed.
#[global] Hint Resolve f_sqr_tot : tots.
Lemma f_sqr_n_tot : forall (a0 : nat) (a1 : field), tot (f_sqr_n false a0 a1).
Proof. induction a0 as [|? ? IH] || induction a0 as [|? IH]; intros; cbn [f_sqr_n]; tots. Qed.
#[global] Hint Resolve f_sqr_n_tot : tots.
Lemma f_chain223_tot : forall (a0 : field), tot (f_chain223 false a0).
Proof. intros. unfold f_chain223. tots. Qed.
#[global] Hint Resolve f_chain223_tot : tots.
Lemma f_sqrt_tot : forall (a0 : field), tot (f_sqrt false a0).
Proof. intros. unfold f_sqrt. tots. Qed.
#[global] Hint Resolve f_sqrt_tot : tots.
Lemma f_inv_tot : forall (a0 : field), tot (f_inv false a0).
Proof. intros. unfold f_inv. tots. Qed.
#[global] Hint Resolve f_inv_tot : tots.
Lemma f_is_quad_var_tot : forall (a0 : field), tot (f_is_quad_var false a0).
Proof. intros. unfold f_is_quad_var. tots. Qed.
#[global] Hint Resolve f_is_quad_var_tot : tots.
Lemma f_to_storage_tot : forall (a0 : field), tot (f_to_storage false a0).
Proof. intros. unfold f_to_storage. tots. Qed.
#[global] Hint Resolve f_to_storage_tot : tots.
Lemma af_set_xquad_tot : forall (a0 : field), tot (af_set_xquad false a0).
Proof. intros. unfold af_set_xquad. tots. Qed.
#[global] Hint Resolve af_set_xquad_tot : tots.
Lemma af_set_xo_var_tot : forall (a0 : field) (a1 : bool), tot (af_set_xo_var false a0 a1).
Proof. intros. unfold af_set_xo_var. tots. Qed.
#[global] Hint Resolve af_set_xo_var_tot : tots.
Lemma af_is_valid_var_tot : forall (a0 : affine), tot (af_is_valid_var false a0).
Proof. intros. unfold af_is_valid_var. tots. Qed.
#[global] Hint Resolve af_is_valid_var_tot : tots.
Lemma af_neg_tot : forall (a0 : affine), tot (af_neg false a0).
Proof. intros. unfold af_neg. tots. Qed.
#[global] Hint Resolve af_neg_tot : tots.
Lemma af_eq_tot : forall (a0 : affine) (a1 : affine), tot (af_eq false a0 a1).
Proof. intros. unfold af_eq. tots. Qed.
#[global] Hint Resolve af_eq_tot : tots.
Lemma af_set_gej_tot : forall (a0 : jac), tot (af_set_gej false a0).
Proof. intros. unfold af_set_gej. tots. Qed.
#[global] Hint Resolve af_set_gej_tot : tots.
Lemma af_set_gej_var_tot : forall (a0 : affine) (a1 : jac), tot (af_set_gej_var false a0 a1).
Proof. intros. unfold af_set_gej_var. tots. Qed.
#[global] Hint Resolve af_set_gej_var_tot : tots.
Lemma af_set_gej_zinv_tot : forall (a0 : jac) (a1 : field), tot (af_set_gej_zinv false a0 a1).
Proof. intros. unfold af_set_gej_zinv. tots. Qed.
#[global] Hint Resolve af_set_gej_zinv_tot : tots.
Lemma j_set_ge_tot : forall (a0 : affine), tot (j_set_ge false a0).
Proof. intros. unfold j_set_ge. tots. Qed.
#[global] Hint Resolve j_set_ge_tot : tots.
Lemma j_eq_x_var_tot : forall (a0 : jac) (a1 : field), tot (j_eq_x_var false a0 a1).
Proof. intros. unfold j_eq_x_var. tots. Qed.
#[global] Hint Resolve j_eq_x_var_tot : tots.
Lemma j_neg_tot : forall (a0 : jac), tot (j_neg false a0).
Proof. intros. unfold j_neg. tots. Qed.
#[global] Hint Resolve j_neg_tot : tots.
Lemma j_has_quad_y_var_tot : forall (a0 : jac), tot (j_has_quad_y_var false a0).
Proof. intros. unfold j_has_quad_y_var. tots. Qed.
#[global] Hint Resolve j_has_quad_y_var_tot : tots.
Lemma j_double_var_in_place_tot : forall (a0 : jac) (a1 : jac) (a2 : option field), tot (j_double_var_in_place false a0 a1 a2).
Proof. intros. unfold j_double_var_in_place. tots. Qed.
#[global] Hint Resolve j_double_var_in_place_tot : tots.
Lemma j_double_var_tot : forall (a0 : jac) (a1 : option field), tot (j_double_var false a0 a1).
Proof. intros. unfold j_double_var. tots. Qed.
#[global] Hint Resolve j_double_var_tot : tots.
Lemma j_double_tot : forall (a0 : jac), tot (j_double false a0).
Proof. intros. unfold j_double. tots. Qed.
#[global] Hint Resolve j_double_tot : tots.
Lemma j_double_nonzero_in_place_tot : forall (a0 : jac) (a1 : jac), tot (j_double_nonzero_in_place false a0 a1).
Proof. intros. unfold j_double_nonzero_in_place. tots. Qed.
#[global] Hint Resolve j_double_nonzero_in_place_tot : tots.
Lemma j_add_tail_tot : forall (a0 : field) (a1 : field) (a2 : field) (a3 : field) (a4 : field) (a5 : field) (a6 : field), tot (j_add_tail false a0 a1 a2 a3 a4 a5 a6).
Proof. intros. unfold j_add_tail. tots. Qed.
#[global] Hint Resolve j_add_tail_tot : tots.
Lemma j_add_same_x_tot : forall (a0 : jac) (a1 : field) (a2 : option field), tot (j_add_same_x false a0 a1 a2).
Proof. intros. unfold j_add_same_x. tots. Qed.
#[global] Hint Resolve j_add_same_x_tot : tots.
Lemma j_add_var_tot : forall (a0 : jac) (a1 : jac) (a2 : option field), tot (j_add_var false a0 a1 a2).
Proof. intros. unfold j_add_var. tots. Qed.
#[global] Hint Resolve j_add_var_tot : tots.
Lemma j_add_tot : forall (a0 : jac) (a1 : jac), tot (j_add false a0 a1).
Proof. intros. unfold j_add. tots. Qed.
#[global] Hint Resolve j_add_tot : tots.
Lemma j_add_ge_tot : forall (a0 : jac) (a1 : affine), tot (j_add_ge false a0 a1).
Proof. intros. unfold j_add_ge. tots. Qed.
#[global] Hint Resolve j_add_ge_tot : tots.
Lemma j_add_ge_var_tot : forall (a0 : jac) (a1 : affine) (a2 : option field), tot (j_add_ge_var false a0 a1 a2).
Proof. intros. unfold j_add_ge_var. tots. Qed.
#[global] Hint Resolve j_add_ge_var_tot : tots.
Lemma j_add_ge_v_tot : forall (a0 : jac) (a1 : affine), tot (j_add_ge_v false a0 a1).
Proof. intros. unfold j_add_ge_v. tots. Qed.
#[global] Hint Resolve j_add_ge_v_tot : tots.
Lemma j_add_zinv_var_tot : forall (a0 : jac) (a1 : affine) (a2 : field), tot (j_add_zinv_var false a0 a1 a2).
Proof. intros. unfold j_add_zinv_var. tots. Qed.
#[global] Hint Resolve j_add_zinv_var_tot : tots.
Lemma j_rescale_tot : forall (a0 : jac) (a1 : field), tot (j_rescale false a0 a1).
Proof. intros. unfold j_rescale. tots. Qed.
#[global] Hint Resolve j_rescale_tot : tots.
Lemma af_to_storage_tot : forall (a0 : affine), tot (af_to_storage false a0).
Proof. intros. unfold af_to_storage. tots. Qed.
#[global] Hint Resolve af_to_storage_tot : tots.
Lemma odd_mult_loop_tot : forall (a0 : nat) (a1 : jac) (a2 : affine), tot (odd_mult_loop false a0 a1 a2).
Proof. induction a0 as [|? ? IH] || induction a0 as [|? IH]; intros; cbn [odd_mult_loop]; tots. Qed.
#[global] Hint Resolve odd_mult_loop_tot : tots.
Lemma run_products_tot : forall (a1 : list field) (a0 : field) (a2 : list field), tot (run_products false a0 a1 a2).
Proof. induction a1 as [|? ? IH] || induction a1 as [|? IH]; intros; cbn [run_products]; tots. Qed.
#[global] Hint Resolve run_products_tot : tots.
Lemma gen_row_tot : forall (a0 : nat) (a1 : jac) (a2 : jac), tot (gen_row false a0 a1 a2).
Proof. induction a0 as [|? ? IH] || induction a0 as [|? IH]; intros; cbn [gen_row]; tots. Qed.
#[global] Hint Resolve gen_row_tot : tots.
Lemma gen_rows_tot : forall (a0 : nat) (a1 : Z) (a2 : jac) (a3 : jac) (a4 : jac), tot (gen_rows false a0 a1 a2 a3 a4).
Proof. induction a0 as [|? ? IH] || induction a0 as [|? IH]; intros; cbn [gen_rows]; tots. Qed.
#[global] Hint Resolve gen_rows_tot : tots.
Lemma digit_asserts_tot : forall (a0 : Z) (a1 : Z), tot (digit_asserts false a0 a1).
Proof. intros. unfold digit_asserts. tots. Qed.
#[global] Hint Resolve digit_asserts_tot : tots.
Lemma double_nonzero_n_tot : forall (a0 : nat) (a1 : jac), tot (double_nonzero_n false a0 a1).
Proof. induction a0 as [|? ? IH] || induction a0 as [|? IH]; intros; cbn [double_nonzero_n]; tots. Qed.
#[global] Hint Resolve double_nonzero_n_tot : tots.
