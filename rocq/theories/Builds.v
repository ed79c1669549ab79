(** The four build configurations: [debug-assertions] and [overflow-checks] can be set independently in a Cargo profile.
    One pair of lemmas per function: [f_x (b, b)] is the function [f b] of the one-flag model, and switching
    checks off keeps every normal return. *)
From Verif Require Import Word MField MScalar MGroup MEcmult MEcdsa MDer MApi Mono XField XScalar XGroup XEcmult XEcdsa XDer XApi.

(** * The corners: both flags equal *)
Lemma eq_bind {A B} (x y : option A) (f g : A -> option B) : x = y -> (forall a, f a = g a) -> bind x f = bind y g.
Proof. intros -> K. destruct y; [apply K | reflexivity]. Qed.
Lemma eq_rbind {A B} (x y : option (result A)) (f g : A -> option (result B)) : x = y -> (forall a, f a = g a) -> rbind x f = rbind y g.
Proof. intros -> K. destruct y as [[]|]; [apply K | reflexivity | reflexivity]. Qed.
Lemma eq_mapo {A B} (f g : A -> option B) l : (forall a, f a = g a) -> mapo f l = mapo g l.
Proof. intros H. induction l as [|a l IH]; cbn [mapo]; [reflexivity|]. apply eq_bind; [apply H|]. intros b. apply eq_bind; [exact IH | reflexivity]. Qed.
Create HintDb corner discriminated.
#[global] Hint Constants Opaque : corner.
#[global] Hint Variables Opaque : corner.
#[global] Hint Transparent pubkey seckey message recid decoder acc : corner.
Ltac corner1 :=
  lazymatch goal with
  | |- ?x = ?x => reflexivity
  | |- bind _ _ = bind _ _ => apply eq_bind; [|intros ?]
  | |- rbind _ _ = rbind _ _ => apply eq_rbind; [|intros ?]
  | |- mapo _ _ = mapo _ _ => apply eq_mapo; intros ?
  | |- match ?e with _ => _ end = match ?e with _ => _ end => destruct e
  | IH : forall _, _ |- _ => first [apply IH | solve [auto with corner nocore]]
  | |- _ => solve [auto with corner nocore]
  end.
Ltac corner := cbv beta iota delta [fst snd]; repeat corner1.

Lemma f_normalize_corner : forall b (a0 : field), f_normalize_x (b, b) a0 = f_normalize b a0.
Proof. intros. unfold f_normalize_x, f_normalize. corner. Qed.
#[global] Hint Resolve f_normalize_corner : corner.
Lemma f_normalize_weak_corner : forall b (a0 : field), f_normalize_weak_x (b, b) a0 = f_normalize_weak b a0.
Proof. intros. unfold f_normalize_weak_x, f_normalize_weak. corner. Qed.
#[global] Hint Resolve f_normalize_weak_corner : corner.
Lemma f_normalize_var_corner : forall b (a0 : field), f_normalize_var_x (b, b) a0 = f_normalize_var b a0.
Proof. intros. unfold f_normalize_var_x, f_normalize_var. corner. Qed.
#[global] Hint Resolve f_normalize_var_corner : corner.
Lemma f_normalizes_to_zero_corner : forall b (a0 : field), f_normalizes_to_zero_x (b, b) a0 = f_normalizes_to_zero b a0.
Proof. intros. unfold f_normalizes_to_zero_x, f_normalizes_to_zero. corner. Qed.
#[global] Hint Resolve f_normalizes_to_zero_corner : corner.
Lemma f_normalizes_to_zero_var_corner : forall b (a0 : field), f_normalizes_to_zero_var_x (b, b) a0 = f_normalizes_to_zero_var b a0.
Proof. intros. unfold f_normalizes_to_zero_var_x, f_normalizes_to_zero_var. corner. Qed.
#[global] Hint Resolve f_normalizes_to_zero_var_corner : corner.
Lemma f_set_int_corner : forall b (a0 : Z), f_set_int_x (b, b) a0 = f_set_int b a0.
Proof. intros. unfold f_set_int_x, f_set_int. corner. Qed.
#[global] Hint Resolve f_set_int_corner : corner.
Lemma f_is_zero_corner : forall b (a0 : field), f_is_zero_x (b, b) a0 = f_is_zero b a0.
Proof. intros. unfold f_is_zero_x, f_is_zero. corner. Qed.
#[global] Hint Resolve f_is_zero_corner : corner.
Lemma f_is_odd_corner : forall b (a0 : field), f_is_odd_x (b, b) a0 = f_is_odd b a0.
Proof. intros. unfold f_is_odd_x, f_is_odd. corner. Qed.
#[global] Hint Resolve f_is_odd_corner : corner.
Lemma f_set_b32_corner : forall b (a0 : field) (a1 : list Z), f_set_b32_x (b, b) a0 a1 = f_set_b32 b a0 a1.
Proof. intros. unfold f_set_b32_x, f_set_b32. corner. Qed.
#[global] Hint Resolve f_set_b32_corner : corner.
Lemma f_b32_corner : forall b (a0 : field), f_b32_x (b, b) a0 = f_b32 b a0.
Proof. intros. unfold f_b32_x, f_b32. corner. Qed.
#[global] Hint Resolve f_b32_corner : corner.
Lemma f_neg_limb_corner : forall b (a0 : Z) (a1 : Z) (a2 : Z), f_neg_limb_x (b, b) a0 a1 a2 = f_neg_limb b a0 a1 a2.
Proof. intros. unfold f_neg_limb_x, f_neg_limb. corner. Qed.
#[global] Hint Resolve f_neg_limb_corner : corner.
Lemma f_neg_corner : forall b (a0 : field) (a1 : Z), f_neg_x (b, b) a0 a1 = f_neg b a0 a1.
Proof. intros. unfold f_neg_x, f_neg. corner. Qed.
#[global] Hint Resolve f_neg_corner : corner.
Lemma f_mul_int_corner : forall b (a0 : field) (a1 : Z), f_mul_int_x (b, b) a0 a1 = f_mul_int b a0 a1.
Proof. intros. unfold f_mul_int_x, f_mul_int. corner. Qed.
#[global] Hint Resolve f_mul_int_corner : corner.
Lemma f_add_corner : forall b (a0 : field) (a1 : field), f_add_x (b, b) a0 a1 = f_add b a0 a1.
Proof. intros. unfold f_add_x, f_add. corner. Qed.
#[global] Hint Resolve f_add_corner : corner.
Lemma f_cmp_var_corner : forall b (a0 : field) (a1 : field), f_cmp_var_x (b, b) a0 a1 = f_cmp_var b a0 a1.
Proof. intros. unfold f_cmp_var_x, f_cmp_var. corner. Qed.
#[global] Hint Resolve f_cmp_var_corner : corner.
Lemma f_ge_corner : forall b (a0 : field) (a1 : field), f_ge_x (b, b) a0 a1 = f_ge b a0 a1.
Proof. intros. unfold f_ge_x, f_ge. corner. Qed.
#[global] Hint Resolve f_ge_corner : corner.
Lemma f_eq_var_corner : forall b (a0 : field) (a1 : field), f_eq_var_x (b, b) a0 a1 = f_eq_var b a0 a1.
Proof. intros. unfold f_eq_var_x, f_eq_var. corner. Qed.
#[global] Hint Resolve f_eq_var_corner : corner.
Lemma f_eq_corner : forall b (a0 : field) (a1 : field), f_eq_x (b, b) a0 a1 = f_eq b a0 a1.
Proof. intros. unfold f_eq_x, f_eq. corner. Qed.
#[global] Hint Resolve f_eq_corner : corner.
Lemma f_mul_inner_corner : forall b (a0 : field) (a1 : field), f_mul_inner_x (b, b) a0 a1 = f_mul_inner b a0 a1.
Proof. intros. unfold f_mul_inner_x, f_mul_inner. corner. Qed.
#[global] Hint Resolve f_mul_inner_corner : corner.
Lemma f_sqr_inner_corner : forall b (a0 : field), f_sqr_inner_x (b, b) a0 = f_sqr_inner b a0.
Proof. intros. unfold f_sqr_inner_x, f_sqr_inner. corner. Qed.
#[global] Hint Resolve f_sqr_inner_corner : corner.
Lemma f_mul_corner : forall b (a0 : field) (a1 : field), f_mul_x (b, b) a0 a1 = f_mul b a0 a1.
Proof. intros. unfold f_mul_x, f_mul. corner. Qed.
#[global] Hint Resolve f_mul_corner : corner.
Lemma f_sqr_corner : forall b (a0 : field), f_sqr_x (b, b) a0 = f_sqr b a0.
Proof. intros. unfold f_sqr_x, f_sqr. corner. Qed.
#[global] Hint Resolve f_sqr_corner : corner.
Lemma f_sqr_n_corner : forall b (a0 : nat) (a1 : field), f_sqr_n_x (b, b) a0 a1 = f_sqr_n b a0 a1.
Proof. intros b. induction a0 as [|? ? IH] || induction a0 as [|? IH]; intros; cbn [f_sqr_n_x f_sqr_n]; corner. Qed.
#[global] Hint Resolve f_sqr_n_corner : corner.
Lemma f_chain223_corner : forall b (a0 : field), f_chain223_x (b, b) a0 = f_chain223 b a0.
Proof. intros. unfold f_chain223_x, f_chain223. corner. Qed.
#[global] Hint Resolve f_chain223_corner : corner.
Lemma f_sqrt_corner : forall b (a0 : field), f_sqrt_x (b, b) a0 = f_sqrt b a0.
Proof. intros. unfold f_sqrt_x, f_sqrt. corner. Qed.
#[global] Hint Resolve f_sqrt_corner : corner.
Lemma f_inv_corner : forall b (a0 : field), f_inv_x (b, b) a0 = f_inv b a0.
Proof. intros. unfold f_inv_x, f_inv. corner. Qed.
#[global] Hint Resolve f_inv_corner : corner.
Lemma f_is_quad_var_corner : forall b (a0 : field), f_is_quad_var_x (b, b) a0 = f_is_quad_var b a0.
Proof. intros. unfold f_is_quad_var_x, f_is_quad_var. corner. Qed.
#[global] Hint Resolve f_is_quad_var_corner : corner.
Lemma f_to_storage_corner : forall b (a0 : field), f_to_storage_x (b, b) a0 = f_to_storage b a0.
Proof. intros. unfold f_to_storage_x, f_to_storage. corner. Qed.
#[global] Hint Resolve f_to_storage_corner : corner.
Lemma s_bits_corner : forall b (a0 : scalar) (a1 : Z) (a2 : Z), s_bits_x (b, b) a0 a1 a2 = s_bits b a0 a1 a2.
Proof. intros. unfold s_bits_x, s_bits. corner. Qed.
#[global] Hint Resolve s_bits_corner : corner.
Lemma s_bits_var_corner : forall b (a0 : scalar) (a1 : Z) (a2 : Z), s_bits_var_x (b, b) a0 a1 a2 = s_bits_var b a0 a1 a2.
Proof. intros. unfold s_bits_var_x, s_bits_var. corner. Qed.
#[global] Hint Resolve s_bits_var_corner : corner.
Lemma s_reduce_corner : forall b (a0 : scalar) (a1 : Z), s_reduce_x (b, b) a0 a1 = s_reduce b a0 a1.
Proof. intros. unfold s_reduce_x, s_reduce. corner. Qed.
#[global] Hint Resolve s_reduce_corner : corner.
Lemma cadd_step_corner : forall b (a0 : Z) (a1 : Z) (a2 : Z) (a3 : Z), cadd_step_x (b, b) a0 a1 a2 a3 = cadd_step b a0 a1 a2 a3.
Proof. intros. unfold cadd_step_x, cadd_step. corner. Qed.
#[global] Hint Resolve cadd_step_corner : corner.
Lemma s_cadd_bit_corner : forall b (a0 : scalar) (a1 : Z) (a2 : bool), s_cadd_bit_x (b, b) a0 a1 a2 = s_cadd_bit b a0 a1 a2.
Proof. intros. unfold s_cadd_bit_x, s_cadd_bit. corner. Qed.
#[global] Hint Resolve s_cadd_bit_corner : corner.
Lemma s_set_b32_corner : forall b (a0 : list Z), s_set_b32_x (b, b) a0 = s_set_b32 b a0.
Proof. intros. unfold s_set_b32_x, s_set_b32. corner. Qed.
#[global] Hint Resolve s_set_b32_corner : corner.
Lemma cneg_step_corner : forall b (a0 : Z) (a1 : Z) (a2 : Z) (a3 : Z) (a4 : Z), cneg_step_x (b, b) a0 a1 a2 a3 a4 = cneg_step b a0 a1 a2 a3 a4.
Proof. intros. unfold cneg_step_x, cneg_step. corner. Qed.
#[global] Hint Resolve cneg_step_corner : corner.
Lemma s_cond_neg_corner : forall b (a0 : scalar) (a1 : bool), s_cond_neg_x (b, b) a0 a1 = s_cond_neg b a0 a1.
Proof. intros. unfold s_cond_neg_x, s_cond_neg. corner. Qed.
#[global] Hint Resolve s_cond_neg_corner : corner.
Lemma s_neg_corner : forall b (a0 : scalar), s_neg_x (b, b) a0 = s_neg b a0.
Proof. intros. unfold s_neg_x, s_neg. corner. Qed.
#[global] Hint Resolve s_neg_corner : corner.
Lemma a_muladd_corner : forall b (a0 : Z) (a1 : Z) (a2 : acc), a_muladd_x (b, b) a0 a1 a2 = a_muladd b a0 a1 a2.
Proof. intros. unfold a_muladd_x, a_muladd. corner. Qed.
#[global] Hint Resolve a_muladd_corner : corner.
Lemma a_muladd_fast_corner : forall b (a0 : Z) (a1 : Z) (a2 : acc), a_muladd_fast_x (b, b) a0 a1 a2 = a_muladd_fast b a0 a1 a2.
Proof. intros. unfold a_muladd_fast_x, a_muladd_fast. corner. Qed.
#[global] Hint Resolve a_muladd_fast_corner : corner.
Lemma a_muladd2_corner : forall b (a0 : Z) (a1 : Z) (a2 : acc), a_muladd2_x (b, b) a0 a1 a2 = a_muladd2 b a0 a1 a2.
Proof. intros. unfold a_muladd2_x, a_muladd2. corner. Qed.
#[global] Hint Resolve a_muladd2_corner : corner.
Lemma a_sumadd_fast_corner : forall b (a0 : Z) (a1 : acc), a_sumadd_fast_x (b, b) a0 a1 = a_sumadd_fast b a0 a1.
Proof. intros. unfold a_sumadd_fast_x, a_sumadd_fast. corner. Qed.
#[global] Hint Resolve a_sumadd_fast_corner : corner.
Lemma a_extract_fast_corner : forall b (a0 : acc), a_extract_fast_x (b, b) a0 = a_extract_fast b a0.
Proof. intros. unfold a_extract_fast_x, a_extract_fast. corner. Qed.
#[global] Hint Resolve a_extract_fast_corner : corner.
Lemma s_red_a_corner : forall b (a0 : list Z), s_red_a_x (b, b) a0 = s_red_a b a0.
Proof. intros. unfold s_red_a_x, s_red_a. corner. Qed.
#[global] Hint Resolve s_red_a_corner : corner.
Lemma s_red_b_corner : forall b (a0 : list Z), s_red_b_x (b, b) a0 = s_red_b b a0.
Proof. intros. unfold s_red_b_x, s_red_b. corner. Qed.
#[global] Hint Resolve s_red_b_corner : corner.
Lemma s_red_c_corner : forall b (a0 : list Z), s_red_c_x (b, b) a0 = s_red_c b a0.
Proof. intros. unfold s_red_c_x, s_red_c. corner. Qed.
#[global] Hint Resolve s_red_c_corner : corner.
Lemma s_reduce_512_corner : forall b (a0 : list Z), s_reduce_512_x (b, b) a0 = s_reduce_512 b a0.
Proof. intros. unfold s_reduce_512_x, s_reduce_512. corner. Qed.
#[global] Hint Resolve s_reduce_512_corner : corner.
Lemma s_mul_512_corner : forall b (a0 : scalar) (a1 : scalar), s_mul_512_x (b, b) a0 a1 = s_mul_512 b a0 a1.
Proof. intros. unfold s_mul_512_x, s_mul_512. corner. Qed.
#[global] Hint Resolve s_mul_512_corner : corner.
Lemma s_sqr_512_corner : forall b (a0 : scalar), s_sqr_512_x (b, b) a0 = s_sqr_512 b a0.
Proof. intros. unfold s_sqr_512_x, s_sqr_512. corner. Qed.
#[global] Hint Resolve s_sqr_512_corner : corner.
Lemma s_mul_corner : forall b (a0 : scalar) (a1 : scalar), s_mul_x (b, b) a0 a1 = s_mul b a0 a1.
Proof. intros. unfold s_mul_x, s_mul. corner. Qed.
#[global] Hint Resolve s_mul_corner : corner.
Lemma s_sqr_corner : forall b (a0 : scalar), s_sqr_x (b, b) a0 = s_sqr b a0.
Proof. intros. unfold s_sqr_x, s_sqr. corner. Qed.
#[global] Hint Resolve s_sqr_corner : corner.
Lemma s_sqr_n_corner : forall b (a0 : nat) (a1 : scalar), s_sqr_n_x (b, b) a0 a1 = s_sqr_n b a0 a1.
Proof. intros b. induction a0 as [|? ? IH] || induction a0 as [|? IH]; intros; cbn [s_sqr_n_x s_sqr_n]; corner. Qed.
#[global] Hint Resolve s_sqr_n_corner : corner.
Lemma shr_step_corner : forall b (a0 : Z) (a1 : Z) (a2 : Z), shr_step_x (b, b) a0 a1 a2 = shr_step b a0 a1 a2.
Proof. intros. unfold shr_step_x, shr_step. corner. Qed.
#[global] Hint Resolve shr_step_corner : corner.
Lemma s_shr_int_corner : forall b (a0 : scalar) (a1 : Z), s_shr_int_x (b, b) a0 a1 = s_shr_int b a0 a1.
Proof. intros. unfold s_shr_int_x, s_shr_int. corner. Qed.
#[global] Hint Resolve s_shr_int_corner : corner.
Lemma s_inv_corner : forall b (a0 : scalar), s_inv_x (b, b) a0 = s_inv b a0.
Proof. intros. unfold s_inv_x, s_inv. corner. Qed.
#[global] Hint Resolve s_inv_corner : corner.
Lemma sadd_step_corner : forall b (a0 : Z) (a1 : Z) (a2 : Z), sadd_step_x (b, b) a0 a1 a2 = sadd_step b a0 a1 a2.
Proof. intros. unfold sadd_step_x, sadd_step. corner. Qed.
#[global] Hint Resolve sadd_step_corner : corner.
Lemma s_add_corner : forall b (a0 : scalar) (a1 : scalar), s_add_x (b, b) a0 a1 = s_add b a0 a1.
Proof. intros. unfold s_add_x, s_add. corner. Qed.
#[global] Hint Resolve s_add_corner : corner.
Lemma af_set_xquad_corner : forall b (a0 : field), af_set_xquad_x (b, b) a0 = af_set_xquad b a0.
Proof. intros. unfold af_set_xquad_x, af_set_xquad. corner. Qed.
#[global] Hint Resolve af_set_xquad_corner : corner.
Lemma af_set_xo_var_corner : forall b (a0 : field) (a1 : bool), af_set_xo_var_x (b, b) a0 a1 = af_set_xo_var b a0 a1.
Proof. intros. unfold af_set_xo_var_x, af_set_xo_var. corner. Qed.
#[global] Hint Resolve af_set_xo_var_corner : corner.
Lemma af_is_valid_var_corner : forall b (a0 : affine), af_is_valid_var_x (b, b) a0 = af_is_valid_var b a0.
Proof. intros. unfold af_is_valid_var_x, af_is_valid_var. corner. Qed.
#[global] Hint Resolve af_is_valid_var_corner : corner.
Lemma af_neg_corner : forall b (a0 : affine), af_neg_x (b, b) a0 = af_neg b a0.
Proof. intros. unfold af_neg_x, af_neg. corner. Qed.
#[global] Hint Resolve af_neg_corner : corner.
Lemma af_eq_corner : forall b (a0 : affine) (a1 : affine), af_eq_x (b, b) a0 a1 = af_eq b a0 a1.
Proof. intros. unfold af_eq_x, af_eq. corner. Qed.
#[global] Hint Resolve af_eq_corner : corner.
Lemma af_set_gej_corner : forall b (a0 : jac), af_set_gej_x (b, b) a0 = af_set_gej b a0.
Proof. intros. unfold af_set_gej_x, af_set_gej. corner. Qed.
#[global] Hint Resolve af_set_gej_corner : corner.
Lemma af_set_gej_var_corner : forall b (a0 : affine) (a1 : jac), af_set_gej_var_x (b, b) a0 a1 = af_set_gej_var b a0 a1.
Proof. intros. unfold af_set_gej_var_x, af_set_gej_var. corner. Qed.
#[global] Hint Resolve af_set_gej_var_corner : corner.
Lemma af_set_gej_zinv_corner : forall b (a0 : jac) (a1 : field), af_set_gej_zinv_x (b, b) a0 a1 = af_set_gej_zinv b a0 a1.
Proof. intros. unfold af_set_gej_zinv_x, af_set_gej_zinv. corner. Qed.
#[global] Hint Resolve af_set_gej_zinv_corner : corner.
Lemma set_table_loop_corner : forall b (a0 : list jac) (a1 : list field) (a2 : field) (a3 : list affine), set_table_loop_x (b, b) a0 a1 a2 a3 = set_table_loop b a0 a1 a2 a3.
Proof. intros b. induction a0 as [|? ? IH] || induction a0 as [|? IH]; intros; cbn [set_table_loop_x set_table_loop]; corner. Qed.
#[global] Hint Resolve set_table_loop_corner : corner.
Lemma set_table_gej_var_corner : forall b (a0 : list jac) (a1 : list field), set_table_gej_var_x (b, b) a0 a1 = set_table_gej_var b a0 a1.
Proof. intros. unfold set_table_gej_var_x, set_table_gej_var. corner. Qed.
#[global] Hint Resolve set_table_gej_var_corner : corner.
Lemma globalz_set_table_gej_corner : forall b (a0 : list jac) (a1 : list field), globalz_set_table_gej_x (b, b) a0 a1 = globalz_set_table_gej b a0 a1.
Proof. intros. unfold globalz_set_table_gej_x, globalz_set_table_gej. corner. Qed.
#[global] Hint Resolve globalz_set_table_gej_corner : corner.
Lemma j_set_ge_corner : forall b (a0 : affine), j_set_ge_x (b, b) a0 = j_set_ge b a0.
Proof. intros. unfold j_set_ge_x, j_set_ge. corner. Qed.
#[global] Hint Resolve j_set_ge_corner : corner.
Lemma j_eq_x_var_corner : forall b (a0 : jac) (a1 : field), j_eq_x_var_x (b, b) a0 a1 = j_eq_x_var b a0 a1.
Proof. intros. unfold j_eq_x_var_x, j_eq_x_var. corner. Qed.
#[global] Hint Resolve j_eq_x_var_corner : corner.
Lemma j_neg_corner : forall b (a0 : jac), j_neg_x (b, b) a0 = j_neg b a0.
Proof. intros. unfold j_neg_x, j_neg. corner. Qed.
#[global] Hint Resolve j_neg_corner : corner.
Lemma j_has_quad_y_var_corner : forall b (a0 : jac), j_has_quad_y_var_x (b, b) a0 = j_has_quad_y_var b a0.
Proof. intros. unfold j_has_quad_y_var_x, j_has_quad_y_var. corner. Qed.
#[global] Hint Resolve j_has_quad_y_var_corner : corner.
Lemma j_double_var_in_place_corner : forall b (a0 : jac) (a1 : jac) (a2 : option field), j_double_var_in_place_x (b, b) a0 a1 a2 = j_double_var_in_place b a0 a1 a2.
Proof. intros. unfold j_double_var_in_place_x, j_double_var_in_place. corner. Qed.
#[global] Hint Resolve j_double_var_in_place_corner : corner.
Lemma j_double_var_corner : forall b (a0 : jac) (a1 : option field), j_double_var_x (b, b) a0 a1 = j_double_var b a0 a1.
Proof. intros. unfold j_double_var_x, j_double_var. corner. Qed.
#[global] Hint Resolve j_double_var_corner : corner.
Lemma j_double_corner : forall b (a0 : jac), j_double_x (b, b) a0 = j_double b a0.
Proof. intros. unfold j_double_x, j_double. corner. Qed.
#[global] Hint Resolve j_double_corner : corner.
Lemma j_double_nonzero_in_place_corner : forall b (a0 : jac) (a1 : jac), j_double_nonzero_in_place_x (b, b) a0 a1 = j_double_nonzero_in_place b a0 a1.
Proof. intros. unfold j_double_nonzero_in_place_x, j_double_nonzero_in_place. corner. Qed.
#[global] Hint Resolve j_double_nonzero_in_place_corner : corner.
Lemma j_add_tail_corner : forall b (a0 : field) (a1 : field) (a2 : field) (a3 : field) (a4 : field) (a5 : field) (a6 : field), j_add_tail_x (b, b) a0 a1 a2 a3 a4 a5 a6 = j_add_tail b a0 a1 a2 a3 a4 a5 a6.
Proof. intros. unfold j_add_tail_x, j_add_tail. corner. Qed.
#[global] Hint Resolve j_add_tail_corner : corner.
Lemma j_add_same_x_corner : forall b (a0 : jac) (a1 : field) (a2 : option field), j_add_same_x_x (b, b) a0 a1 a2 = j_add_same_x b a0 a1 a2.
Proof. intros. unfold j_add_same_x_x, j_add_same_x. corner. Qed.
#[global] Hint Resolve j_add_same_x_corner : corner.
Lemma j_add_var_corner : forall b (a0 : jac) (a1 : jac) (a2 : option field), j_add_var_x (b, b) a0 a1 a2 = j_add_var b a0 a1 a2.
Proof. intros. unfold j_add_var_x, j_add_var. corner. Qed.
#[global] Hint Resolve j_add_var_corner : corner.
Lemma j_add_corner : forall b (a0 : jac) (a1 : jac), j_add_x (b, b) a0 a1 = j_add b a0 a1.
Proof. intros. unfold j_add_x, j_add. corner. Qed.
#[global] Hint Resolve j_add_corner : corner.
Lemma j_add_ge_corner : forall b (a0 : jac) (a1 : affine), j_add_ge_x (b, b) a0 a1 = j_add_ge b a0 a1.
Proof. intros. unfold j_add_ge_x, j_add_ge. corner. Qed.
#[global] Hint Resolve j_add_ge_corner : corner.
Lemma j_add_ge_var_corner : forall b (a0 : jac) (a1 : affine) (a2 : option field), j_add_ge_var_x (b, b) a0 a1 a2 = j_add_ge_var b a0 a1 a2.
Proof. intros. unfold j_add_ge_var_x, j_add_ge_var. corner. Qed.
#[global] Hint Resolve j_add_ge_var_corner : corner.
Lemma j_add_ge_v_corner : forall b (a0 : jac) (a1 : affine), j_add_ge_v_x (b, b) a0 a1 = j_add_ge_v b a0 a1.
Proof. intros. unfold j_add_ge_v_x, j_add_ge_v. corner. Qed.
#[global] Hint Resolve j_add_ge_v_corner : corner.
Lemma j_add_zinv_var_corner : forall b (a0 : jac) (a1 : affine) (a2 : field), j_add_zinv_var_x (b, b) a0 a1 a2 = j_add_zinv_var b a0 a1 a2.
Proof. intros. unfold j_add_zinv_var_x, j_add_zinv_var. corner. Qed.
#[global] Hint Resolve j_add_zinv_var_corner : corner.
Lemma j_rescale_corner : forall b (a0 : jac) (a1 : field), j_rescale_x (b, b) a0 a1 = j_rescale b a0 a1.
Proof. intros. unfold j_rescale_x, j_rescale. corner. Qed.
#[global] Hint Resolve j_rescale_corner : corner.
Lemma af_to_storage_corner : forall b (a0 : affine), af_to_storage_x (b, b) a0 = af_to_storage b a0.
Proof. intros. unfold af_to_storage_x, af_to_storage. corner. Qed.
#[global] Hint Resolve af_to_storage_corner : corner.
Lemma odd_mult_loop_corner : forall b (a0 : nat) (a1 : jac) (a2 : affine), odd_mult_loop_x (b, b) a0 a1 a2 = odd_mult_loop b a0 a1 a2.
Proof. intros b. induction a0 as [|? ? IH] || induction a0 as [|? IH]; intros; cbn [odd_mult_loop_x odd_mult_loop]; corner. Qed.
#[global] Hint Resolve odd_mult_loop_corner : corner.
Lemma scale_last_corner : forall b (a0 : list jac) (a1 : field), scale_last_x (b, b) a0 a1 = scale_last b a0 a1.
Proof. intros b. induction a0 as [|? ? IH] || induction a0 as [|? IH]; intros; cbn [scale_last_x scale_last]; corner. Qed.
#[global] Hint Resolve scale_last_corner : corner.
Lemma odd_multiples_table_corner : forall b (a0 : nat) (a1 : jac), odd_multiples_table_x (b, b) a0 a1 = odd_multiples_table b a0 a1.
Proof. intros. unfold odd_multiples_table_x, odd_multiples_table. corner. Qed.
#[global] Hint Resolve odd_multiples_table_corner : corner.
Lemma odd_multiples_table_globalz_windowa_corner : forall b (a0 : jac), odd_multiples_table_globalz_windowa_x (b, b) a0 = odd_multiples_table_globalz_windowa b a0.
Proof. intros. unfold odd_multiples_table_globalz_windowa_x, odd_multiples_table_globalz_windowa. corner. Qed.
#[global] Hint Resolve odd_multiples_table_globalz_windowa_corner : corner.
Lemma odd_multiples_table_storage_var_corner : forall b (a0 : nat) (a1 : jac), odd_multiples_table_storage_var_x (b, b) a0 a1 = odd_multiples_table_storage_var b a0 a1.
Proof. intros. unfold odd_multiples_table_storage_var_x, odd_multiples_table_storage_var. corner. Qed.
#[global] Hint Resolve odd_multiples_table_storage_var_corner : corner.
Lemma ecmult_context_new_corner : forall b, ecmult_context_new_x (b, b)  = ecmult_context_new b .
Proof. intros. unfold ecmult_context_new_x, ecmult_context_new. corner. Qed.
#[global] Hint Resolve ecmult_context_new_corner : corner.
Lemma run_products_corner : forall b (a1 : list field) (a0 : field) (a2 : list field), run_products_x (b, b) a0 a1 a2 = run_products b a0 a1 a2.
Proof. intros b. induction a1 as [|? ? IH] || induction a1 as [|? IH]; intros; cbn [run_products_x run_products]; corner. Qed.
#[global] Hint Resolve run_products_corner : corner.
Lemma inv_down_corner : forall b (a0 : list field) (a1 : list field) (a2 : field) (a3 : list field), inv_down_x (b, b) a0 a1 a2 a3 = inv_down b a0 a1 a2 a3.
Proof. intros b. induction a0 as [|? ? IH] || induction a0 as [|? IH]; intros; cbn [inv_down_x inv_down]; corner. Qed.
#[global] Hint Resolve inv_down_corner : corner.
Lemma inv_all_var_corner : forall b (a0 : list field), inv_all_var_x (b, b) a0 = inv_all_var b a0.
Proof. intros. unfold inv_all_var_x, inv_all_var. corner. Qed.
#[global] Hint Resolve inv_all_var_corner : corner.
Lemma set_all_loop_corner : forall b (a0 : list jac) (a1 : list field), set_all_loop_x (b, b) a0 a1 = set_all_loop b a0 a1.
Proof. intros b. induction a0 as [|? ? IH] || induction a0 as [|? IH]; intros; cbn [set_all_loop_x set_all_loop]; corner. Qed.
#[global] Hint Resolve set_all_loop_corner : corner.
Lemma set_all_gej_var_corner : forall b (a0 : list jac), set_all_gej_var_x (b, b) a0 = set_all_gej_var b a0.
Proof. intros. unfold set_all_gej_var_x, set_all_gej_var. corner. Qed.
#[global] Hint Resolve set_all_gej_var_corner : corner.
Lemma gen_row_corner : forall b (a0 : nat) (a1 : jac) (a2 : jac), gen_row_x (b, b) a0 a1 a2 = gen_row b a0 a1 a2.
Proof. intros b. induction a0 as [|? ? IH] || induction a0 as [|? IH]; intros; cbn [gen_row_x gen_row]; corner. Qed.
#[global] Hint Resolve gen_row_corner : corner.
Lemma gen_rows_corner : forall b (a0 : nat) (a1 : Z) (a2 : jac) (a3 : jac) (a4 : jac), gen_rows_x (b, b) a0 a1 a2 a3 a4 = gen_rows b a0 a1 a2 a3 a4.
Proof. intros b. induction a0 as [|? ? IH] || induction a0 as [|? IH]; intros; cbn [gen_rows_x gen_rows]; corner. Qed.
#[global] Hint Resolve gen_rows_corner : corner.
Lemma ecmult_gen_context_new_corner : forall b, ecmult_gen_context_new_x (b, b)  = ecmult_gen_context_new b .
Proof. intros. unfold ecmult_gen_context_new_x, ecmult_gen_context_new. corner. Qed.
#[global] Hint Resolve ecmult_gen_context_new_corner : corner.
Lemma digit_asserts_corner : forall b (a0 : Z) (a1 : Z), digit_asserts_x (b, b) a0 a1 = digit_asserts b a0 a1.
Proof. intros. unfold digit_asserts_x, digit_asserts. corner. Qed.
#[global] Hint Resolve digit_asserts_corner : corner.
Lemma table_get_ge_corner : forall b (a0 : list affine) (a1 : Z) (a2 : Z), table_get_ge_x (b, b) a0 a1 a2 = table_get_ge b a0 a1 a2.
Proof. intros. unfold table_get_ge_x, table_get_ge. corner. Qed.
#[global] Hint Resolve table_get_ge_corner : corner.
Lemma table_get_ge_const_corner : forall b (a0 : affine) (a1 : list affine) (a2 : Z) (a3 : Z), table_get_ge_const_x (b, b) a0 a1 a2 a3 = table_get_ge_const b a0 a1 a2 a3.
Proof. intros. unfold table_get_ge_const_x, table_get_ge_const. corner. Qed.
#[global] Hint Resolve table_get_ge_const_corner : corner.
Lemma table_get_ge_storage_corner : forall b (a0 : list astorage) (a1 : Z) (a2 : Z), table_get_ge_storage_x (b, b) a0 a1 a2 = table_get_ge_storage b a0 a1 a2.
Proof. intros. unfold table_get_ge_storage_x, table_get_ge_storage. corner. Qed.
#[global] Hint Resolve table_get_ge_storage_corner : corner.
Lemma wnaf_loop_corner : forall b (a0 : nat) (a1 : scalar) (a2 : Z) (a3 : Z) (a4 : Z) (a5 : Z) (a6 : Z) (a7 : Z) (a8 : list Z), wnaf_loop_x (b, b) a0 a1 a2 a3 a4 a5 a6 a7 a8 = wnaf_loop b a0 a1 a2 a3 a4 a5 a6 a7 a8.
Proof. intros b. induction a0 as [|? ? IH] || induction a0 as [|? IH]; intros; cbn [wnaf_loop_x wnaf_loop]; corner. Qed.
#[global] Hint Resolve wnaf_loop_corner : corner.
Lemma high_bits_zero_corner : forall b (a0 : nat) (a1 : scalar) (a2 : Z), high_bits_zero_x (b, b) a0 a1 a2 = high_bits_zero b a0 a1 a2.
Proof. intros b. induction a0 as [|? ? IH] || induction a0 as [|? IH]; intros; cbn [high_bits_zero_x high_bits_zero]; corner. Qed.
#[global] Hint Resolve high_bits_zero_corner : corner.
Lemma ecmult_wnaf_corner : forall b (a0 : Z) (a1 : scalar) (a2 : Z), ecmult_wnaf_x (b, b) a0 a1 a2 = ecmult_wnaf b a0 a1 a2.
Proof. intros. unfold ecmult_wnaf_x, ecmult_wnaf. corner. Qed.
#[global] Hint Resolve ecmult_wnaf_corner : corner.
Lemma wnaf_const_loop_corner : forall b (a0 : nat) (a1 : Z) (a2 : Z) (a3 : scalar) (a4 : Z) (a5 : Z) (a6 : Z) (a7 : list Z), wnaf_const_loop_x (b, b) a0 a1 a2 a3 a4 a5 a6 a7 = wnaf_const_loop b a0 a1 a2 a3 a4 a5 a6 a7.
Proof. intros b. induction a0 as [|? ? IH] || induction a0 as [|? IH]; intros; cbn [wnaf_const_loop_x wnaf_const_loop]; corner. Qed.
#[global] Hint Resolve wnaf_const_loop_corner : corner.
Lemma ecmult_wnaf_const_corner : forall b (a0 : Z) (a1 : scalar) (a2 : Z), ecmult_wnaf_const_x (b, b) a0 a1 a2 = ecmult_wnaf_const b a0 a1 a2.
Proof. intros. unfold ecmult_wnaf_const_x, ecmult_wnaf_const. corner. Qed.
#[global] Hint Resolve ecmult_wnaf_const_corner : corner.
Lemma ecmult_loop_corner : forall b (a0 : nat) (a1 : list astorage) (a2 : list affine) (a3 : field) (a4 : list Z) (a5 : list Z) (a6 : Z) (a7 : Z) (a8 : jac), ecmult_loop_x (b, b) a0 a1 a2 a3 a4 a5 a6 a7 a8 = ecmult_loop b a0 a1 a2 a3 a4 a5 a6 a7 a8.
Proof. intros b. induction a0 as [|? ? IH] || induction a0 as [|? IH]; intros; cbn [ecmult_loop_x ecmult_loop]; corner. Qed.
#[global] Hint Resolve ecmult_loop_corner : corner.
Lemma ecmult_corner : forall b (a0 : ecctx) (a1 : jac) (a2 : scalar) (a3 : scalar), ecmult_x (b, b) a0 a1 a2 a3 = ecmult b a0 a1 a2 a3.
Proof. intros. unfold ecmult_x, ecmult. corner. Qed.
#[global] Hint Resolve ecmult_corner : corner.
Lemma double_nonzero_n_corner : forall b (a0 : nat) (a1 : jac), double_nonzero_n_x (b, b) a0 a1 = double_nonzero_n b a0 a1.
Proof. intros b. induction a0 as [|? ? IH] || induction a0 as [|? IH]; intros; cbn [double_nonzero_n_x double_nonzero_n]; corner. Qed.
#[global] Hint Resolve double_nonzero_n_corner : corner.
Lemma ecmult_const_loop_corner : forall b (a0 : nat) (a1 : list affine) (a2 : list Z) (a3 : affine) (a4 : jac), ecmult_const_loop_x (b, b) a0 a1 a2 a3 a4 = ecmult_const_loop b a0 a1 a2 a3 a4.
Proof. intros b. induction a0 as [|? ? IH] || induction a0 as [|? IH]; intros; cbn [ecmult_const_loop_x ecmult_const_loop]; corner. Qed.
#[global] Hint Resolve ecmult_const_loop_corner : corner.
Lemma ecmult_const_corner : forall b (a0 : affine) (a1 : scalar), ecmult_const_x (b, b) a0 a1 = ecmult_const b a0 a1.
Proof. intros. unfold ecmult_const_x, ecmult_const. corner. Qed.
#[global] Hint Resolve ecmult_const_corner : corner.
Lemma ecmult_gen_loop_corner : forall b (a0 : list (list astorage)) (a1 : Z) (a2 : scalar) (a3 : astorage) (a4 : jac), ecmult_gen_loop_x (b, b) a0 a1 a2 a3 a4 = ecmult_gen_loop b a0 a1 a2 a3 a4.
Proof. intros b. induction a0 as [|? ? IH] || induction a0 as [|? IH]; intros; cbn [ecmult_gen_loop_x ecmult_gen_loop]; corner. Qed.
#[global] Hint Resolve ecmult_gen_loop_corner : corner.
Lemma ecmult_gen_corner : forall b (a0 : genctx) (a1 : scalar), ecmult_gen_x (b, b) a0 a1 = ecmult_gen b a0 a1.
Proof. intros. unfold ecmult_gen_x, ecmult_gen. corner. Qed.
#[global] Hint Resolve ecmult_gen_corner : corner.
Lemma verify_raw_corner : forall b (a0 : ecctx) (a1 : scalar) (a2 : scalar) (a3 : affine) (a4 : scalar), verify_raw_x (b, b) a0 a1 a2 a3 a4 = verify_raw b a0 a1 a2 a3 a4.
Proof. intros. unfold verify_raw_x, verify_raw. corner. Qed.
#[global] Hint Resolve verify_raw_corner : corner.
Lemma recover_raw_corner : forall b (a0 : ecctx) (a1 : scalar) (a2 : scalar) (a3 : Z) (a4 : scalar), recover_raw_x (b, b) a0 a1 a2 a3 a4 = recover_raw b a0 a1 a2 a3 a4.
Proof. intros. unfold recover_raw_x, recover_raw. corner. Qed.
#[global] Hint Resolve recover_raw_corner : corner.
Lemma sign_raw_corner : forall b (a0 : genctx) (a1 : scalar) (a2 : scalar) (a3 : scalar), sign_raw_x (b, b) a0 a1 a2 a3 = sign_raw b a0 a1 a2 a3.
Proof. intros. unfold sign_raw_x, sign_raw. corner. Qed.
#[global] Hint Resolve sign_raw_corner : corner.
Lemma ecdh_raw_corner : forall b (a0 : (list Z -> list Z)) (a1 : affine) (a2 : scalar), ecdh_raw_x (b, b) a0 a1 a2 = ecdh_raw b a0 a1 a2.
Proof. intros. unfold ecdh_raw_x, ecdh_raw. corner. Qed.
#[global] Hint Resolve ecdh_raw_corner : corner.
Lemma read_len_loop_corner : forall b (a0 : nat) (a1 : Z) (a2 : decoder), read_len_loop_x (b, b) a0 a1 a2 = read_len_loop b a0 a1 a2.
Proof. intros b. induction a0 as [|? ? IH] || induction a0 as [|? IH]; intros; cbn [read_len_loop_x read_len_loop]; corner. Qed.
#[global] Hint Resolve read_len_loop_corner : corner.
Lemma d_read_len_corner : forall b (a0 : decoder), d_read_len_x (b, b) a0 = d_read_len b a0.
Proof. intros. unfold d_read_len_x, d_read_len. corner. Qed.
#[global] Hint Resolve d_read_len_corner : corner.
Lemma read_scalar_corner : forall b (a0 : decoder) (a1 : Z), read_scalar_x (b, b) a0 a1 = read_scalar b a0 a1.
Proof. intros. unfold read_scalar_x, read_scalar. corner. Qed.
#[global] Hint Resolve read_scalar_corner : corner.
Lemma d_read_integer_corner : forall b (a0 : decoder), d_read_integer_x (b, b) a0 = d_read_integer b a0.
Proof. intros. unfold d_read_integer_x, d_read_integer. corner. Qed.
#[global] Hint Resolve d_read_integer_corner : corner.
Lemma d_read_seq_len_lax_corner : forall b (a0 : decoder), d_read_seq_len_lax_x (b, b) a0 = d_read_seq_len_lax b a0.
Proof. intros. unfold d_read_seq_len_lax_x, d_read_seq_len_lax. corner. Qed.
#[global] Hint Resolve d_read_seq_len_lax_corner : corner.
Lemma lax_len_loop_corner : forall b (a0 : nat) (a1 : Z) (a2 : decoder), lax_len_loop_x (b, b) a0 a1 a2 = lax_len_loop b a0 a1 a2.
Proof. intros b. induction a0 as [|? ? IH] || induction a0 as [|? IH]; intros; cbn [lax_len_loop_x lax_len_loop]; corner. Qed.
#[global] Hint Resolve lax_len_loop_corner : corner.
Lemma d_read_len_lax_corner : forall b (a0 : decoder), d_read_len_lax_x (b, b) a0 = d_read_len_lax b a0.
Proof. intros. unfold d_read_len_lax_x, d_read_len_lax. corner. Qed.
#[global] Hint Resolve d_read_len_lax_corner : corner.
Lemma d_read_integer_lax_corner : forall b (a0 : decoder), d_read_integer_lax_x (b, b) a0 = d_read_integer_lax b a0.
Proof. intros. unfold d_read_integer_lax_x, d_read_integer_lax. corner. Qed.
#[global] Hint Resolve d_read_integer_lax_corner : corner.
Lemma pk_from_secret_key_corner : forall b (a0 : genctx) (a1 : seckey), pk_from_secret_key_x (b, b) a0 a1 = pk_from_secret_key b a0 a1.
Proof. intros. unfold pk_from_secret_key_x, pk_from_secret_key. corner. Qed.
#[global] Hint Resolve pk_from_secret_key_corner : corner.
Lemma pk_parse_corner : forall b (a0 : list Z), pk_parse_x (b, b) a0 = pk_parse b a0.
Proof. intros. unfold pk_parse_x, pk_parse. corner. Qed.
#[global] Hint Resolve pk_parse_corner : corner.
Lemma pk_parse_compressed_corner : forall b (a0 : list Z), pk_parse_compressed_x (b, b) a0 = pk_parse_compressed b a0.
Proof. intros. unfold pk_parse_compressed_x, pk_parse_compressed. corner. Qed.
#[global] Hint Resolve pk_parse_compressed_corner : corner.
Lemma pk_parse_slice_corner : forall b (a0 : list Z) (a1 : option pkformat), pk_parse_slice_x (b, b) a0 a1 = pk_parse_slice b a0 a1.
Proof. intros. unfold pk_parse_slice_x, pk_parse_slice. corner. Qed.
#[global] Hint Resolve pk_parse_slice_corner : corner.
Lemma pk_serialize_corner : forall b (a0 : pubkey), pk_serialize_x (b, b) a0 = pk_serialize b a0.
Proof. intros. unfold pk_serialize_x, pk_serialize. corner. Qed.
#[global] Hint Resolve pk_serialize_corner : corner.
Lemma pk_serialize_compressed_corner : forall b (a0 : pubkey), pk_serialize_compressed_x (b, b) a0 = pk_serialize_compressed b a0.
Proof. intros. unfold pk_serialize_compressed_x, pk_serialize_compressed. corner. Qed.
#[global] Hint Resolve pk_serialize_compressed_corner : corner.
Lemma pk_eq_corner : forall b (a0 : pubkey) (a1 : pubkey), pk_eq_x (b, b) a0 a1 = pk_eq b a0 a1.
Proof. intros. unfold pk_eq_x, pk_eq. corner. Qed.
#[global] Hint Resolve pk_eq_corner : corner.
Lemma pk_tweak_add_assign_corner : forall b (a0 : ecctx) (a1 : pubkey) (a2 : seckey), pk_tweak_add_assign_x (b, b) a0 a1 a2 = pk_tweak_add_assign b a0 a1 a2.
Proof. intros. unfold pk_tweak_add_assign_x, pk_tweak_add_assign. corner. Qed.
#[global] Hint Resolve pk_tweak_add_assign_corner : corner.
Lemma pk_tweak_mul_assign_corner : forall b (a0 : ecctx) (a1 : pubkey) (a2 : seckey), pk_tweak_mul_assign_x (b, b) a0 a1 a2 = pk_tweak_mul_assign b a0 a1 a2.
Proof. intros. unfold pk_tweak_mul_assign_x, pk_tweak_mul_assign. corner. Qed.
#[global] Hint Resolve pk_tweak_mul_assign_corner : corner.
Lemma combine_loop_corner : forall b (a1 : list pubkey) (a0 : jac), combine_loop_x (b, b) a0 a1 = combine_loop b a0 a1.
Proof. intros b. induction a1 as [|? ? IH] || induction a1 as [|? IH]; intros; cbn [combine_loop_x combine_loop]; corner. Qed.
#[global] Hint Resolve combine_loop_corner : corner.
Lemma pk_combine_corner : forall b (a0 : list pubkey), pk_combine_x (b, b) a0 = pk_combine b a0.
Proof. intros. unfold pk_combine_x, pk_combine. corner. Qed.
#[global] Hint Resolve pk_combine_corner : corner.
Lemma pk_try_from_corner : forall b (a0 : affine), pk_try_from_x (b, b) a0 = pk_try_from b a0.
Proof. intros. unfold pk_try_from_x, pk_try_from. corner. Qed.
#[global] Hint Resolve pk_try_from_corner : corner.
Lemma sk_parse_corner : forall b (a0 : list Z), sk_parse_x (b, b) a0 = sk_parse b a0.
Proof. intros. unfold sk_parse_x, sk_parse. corner. Qed.
#[global] Hint Resolve sk_parse_corner : corner.
Lemma sk_parse_slice_corner : forall b (a0 : list Z), sk_parse_slice_x (b, b) a0 = sk_parse_slice b a0.
Proof. intros. unfold sk_parse_slice_x, sk_parse_slice. corner. Qed.
#[global] Hint Resolve sk_parse_slice_corner : corner.
Lemma sk_tweak_add_assign_corner : forall b (a0 : seckey) (a1 : seckey), sk_tweak_add_assign_x (b, b) a0 a1 = sk_tweak_add_assign b a0 a1.
Proof. intros. unfold sk_tweak_add_assign_x, sk_tweak_add_assign. corner. Qed.
#[global] Hint Resolve sk_tweak_add_assign_corner : corner.
Lemma sk_tweak_mul_assign_corner : forall b (a0 : seckey) (a1 : seckey), sk_tweak_mul_assign_x (b, b) a0 a1 = sk_tweak_mul_assign b a0 a1.
Proof. intros. unfold sk_tweak_mul_assign_x, sk_tweak_mul_assign. corner. Qed.
#[global] Hint Resolve sk_tweak_mul_assign_corner : corner.
Lemma sk_inv_corner : forall b (a0 : seckey), sk_inv_x (b, b) a0 = sk_inv b a0.
Proof. intros. unfold sk_inv_x, sk_inv. corner. Qed.
#[global] Hint Resolve sk_inv_corner : corner.
Lemma sk_default_corner : forall b, sk_default_x (b, b)  = sk_default b .
Proof. intros. unfold sk_default_x, sk_default. corner. Qed.
#[global] Hint Resolve sk_default_corner : corner.
Lemma sig_parse_overflowing_corner : forall b (a0 : list Z), sig_parse_overflowing_x (b, b) a0 = sig_parse_overflowing b a0.
Proof. intros. unfold sig_parse_overflowing_x, sig_parse_overflowing. corner. Qed.
#[global] Hint Resolve sig_parse_overflowing_corner : corner.
Lemma sig_parse_standard_corner : forall b (a0 : list Z), sig_parse_standard_x (b, b) a0 = sig_parse_standard b a0.
Proof. intros. unfold sig_parse_standard_x, sig_parse_standard. corner. Qed.
#[global] Hint Resolve sig_parse_standard_corner : corner.
Lemma sig_parse_overflowing_slice_corner : forall b (a0 : list Z), sig_parse_overflowing_slice_x (b, b) a0 = sig_parse_overflowing_slice b a0.
Proof. intros. unfold sig_parse_overflowing_slice_x, sig_parse_overflowing_slice. corner. Qed.
#[global] Hint Resolve sig_parse_overflowing_slice_corner : corner.
Lemma sig_parse_standard_slice_corner : forall b (a0 : list Z), sig_parse_standard_slice_x (b, b) a0 = sig_parse_standard_slice b a0.
Proof. intros. unfold sig_parse_standard_slice_x, sig_parse_standard_slice. corner. Qed.
#[global] Hint Resolve sig_parse_standard_slice_corner : corner.
Lemma sig_parse_der_corner : forall b (a0 : list Z), sig_parse_der_x (b, b) a0 = sig_parse_der b a0.
Proof. intros. unfold sig_parse_der_x, sig_parse_der. corner. Qed.
#[global] Hint Resolve sig_parse_der_corner : corner.
Lemma sig_parse_der_lax_corner : forall b (a0 : list Z), sig_parse_der_lax_x (b, b) a0 = sig_parse_der_lax b a0.
Proof. intros. unfold sig_parse_der_lax_x, sig_parse_der_lax. corner. Qed.
#[global] Hint Resolve sig_parse_der_lax_corner : corner.
Lemma sig_normalize_s_corner : forall b (a0 : signature), sig_normalize_s_x (b, b) a0 = sig_normalize_s b a0.
Proof. intros. unfold sig_normalize_s_x, sig_normalize_s. corner. Qed.
#[global] Hint Resolve sig_normalize_s_corner : corner.
Lemma msg_parse_corner : forall b (a0 : list Z), msg_parse_x (b, b) a0 = msg_parse b a0.
Proof. intros. unfold msg_parse_x, msg_parse. corner. Qed.
#[global] Hint Resolve msg_parse_corner : corner.
Lemma msg_parse_slice_corner : forall b (a0 : list Z), msg_parse_slice_x (b, b) a0 = msg_parse_slice b a0.
Proof. intros. unfold msg_parse_slice_x, msg_parse_slice. corner. Qed.
#[global] Hint Resolve msg_parse_slice_corner : corner.
Lemma shared_secret_new_corner : forall b (a0 : (list Z -> list Z)) (a1 : pubkey) (a2 : seckey), shared_secret_new_x (b, b) a0 a1 a2 = shared_secret_new b a0 a1 a2.
Proof. intros. unfold shared_secret_new_x, shared_secret_new. corner. Qed.
#[global] Hint Resolve shared_secret_new_corner : corner.
Lemma verify_corner : forall b (a0 : ecctx) (a1 : message) (a2 : signature) (a3 : pubkey), verify_x (b, b) a0 a1 a2 a3 = verify b a0 a1 a2 a3.
Proof. intros. unfold verify_x, verify. corner. Qed.
#[global] Hint Resolve verify_corner : corner.
Lemma recover_corner : forall b (a0 : ecctx) (a1 : message) (a2 : signature) (a3 : recid), recover_x (b, b) a0 a1 a2 a3 = recover b a0 a1 a2 a3.
Proof. intros. unfold recover_x, recover. corner. Qed.
#[global] Hint Resolve recover_corner : corner.
Lemma pk_ser_corner : forall b (a0 : (list Z -> list Z)) (a1 : bool) (a2 : pubkey), pk_ser_x (b, b) a0 a1 a2 = pk_ser b a0 a1 a2.
Proof. intros. unfold pk_ser_x, pk_ser. corner. Qed.
#[global] Hint Resolve pk_ser_corner : corner.
Lemma pk_de_corner : forall b (a0 : (list Z -> option (list Z))) (a1 : bool) (a2 : list Z), pk_de_x (b, b) a0 a1 a2 = pk_de b a0 a1 a2.
Proof. intros. unfold pk_de_x, pk_de. corner. Qed.
#[global] Hint Resolve pk_de_corner : corner.

(** * Switching checks off *)
(** Build [c] executes every check that build [d] executes. *)
Definition bge (c d : bool * bool) : Prop := (fst d = true -> fst c = true) /\ (snd d = true -> snd c = true).

Section Off.
Variables c d : bool * bool.
Hypothesis H : bge c d.
Lemma uchk_off w v : ref (uchk w (snd c) v) (uchk w (snd d) v).
Proof. destruct H as [_ K]. destruct (snd d); [rewrite K by reflexivity; apply ref_refl|]. destruct (snd c); [apply uchk_ref | apply ref_refl]. Qed.
Lemma ichk_off v : ref (ichk (snd c) v) (ichk (snd d) v).
Proof. destruct H as [_ K]. destruct (snd d); [rewrite K by reflexivity; apply ref_refl|]. destruct (snd c); [apply ichk_ref | apply ref_refl]. Qed.
Lemma dassert_off b : ref (dassert (fst c) b) (dassert (fst d) b).
Proof. destruct H as [K _]. destruct (fst d); [rewrite K by reflexivity; apply ref_refl|]. destruct (fst c); [apply dassert_ref | apply ref_refl]. Qed.
Lemma choice_from_off v : ref (choice_from (fst c) v) (choice_from (fst d) v).
Proof. destruct H as [K _]. destruct (fst d); [rewrite K by reflexivity; apply ref_refl|]. destruct (fst c); [apply choice_from_ref | apply ref_refl]. Qed.
Lemma if_off (x y : option unit) : ref x y -> ref (if fst c then x else Some tt) (if fst d then y else Some tt).
Proof. intros L. destruct H as [K _]. destruct (fst d); [rewrite K by reflexivity; exact L | apply ref_unit]. Qed.
Lemma shlc32_off a b : ref (shlc32 (snd c) a b) (shlc32 (snd d) a b).
Proof. destruct H as [_ K]. destruct (snd d); [rewrite K by reflexivity; apply ref_refl|]. destruct (snd c); [apply shlc32_ref | apply ref_refl]. Qed.
Lemma shrc32_off a b : ref (shrc32 (snd c) a b) (shrc32 (snd d) a b).
Proof. destruct H as [_ K]. destruct (snd d); [rewrite K by reflexivity; apply ref_refl|]. destruct (snd c); [apply shrc32_ref | apply ref_refl]. Qed.
Lemma add32_off a b : ref (add32 (snd c) a b) (add32 (snd d) a b). Proof. apply uchk_off. Qed.
Lemma sub32_off a b : ref (sub32 (snd c) a b) (sub32 (snd d) a b). Proof. apply uchk_off. Qed.
Lemma mul32_off a b : ref (mul32 (snd c) a b) (mul32 (snd d) a b). Proof. apply uchk_off. Qed.
Lemma add64_off a b : ref (add64 (snd c) a b) (add64 (snd d) a b). Proof. apply uchk_off. Qed.
Lemma sub64_off a b : ref (sub64 (snd c) a b) (sub64 (snd d) a b). Proof. apply uchk_off. Qed.
Lemma mul64_off a b : ref (mul64 (snd c) a b) (mul64 (snd d) a b). Proof. apply uchk_off. Qed.
Lemma add8_off a b : ref (add8 (snd c) a b) (add8 (snd d) a b). Proof. apply uchk_off. Qed.
Lemma sub8_off a b : ref (sub8 (snd c) a b) (sub8 (snd d) a b). Proof. apply uchk_off. Qed.
Create HintDb off discriminated.
#[local] Hint Constants Opaque : off.
#[local] Hint Variables Opaque : off.
#[local] Hint Transparent pubkey seckey message recid decoder acc : off.
#[local] Hint Resolve uchk_off ichk_off dassert_off choice_from_off shlc32_off shrc32_off add32_off sub32_off mul32_off add64_off sub64_off mul64_off add8_off sub8_off : off.
Ltac off1 :=
  lazymatch goal with
  | |- ref ?x ?x => apply ref_refl
  | |- ref None _ => apply ref_none
  | |- ref _ (Some tt) => apply ref_unit
  | |- ref (bind _ _) (bind _ _) => apply ref_bind; [|intros ?]
  | |- ref (rbind _ _) (rbind _ _) => apply ref_rbind; [|intros ?]
  | |- ref (mapo _ _) (mapo _ _) => apply ref_mapo; intros ?
  | |- ref (if fst c then _ else _) (if fst d then _ else _) => apply if_off
  | |- ref (match ?e with _ => _ end) (match ?e with _ => _ end) => destruct e
  | IH : forall _ : _, ref _ _ |- _ => first [apply IH | solve [auto with off nocore]]
  | IH : forall _ _, ref _ _ |- _ => first [apply IH | solve [auto with off nocore]]
  | IH : forall _ _ _, ref _ _ |- _ => first [apply IH | solve [auto with off nocore]]
  | IH : forall _ _ _ _, ref _ _ |- _ => first [apply IH | solve [auto with off nocore]]
  | IH : forall _ _ _ _ _, ref _ _ |- _ => first [apply IH | solve [auto with off nocore]]
  | |- _ => solve [auto with off nocore]
  end.
Ltac off := repeat off1.

Lemma f_normalize_off : forall (a0 : field), ref (f_normalize_x c a0) (f_normalize_x d a0).
Proof. intros. unfold f_normalize_x. off. Qed.
#[local] Hint Resolve f_normalize_off : off.
Lemma f_normalize_weak_off : forall (a0 : field), ref (f_normalize_weak_x c a0) (f_normalize_weak_x d a0).
Proof. intros. unfold f_normalize_weak_x. off. Qed.
#[local] Hint Resolve f_normalize_weak_off : off.
Lemma f_normalize_var_off : forall (a0 : field), ref (f_normalize_var_x c a0) (f_normalize_var_x d a0).
Proof. intros. unfold f_normalize_var_x. off. Qed.
#[local] Hint Resolve f_normalize_var_off : off.
Lemma f_normalizes_to_zero_off : forall (a0 : field), ref (f_normalizes_to_zero_x c a0) (f_normalizes_to_zero_x d a0).
Proof. intros. unfold f_normalizes_to_zero_x. off. Qed.
#[local] Hint Resolve f_normalizes_to_zero_off : off.
Lemma f_normalizes_to_zero_var_off : forall (a0 : field), ref (f_normalizes_to_zero_var_x c a0) (f_normalizes_to_zero_var_x d a0).
Proof. intros. unfold f_normalizes_to_zero_var_x. off. Qed.
#[local] Hint Resolve f_normalizes_to_zero_var_off : off.
Lemma f_set_int_off : forall (a0 : Z), ref (f_set_int_x c a0) (f_set_int_x d a0).
Proof. intros. unfold f_set_int_x. off. Qed.
#[local] Hint Resolve f_set_int_off : off.
Lemma f_is_zero_off : forall (a0 : field), ref (f_is_zero_x c a0) (f_is_zero_x d a0).
Proof. intros. unfold f_is_zero_x. off. Qed.
#[local] Hint Resolve f_is_zero_off : off.
Lemma f_is_odd_off : forall (a0 : field), ref (f_is_odd_x c a0) (f_is_odd_x d a0).
Proof. intros. unfold f_is_odd_x. off. Qed.
#[local] Hint Resolve f_is_odd_off : off.
Lemma f_set_b32_off : forall (a0 : field) (a1 : list Z), ref (f_set_b32_x c a0 a1) (f_set_b32_x d a0 a1).
Proof. intros. unfold f_set_b32_x. off. Qed.
#[local] Hint Resolve f_set_b32_off : off.
Lemma f_b32_off : forall (a0 : field), ref (f_b32_x c a0) (f_b32_x d a0).
Proof. intros. unfold f_b32_x. off. Qed.
#[local] Hint Resolve f_b32_off : off.
Lemma f_neg_limb_off : forall (a0 : Z) (a1 : Z) (a2 : Z), ref (f_neg_limb_x c a0 a1 a2) (f_neg_limb_x d a0 a1 a2).
Proof. intros. unfold f_neg_limb_x. off. Qed.
#[local] Hint Resolve f_neg_limb_off : off.
Lemma f_neg_off : forall (a0 : field) (a1 : Z), ref (f_neg_x c a0 a1) (f_neg_x d a0 a1).
Proof. intros. unfold f_neg_x. off. Qed.
#[local] Hint Resolve f_neg_off : off.
Lemma f_mul_int_off : forall (a0 : field) (a1 : Z), ref (f_mul_int_x c a0 a1) (f_mul_int_x d a0 a1).
Proof. intros. unfold f_mul_int_x. off. Qed.
#[local] Hint Resolve f_mul_int_off : off.
Lemma f_add_off : forall (a0 : field) (a1 : field), ref (f_add_x c a0 a1) (f_add_x d a0 a1).
Proof. intros. unfold f_add_x. off. Qed.
#[local] Hint Resolve f_add_off : off.
Lemma f_cmp_var_off : forall (a0 : field) (a1 : field), ref (f_cmp_var_x c a0 a1) (f_cmp_var_x d a0 a1).
Proof. intros. unfold f_cmp_var_x. off. Qed.
#[local] Hint Resolve f_cmp_var_off : off.
Lemma f_ge_off : forall (a0 : field) (a1 : field), ref (f_ge_x c a0 a1) (f_ge_x d a0 a1).
Proof. intros. unfold f_ge_x. off. Qed.
#[local] Hint Resolve f_ge_off : off.
Lemma f_eq_var_off : forall (a0 : field) (a1 : field), ref (f_eq_var_x c a0 a1) (f_eq_var_x d a0 a1).
Proof. intros. unfold f_eq_var_x. off. Qed.
#[local] Hint Resolve f_eq_var_off : off.
Lemma f_eq_off : forall (a0 : field) (a1 : field), ref (f_eq_x c a0 a1) (f_eq_x d a0 a1).
Proof. intros. unfold f_eq_x. off. Qed.
#[local] Hint Resolve f_eq_off : off.
Lemma f_mul_inner_off : forall (a0 : field) (a1 : field), ref (f_mul_inner_x c a0 a1) (f_mul_inner_x d a0 a1).
Proof. intros. unfold f_mul_inner_x. off. Qed.
#[local] Hint Resolve f_mul_inner_off : off.
Lemma f_sqr_inner_off : forall (a0 : field), ref (f_sqr_inner_x c a0) (f_sqr_inner_x d a0).
Proof. intros. unfold f_sqr_inner_x. off. Qed.
#[local] Hint Resolve f_sqr_inner_off : off.
Lemma f_mul_off : forall (a0 : field) (a1 : field), ref (f_mul_x c a0 a1) (f_mul_x d a0 a1).
Proof. intros. unfold f_mul_x. off. Qed.
#[local] Hint Resolve f_mul_off : off.
Lemma f_sqr_off : forall (a0 : field), ref (f_sqr_x c a0) (f_sqr_x d a0).
Proof. intros. unfold f_sqr_x. off. Qed.
#[local] Hint Resolve f_sqr_off : off.
Lemma f_sqr_n_off : forall (a0 : nat) (a1 : field), ref (f_sqr_n_x c a0 a1) (f_sqr_n_x d a0 a1).
Proof. induction a0 as [|? ? IH] || induction a0 as [|? IH]; intros; cbn [f_sqr_n_x]; off. Qed.
#[local] Hint Resolve f_sqr_n_off : off.
Lemma f_chain223_off : forall (a0 : field), ref (f_chain223_x c a0) (f_chain223_x d a0).
Proof. intros. unfold f_chain223_x. off. Qed.
#[local] Hint Resolve f_chain223_off : off.
Lemma f_sqrt_off : forall (a0 : field), ref (f_sqrt_x c a0) (f_sqrt_x d a0).
Proof. intros. unfold f_sqrt_x. off. Qed.
#[local] Hint Resolve f_sqrt_off : off.
Lemma f_inv_off : forall (a0 : field), ref (f_inv_x c a0) (f_inv_x d a0).
Proof. intros. unfold f_inv_x. off. Qed.
#[local] Hint Resolve f_inv_off : off.
Lemma f_is_quad_var_off : forall (a0 : field), ref (f_is_quad_var_x c a0) (f_is_quad_var_x d a0).
Proof. intros. unfold f_is_quad_var_x. off. Qed.
#[local] Hint Resolve f_is_quad_var_off : off.
Lemma f_to_storage_off : forall (a0 : field), ref (f_to_storage_x c a0) (f_to_storage_x d a0).
Proof. intros. unfold f_to_storage_x. off. Qed.
#[local] Hint Resolve f_to_storage_off : off.
Lemma s_bits_off : forall (a0 : scalar) (a1 : Z) (a2 : Z), ref (s_bits_x c a0 a1 a2) (s_bits_x d a0 a1 a2).
Proof. intros. unfold s_bits_x. off. Qed.
#[local] Hint Resolve s_bits_off : off.
Lemma s_bits_var_off : forall (a0 : scalar) (a1 : Z) (a2 : Z), ref (s_bits_var_x c a0 a1 a2) (s_bits_var_x d a0 a1 a2).
Proof. intros. unfold s_bits_var_x. off. Qed.
#[local] Hint Resolve s_bits_var_off : off.
Lemma s_reduce_off : forall (a0 : scalar) (a1 : Z), ref (s_reduce_x c a0 a1) (s_reduce_x d a0 a1).
Proof. intros. unfold s_reduce_x. off. Qed.
#[local] Hint Resolve s_reduce_off : off.
Lemma cadd_step_off : forall (a0 : Z) (a1 : Z) (a2 : Z) (a3 : Z), ref (cadd_step_x c a0 a1 a2 a3) (cadd_step_x d a0 a1 a2 a3).
Proof. intros. unfold cadd_step_x. off. Qed.
#[local] Hint Resolve cadd_step_off : off.
Lemma s_cadd_bit_off : forall (a0 : scalar) (a1 : Z) (a2 : bool), ref (s_cadd_bit_x c a0 a1 a2) (s_cadd_bit_x d a0 a1 a2).
Proof. intros. unfold s_cadd_bit_x. off. Qed.
#[local] Hint Resolve s_cadd_bit_off : off.
Lemma s_set_b32_off : forall (a0 : list Z), ref (s_set_b32_x c a0) (s_set_b32_x d a0).
Proof. intros. unfold s_set_b32_x. off. Qed.
#[local] Hint Resolve s_set_b32_off : off.
Lemma cneg_step_off : forall (a0 : Z) (a1 : Z) (a2 : Z) (a3 : Z) (a4 : Z), ref (cneg_step_x c a0 a1 a2 a3 a4) (cneg_step_x d a0 a1 a2 a3 a4).
Proof. intros. unfold cneg_step_x. off. Qed.
#[local] Hint Resolve cneg_step_off : off.
Lemma s_cond_neg_off : forall (a0 : scalar) (a1 : bool), ref (s_cond_neg_x c a0 a1) (s_cond_neg_x d a0 a1).
Proof. intros. unfold s_cond_neg_x. off. Qed.
#[local] Hint Resolve s_cond_neg_off : off.
Lemma s_neg_off : forall (a0 : scalar), ref (s_neg_x c a0) (s_neg_x d a0).
Proof. intros. unfold s_neg_x. off. Qed.
#[local] Hint Resolve s_neg_off : off.
Lemma a_muladd_off : forall (a0 : Z) (a1 : Z) (a2 : acc), ref (a_muladd_x c a0 a1 a2) (a_muladd_x d a0 a1 a2).
Proof. intros. unfold a_muladd_x. off. Qed.
#[local] Hint Resolve a_muladd_off : off.
Lemma a_muladd_fast_off : forall (a0 : Z) (a1 : Z) (a2 : acc), ref (a_muladd_fast_x c a0 a1 a2) (a_muladd_fast_x d a0 a1 a2).
Proof. intros. unfold a_muladd_fast_x. off. Qed.
#[local] Hint Resolve a_muladd_fast_off : off.
Lemma a_muladd2_off : forall (a0 : Z) (a1 : Z) (a2 : acc), ref (a_muladd2_x c a0 a1 a2) (a_muladd2_x d a0 a1 a2).
Proof. intros. unfold a_muladd2_x. off. Qed.
#[local] Hint Resolve a_muladd2_off : off.
Lemma a_sumadd_fast_off : forall (a0 : Z) (a1 : acc), ref (a_sumadd_fast_x c a0 a1) (a_sumadd_fast_x d a0 a1).
Proof. intros. unfold a_sumadd_fast_x. off. Qed.
#[local] Hint Resolve a_sumadd_fast_off : off.
Lemma a_extract_fast_off : forall (a0 : acc), ref (a_extract_fast_x c a0) (a_extract_fast_x d a0).
Proof. intros. unfold a_extract_fast_x. off. Qed.
#[local] Hint Resolve a_extract_fast_off : off.
Lemma s_red_a_off : forall (a0 : list Z), ref (s_red_a_x c a0) (s_red_a_x d a0).
Proof. intros. unfold s_red_a_x. off. Qed.
#[local] Hint Resolve s_red_a_off : off.
Lemma s_red_b_off : forall (a0 : list Z), ref (s_red_b_x c a0) (s_red_b_x d a0).
Proof. intros. unfold s_red_b_x. off. Qed.
#[local] Hint Resolve s_red_b_off : off.
Lemma s_red_c_off : forall (a0 : list Z), ref (s_red_c_x c a0) (s_red_c_x d a0).
Proof. intros. unfold s_red_c_x. off. Qed.
#[local] Hint Resolve s_red_c_off : off.
Lemma s_reduce_512_off : forall (a0 : list Z), ref (s_reduce_512_x c a0) (s_reduce_512_x d a0).
Proof. intros. unfold s_reduce_512_x. off. Qed.
#[local] Hint Resolve s_reduce_512_off : off.
Lemma s_mul_512_off : forall (a0 : scalar) (a1 : scalar), ref (s_mul_512_x c a0 a1) (s_mul_512_x d a0 a1).
Proof. intros. unfold s_mul_512_x. off. Qed.
#[local] Hint Resolve s_mul_512_off : off.
Lemma s_sqr_512_off : forall (a0 : scalar), ref (s_sqr_512_x c a0) (s_sqr_512_x d a0).
Proof. intros. unfold s_sqr_512_x. off. Qed.
#[local] Hint Resolve s_sqr_512_off : off.
Lemma s_mul_off : forall (a0 : scalar) (a1 : scalar), ref (s_mul_x c a0 a1) (s_mul_x d a0 a1).
Proof. intros. unfold s_mul_x. off. Qed.
#[local] Hint Resolve s_mul_off : off.
Lemma s_sqr_off : forall (a0 : scalar), ref (s_sqr_x c a0) (s_sqr_x d a0).
Proof. intros. unfold s_sqr_x. off. Qed.
#[local] Hint Resolve s_sqr_off : off.
Lemma s_sqr_n_off : forall (a0 : nat) (a1 : scalar), ref (s_sqr_n_x c a0 a1) (s_sqr_n_x d a0 a1).
Proof. induction a0 as [|? ? IH] || induction a0 as [|? IH]; intros; cbn [s_sqr_n_x]; off. Qed.
#[local] Hint Resolve s_sqr_n_off : off.
Lemma shr_step_off : forall (a0 : Z) (a1 : Z) (a2 : Z), ref (shr_step_x c a0 a1 a2) (shr_step_x d a0 a1 a2).
Proof. intros. unfold shr_step_x. off. Qed.
#[local] Hint Resolve shr_step_off : off.
Lemma s_shr_int_off : forall (a0 : scalar) (a1 : Z), ref (s_shr_int_x c a0 a1) (s_shr_int_x d a0 a1).
Proof. intros. unfold s_shr_int_x. off. Qed.
#[local] Hint Resolve s_shr_int_off : off.
Lemma s_inv_off : forall (a0 : scalar), ref (s_inv_x c a0) (s_inv_x d a0).
Proof. intros. unfold s_inv_x. off. Qed.
#[local] Hint Resolve s_inv_off : off.
Lemma sadd_step_off : forall (a0 : Z) (a1 : Z) (a2 : Z), ref (sadd_step_x c a0 a1 a2) (sadd_step_x d a0 a1 a2).
Proof. intros. unfold sadd_step_x. off. Qed.
#[local] Hint Resolve sadd_step_off : off.
Lemma s_add_off : forall (a0 : scalar) (a1 : scalar), ref (s_add_x c a0 a1) (s_add_x d a0 a1).
Proof. intros. unfold s_add_x. off. Qed.
#[local] Hint Resolve s_add_off : off.
Lemma af_set_xquad_off : forall (a0 : field), ref (af_set_xquad_x c a0) (af_set_xquad_x d a0).
Proof. intros. unfold af_set_xquad_x. off. Qed.
#[local] Hint Resolve af_set_xquad_off : off.
Lemma af_set_xo_var_off : forall (a0 : field) (a1 : bool), ref (af_set_xo_var_x c a0 a1) (af_set_xo_var_x d a0 a1).
Proof. intros. unfold af_set_xo_var_x. off. Qed.
#[local] Hint Resolve af_set_xo_var_off : off.
Lemma af_is_valid_var_off : forall (a0 : affine), ref (af_is_valid_var_x c a0) (af_is_valid_var_x d a0).
Proof. intros. unfold af_is_valid_var_x. off. Qed.
#[local] Hint Resolve af_is_valid_var_off : off.
Lemma af_neg_off : forall (a0 : affine), ref (af_neg_x c a0) (af_neg_x d a0).
Proof. intros. unfold af_neg_x. off. Qed.
#[local] Hint Resolve af_neg_off : off.
Lemma af_eq_off : forall (a0 : affine) (a1 : affine), ref (af_eq_x c a0 a1) (af_eq_x d a0 a1).
Proof. intros. unfold af_eq_x. off. Qed.
#[local] Hint Resolve af_eq_off : off.
Lemma af_set_gej_off : forall (a0 : jac), ref (af_set_gej_x c a0) (af_set_gej_x d a0).
Proof. intros. unfold af_set_gej_x. off. Qed.
#[local] Hint Resolve af_set_gej_off : off.
Lemma af_set_gej_var_off : forall (a0 : affine) (a1 : jac), ref (af_set_gej_var_x c a0 a1) (af_set_gej_var_x d a0 a1).
Proof. intros. unfold af_set_gej_var_x. off. Qed.
#[local] Hint Resolve af_set_gej_var_off : off.
Lemma af_set_gej_zinv_off : forall (a0 : jac) (a1 : field), ref (af_set_gej_zinv_x c a0 a1) (af_set_gej_zinv_x d a0 a1).
Proof. intros. unfold af_set_gej_zinv_x. off. Qed.
#[local] Hint Resolve af_set_gej_zinv_off : off.
Lemma set_table_loop_off : forall (a0 : list jac) (a1 : list field) (a2 : field) (a3 : list affine), ref (set_table_loop_x c a0 a1 a2 a3) (set_table_loop_x d a0 a1 a2 a3).
Proof. induction a0 as [|? ? IH] || induction a0 as [|? IH]; intros; cbn [set_table_loop_x]; off. Qed.
#[local] Hint Resolve set_table_loop_off : off.
Lemma set_table_gej_var_off : forall (a0 : list jac) (a1 : list field), ref (set_table_gej_var_x c a0 a1) (set_table_gej_var_x d a0 a1).
Proof. intros. unfold set_table_gej_var_x. off. Qed.
#[local] Hint Resolve set_table_gej_var_off : off.
Lemma globalz_set_table_gej_off : forall (a0 : list jac) (a1 : list field), ref (globalz_set_table_gej_x c a0 a1) (globalz_set_table_gej_x d a0 a1).
Proof. intros. unfold globalz_set_table_gej_x. off. Qed.
#[local] Hint Resolve globalz_set_table_gej_off : off.
Lemma j_set_ge_off : forall (a0 : affine), ref (j_set_ge_x c a0) (j_set_ge_x d a0).
Proof. intros. unfold j_set_ge_x. off. Qed.
#[local] Hint Resolve j_set_ge_off : off.
Lemma j_eq_x_var_off : forall (a0 : jac) (a1 : field), ref (j_eq_x_var_x c a0 a1) (j_eq_x_var_x d a0 a1).
Proof. intros. unfold j_eq_x_var_x. off. Qed.
#[local] Hint Resolve j_eq_x_var_off : off.
Lemma j_neg_off : forall (a0 : jac), ref (j_neg_x c a0) (j_neg_x d a0).
Proof. intros. unfold j_neg_x. off. Qed.
#[local] Hint Resolve j_neg_off : off.
Lemma j_has_quad_y_var_off : forall (a0 : jac), ref (j_has_quad_y_var_x c a0) (j_has_quad_y_var_x d a0).
Proof. intros. unfold j_has_quad_y_var_x. off. Qed.
#[local] Hint Resolve j_has_quad_y_var_off : off.
Lemma j_double_var_in_place_off : forall (a0 : jac) (a1 : jac) (a2 : option field), ref (j_double_var_in_place_x c a0 a1 a2) (j_double_var_in_place_x d a0 a1 a2).
Proof. intros. unfold j_double_var_in_place_x. off. Qed.
#[local] Hint Resolve j_double_var_in_place_off : off.
Lemma j_double_var_off : forall (a0 : jac) (a1 : option field), ref (j_double_var_x c a0 a1) (j_double_var_x d a0 a1).
Proof. intros. unfold j_double_var_x. off. Qed.
#[local] Hint Resolve j_double_var_off : off.
Lemma j_double_off : forall (a0 : jac), ref (j_double_x c a0) (j_double_x d a0).
Proof. intros. unfold j_double_x. off. Qed.
#[local] Hint Resolve j_double_off : off.
Lemma j_double_nonzero_in_place_off : forall (a0 : jac) (a1 : jac), ref (j_double_nonzero_in_place_x c a0 a1) (j_double_nonzero_in_place_x d a0 a1).
Proof. intros. unfold j_double_nonzero_in_place_x. off. Qed.
#[local] Hint Resolve j_double_nonzero_in_place_off : off.
Lemma j_add_tail_off : forall (a0 : field) (a1 : field) (a2 : field) (a3 : field) (a4 : field) (a5 : field) (a6 : field), ref (j_add_tail_x c a0 a1 a2 a3 a4 a5 a6) (j_add_tail_x d a0 a1 a2 a3 a4 a5 a6).
Proof. intros. unfold j_add_tail_x. off. Qed.
#[local] Hint Resolve j_add_tail_off : off.
Lemma j_add_same_x_off : forall (a0 : jac) (a1 : field) (a2 : option field), ref (j_add_same_x_x c a0 a1 a2) (j_add_same_x_x d a0 a1 a2).
Proof. intros. unfold j_add_same_x_x. off. Qed.
#[local] Hint Resolve j_add_same_x_off : off.
Lemma j_add_var_off : forall (a0 : jac) (a1 : jac) (a2 : option field), ref (j_add_var_x c a0 a1 a2) (j_add_var_x d a0 a1 a2).
Proof. intros. unfold j_add_var_x. off. Qed.
#[local] Hint Resolve j_add_var_off : off.
Lemma j_add_off : forall (a0 : jac) (a1 : jac), ref (j_add_x c a0 a1) (j_add_x d a0 a1).
Proof. intros. unfold j_add_x. off. Qed.
#[local] Hint Resolve j_add_off : off.
Lemma j_add_ge_off : forall (a0 : jac) (a1 : affine), ref (j_add_ge_x c a0 a1) (j_add_ge_x d a0 a1).
Proof. intros. unfold j_add_ge_x. off. Qed.
#[local] Hint Resolve j_add_ge_off : off.
Lemma j_add_ge_var_off : forall (a0 : jac) (a1 : affine) (a2 : option field), ref (j_add_ge_var_x c a0 a1 a2) (j_add_ge_var_x d a0 a1 a2).
Proof. intros. unfold j_add_ge_var_x. off. Qed.
#[local] Hint Resolve j_add_ge_var_off : off.
Lemma j_add_ge_v_off : forall (a0 : jac) (a1 : affine), ref (j_add_ge_v_x c a0 a1) (j_add_ge_v_x d a0 a1).
Proof. intros. unfold j_add_ge_v_x. off. Qed.
#[local] Hint Resolve j_add_ge_v_off : off.
Lemma j_add_zinv_var_off : forall (a0 : jac) (a1 : affine) (a2 : field), ref (j_add_zinv_var_x c a0 a1 a2) (j_add_zinv_var_x d a0 a1 a2).
Proof. intros. unfold j_add_zinv_var_x. off. Qed.
#[local] Hint Resolve j_add_zinv_var_off : off.
Lemma j_rescale_off : forall (a0 : jac) (a1 : field), ref (j_rescale_x c a0 a1) (j_rescale_x d a0 a1).
Proof. intros. unfold j_rescale_x. off. Qed.
#[local] Hint Resolve j_rescale_off : off.
Lemma af_to_storage_off : forall (a0 : affine), ref (af_to_storage_x c a0) (af_to_storage_x d a0).
Proof. intros. unfold af_to_storage_x. off. Qed.
#[local] Hint Resolve af_to_storage_off : off.
Lemma odd_mult_loop_off : forall (a0 : nat) (a1 : jac) (a2 : affine), ref (odd_mult_loop_x c a0 a1 a2) (odd_mult_loop_x d a0 a1 a2).
Proof. induction a0 as [|? ? IH] || induction a0 as [|? IH]; intros; cbn [odd_mult_loop_x]; off. Qed.
#[local] Hint Resolve odd_mult_loop_off : off.
Lemma scale_last_off : forall (a0 : list jac) (a1 : field), ref (scale_last_x c a0 a1) (scale_last_x d a0 a1).
Proof. induction a0 as [|? ? IH] || induction a0 as [|? IH]; intros; cbn [scale_last_x]; off. Qed.
#[local] Hint Resolve scale_last_off : off.
Lemma odd_multiples_table_off : forall (a0 : nat) (a1 : jac), ref (odd_multiples_table_x c a0 a1) (odd_multiples_table_x d a0 a1).
Proof. intros. unfold odd_multiples_table_x. off. Qed.
#[local] Hint Resolve odd_multiples_table_off : off.
Lemma odd_multiples_table_globalz_windowa_off : forall (a0 : jac), ref (odd_multiples_table_globalz_windowa_x c a0) (odd_multiples_table_globalz_windowa_x d a0).
Proof. intros. unfold odd_multiples_table_globalz_windowa_x. off. Qed.
#[local] Hint Resolve odd_multiples_table_globalz_windowa_off : off.
Lemma odd_multiples_table_storage_var_off : forall (a0 : nat) (a1 : jac), ref (odd_multiples_table_storage_var_x c a0 a1) (odd_multiples_table_storage_var_x d a0 a1).
Proof. intros. unfold odd_multiples_table_storage_var_x. off. Qed.
#[local] Hint Resolve odd_multiples_table_storage_var_off : off.
Lemma ecmult_context_new_off : ref (ecmult_context_new_x c) (ecmult_context_new_x d).
Proof. intros. unfold ecmult_context_new_x. off. Qed.
#[local] Hint Resolve ecmult_context_new_off : off.
Lemma run_products_off : forall (a1 : list field) (a0 : field) (a2 : list field), ref (run_products_x c a0 a1 a2) (run_products_x d a0 a1 a2).
Proof. induction a1 as [|? ? IH] || induction a1 as [|? IH]; intros; cbn [run_products_x]; off. Qed.
#[local] Hint Resolve run_products_off : off.
Lemma inv_down_off : forall (a0 : list field) (a1 : list field) (a2 : field) (a3 : list field), ref (inv_down_x c a0 a1 a2 a3) (inv_down_x d a0 a1 a2 a3).
Proof. induction a0 as [|? ? IH] || induction a0 as [|? IH]; intros; cbn [inv_down_x]; off. Qed.
#[local] Hint Resolve inv_down_off : off.
Lemma inv_all_var_off : forall (a0 : list field), ref (inv_all_var_x c a0) (inv_all_var_x d a0).
Proof. intros. unfold inv_all_var_x. off. Qed.
#[local] Hint Resolve inv_all_var_off : off.
Lemma set_all_loop_off : forall (a0 : list jac) (a1 : list field), ref (set_all_loop_x c a0 a1) (set_all_loop_x d a0 a1).
Proof. induction a0 as [|? ? IH] || induction a0 as [|? IH]; intros; cbn [set_all_loop_x]; off. Qed.
#[local] Hint Resolve set_all_loop_off : off.
Lemma set_all_gej_var_off : forall (a0 : list jac), ref (set_all_gej_var_x c a0) (set_all_gej_var_x d a0).
Proof. intros. unfold set_all_gej_var_x. off. Qed.
#[local] Hint Resolve set_all_gej_var_off : off.
Lemma gen_row_off : forall (a0 : nat) (a1 : jac) (a2 : jac), ref (gen_row_x c a0 a1 a2) (gen_row_x d a0 a1 a2).
Proof. induction a0 as [|? ? IH] || induction a0 as [|? IH]; intros; cbn [gen_row_x]; off. Qed.
#[local] Hint Resolve gen_row_off : off.
Lemma gen_rows_off : forall (a0 : nat) (a1 : Z) (a2 : jac) (a3 : jac) (a4 : jac), ref (gen_rows_x c a0 a1 a2 a3 a4) (gen_rows_x d a0 a1 a2 a3 a4).
Proof. induction a0 as [|? ? IH] || induction a0 as [|? IH]; intros; cbn [gen_rows_x]; off. Qed.
#[local] Hint Resolve gen_rows_off : off.
Lemma ecmult_gen_context_new_off : ref (ecmult_gen_context_new_x c) (ecmult_gen_context_new_x d).
Proof. intros. unfold ecmult_gen_context_new_x. off. Qed.
#[local] Hint Resolve ecmult_gen_context_new_off : off.
Lemma digit_asserts_off : forall (a0 : Z) (a1 : Z), ref (digit_asserts_x c a0 a1) (digit_asserts_x d a0 a1).
Proof. intros. unfold digit_asserts_x. off. Qed.
#[local] Hint Resolve digit_asserts_off : off.
Lemma table_get_ge_off : forall (a0 : list affine) (a1 : Z) (a2 : Z), ref (table_get_ge_x c a0 a1 a2) (table_get_ge_x d a0 a1 a2).
Proof. intros. unfold table_get_ge_x. off. Qed.
#[local] Hint Resolve table_get_ge_off : off.
Lemma table_get_ge_const_off : forall (a0 : affine) (a1 : list affine) (a2 : Z) (a3 : Z), ref (table_get_ge_const_x c a0 a1 a2 a3) (table_get_ge_const_x d a0 a1 a2 a3).
Proof. intros. unfold table_get_ge_const_x. off. Qed.
#[local] Hint Resolve table_get_ge_const_off : off.
Lemma table_get_ge_storage_off : forall (a0 : list astorage) (a1 : Z) (a2 : Z), ref (table_get_ge_storage_x c a0 a1 a2) (table_get_ge_storage_x d a0 a1 a2).
Proof. intros. unfold table_get_ge_storage_x. off. Qed.
#[local] Hint Resolve table_get_ge_storage_off : off.
Lemma wnaf_loop_off : forall (a0 : nat) (a1 : scalar) (a2 : Z) (a3 : Z) (a4 : Z) (a5 : Z) (a6 : Z) (a7 : Z) (a8 : list Z), ref (wnaf_loop_x c a0 a1 a2 a3 a4 a5 a6 a7 a8) (wnaf_loop_x d a0 a1 a2 a3 a4 a5 a6 a7 a8).
Proof. induction a0 as [|? ? IH] || induction a0 as [|? IH]; intros; cbn [wnaf_loop_x]; off. Qed.
#[local] Hint Resolve wnaf_loop_off : off.
Lemma high_bits_zero_off : forall (a0 : nat) (a1 : scalar) (a2 : Z), ref (high_bits_zero_x c a0 a1 a2) (high_bits_zero_x d a0 a1 a2).
Proof. induction a0 as [|? ? IH] || induction a0 as [|? IH]; intros; cbn [high_bits_zero_x]; off. Qed.
#[local] Hint Resolve high_bits_zero_off : off.
Lemma ecmult_wnaf_off : forall (a0 : Z) (a1 : scalar) (a2 : Z), ref (ecmult_wnaf_x c a0 a1 a2) (ecmult_wnaf_x d a0 a1 a2).
Proof. intros. unfold ecmult_wnaf_x. off. Qed.
#[local] Hint Resolve ecmult_wnaf_off : off.
Lemma wnaf_const_loop_off : forall (a0 : nat) (a1 : Z) (a2 : Z) (a3 : scalar) (a4 : Z) (a5 : Z) (a6 : Z) (a7 : list Z), ref (wnaf_const_loop_x c a0 a1 a2 a3 a4 a5 a6 a7) (wnaf_const_loop_x d a0 a1 a2 a3 a4 a5 a6 a7).
Proof. induction a0 as [|? ? IH] || induction a0 as [|? IH]; intros; cbn [wnaf_const_loop_x]; off. Qed.
#[local] Hint Resolve wnaf_const_loop_off : off.
Lemma ecmult_wnaf_const_off : forall (a0 : Z) (a1 : scalar) (a2 : Z), ref (ecmult_wnaf_const_x c a0 a1 a2) (ecmult_wnaf_const_x d a0 a1 a2).
Proof. intros. unfold ecmult_wnaf_const_x. off. Qed.
#[local] Hint Resolve ecmult_wnaf_const_off : off.
Lemma ecmult_loop_off : forall (a0 : nat) (a1 : list astorage) (a2 : list affine) (a3 : field) (a4 : list Z) (a5 : list Z) (a6 : Z) (a7 : Z) (a8 : jac), ref (ecmult_loop_x c a0 a1 a2 a3 a4 a5 a6 a7 a8) (ecmult_loop_x d a0 a1 a2 a3 a4 a5 a6 a7 a8).
Proof. induction a0 as [|? ? IH] || induction a0 as [|? IH]; intros; cbn [ecmult_loop_x]; off. Qed.
#[local] Hint Resolve ecmult_loop_off : off.
Lemma ecmult_off : forall (a0 : ecctx) (a1 : jac) (a2 : scalar) (a3 : scalar), ref (ecmult_x c a0 a1 a2 a3) (ecmult_x d a0 a1 a2 a3).
Proof. intros. unfold ecmult_x. off. Qed.
#[local] Hint Resolve ecmult_off : off.
Lemma double_nonzero_n_off : forall (a0 : nat) (a1 : jac), ref (double_nonzero_n_x c a0 a1) (double_nonzero_n_x d a0 a1).
Proof. induction a0 as [|? ? IH] || induction a0 as [|? IH]; intros; cbn [double_nonzero_n_x]; off. Qed.
#[local] Hint Resolve double_nonzero_n_off : off.
Lemma ecmult_const_loop_off : forall (a0 : nat) (a1 : list affine) (a2 : list Z) (a3 : affine) (a4 : jac), ref (ecmult_const_loop_x c a0 a1 a2 a3 a4) (ecmult_const_loop_x d a0 a1 a2 a3 a4).
Proof. induction a0 as [|? ? IH] || induction a0 as [|? IH]; intros; cbn [ecmult_const_loop_x]; off. Qed.
#[local] Hint Resolve ecmult_const_loop_off : off.
Lemma ecmult_const_off : forall (a0 : affine) (a1 : scalar), ref (ecmult_const_x c a0 a1) (ecmult_const_x d a0 a1).
Proof. intros. unfold ecmult_const_x. off. Qed.
#[local] Hint Resolve ecmult_const_off : off.
Lemma ecmult_gen_loop_off : forall (a0 : list (list astorage)) (a1 : Z) (a2 : scalar) (a3 : astorage) (a4 : jac), ref (ecmult_gen_loop_x c a0 a1 a2 a3 a4) (ecmult_gen_loop_x d a0 a1 a2 a3 a4).
Proof. induction a0 as [|? ? IH] || induction a0 as [|? IH]; intros; cbn [ecmult_gen_loop_x]; off. Qed.
#[local] Hint Resolve ecmult_gen_loop_off : off.
Lemma ecmult_gen_off : forall (a0 : genctx) (a1 : scalar), ref (ecmult_gen_x c a0 a1) (ecmult_gen_x d a0 a1).
Proof. intros. unfold ecmult_gen_x. off. Qed.
#[local] Hint Resolve ecmult_gen_off : off.
Lemma verify_raw_off : forall (a0 : ecctx) (a1 : scalar) (a2 : scalar) (a3 : affine) (a4 : scalar), ref (verify_raw_x c a0 a1 a2 a3 a4) (verify_raw_x d a0 a1 a2 a3 a4).
Proof. intros. unfold verify_raw_x. off. Qed.
#[local] Hint Resolve verify_raw_off : off.
Lemma recover_raw_off : forall (a0 : ecctx) (a1 : scalar) (a2 : scalar) (a3 : Z) (a4 : scalar), ref (recover_raw_x c a0 a1 a2 a3 a4) (recover_raw_x d a0 a1 a2 a3 a4).
Proof. intros. unfold recover_raw_x. off. Qed.
#[local] Hint Resolve recover_raw_off : off.
Lemma sign_raw_off : forall (a0 : genctx) (a1 : scalar) (a2 : scalar) (a3 : scalar), ref (sign_raw_x c a0 a1 a2 a3) (sign_raw_x d a0 a1 a2 a3).
Proof. intros. unfold sign_raw_x. off. Qed.
#[local] Hint Resolve sign_raw_off : off.
Lemma ecdh_raw_off : forall (a0 : (list Z -> list Z)) (a1 : affine) (a2 : scalar), ref (ecdh_raw_x c a0 a1 a2) (ecdh_raw_x d a0 a1 a2).
Proof. intros. unfold ecdh_raw_x. off. Qed.
#[local] Hint Resolve ecdh_raw_off : off.
Lemma read_len_loop_off : forall (a0 : nat) (a1 : Z) (a2 : decoder), ref (read_len_loop_x c a0 a1 a2) (read_len_loop_x d a0 a1 a2).
Proof. induction a0 as [|? ? IH] || induction a0 as [|? IH]; intros; cbn [read_len_loop_x]; off. Qed.
#[local] Hint Resolve read_len_loop_off : off.
Lemma d_read_len_off : forall (a0 : decoder), ref (d_read_len_x c a0) (d_read_len_x d a0).
Proof. intros. unfold d_read_len_x. off. Qed.
#[local] Hint Resolve d_read_len_off : off.
Lemma read_scalar_off : forall (a0 : decoder) (a1 : Z), ref (read_scalar_x c a0 a1) (read_scalar_x d a0 a1).
Proof. intros. unfold read_scalar_x. off. Qed.
#[local] Hint Resolve read_scalar_off : off.
Lemma d_read_integer_off : forall (a0 : decoder), ref (d_read_integer_x c a0) (d_read_integer_x d a0).
Proof. intros. unfold d_read_integer_x. off. Qed.
#[local] Hint Resolve d_read_integer_off : off.
Lemma d_read_seq_len_lax_off : forall (a0 : decoder), ref (d_read_seq_len_lax_x c a0) (d_read_seq_len_lax_x d a0).
Proof. intros. unfold d_read_seq_len_lax_x. off. Qed.
#[local] Hint Resolve d_read_seq_len_lax_off : off.
Lemma lax_len_loop_off : forall (a0 : nat) (a1 : Z) (a2 : decoder), ref (lax_len_loop_x c a0 a1 a2) (lax_len_loop_x d a0 a1 a2).
Proof. induction a0 as [|? ? IH] || induction a0 as [|? IH]; intros; cbn [lax_len_loop_x]; off. Qed.
#[local] Hint Resolve lax_len_loop_off : off.
Lemma d_read_len_lax_off : forall (a0 : decoder), ref (d_read_len_lax_x c a0) (d_read_len_lax_x d a0).
Proof. intros. unfold d_read_len_lax_x. off. Qed.
#[local] Hint Resolve d_read_len_lax_off : off.
Lemma d_read_integer_lax_off : forall (a0 : decoder), ref (d_read_integer_lax_x c a0) (d_read_integer_lax_x d a0).
Proof. intros. unfold d_read_integer_lax_x. off. Qed.
#[local] Hint Resolve d_read_integer_lax_off : off.
Lemma pk_from_secret_key_off : forall (a0 : genctx) (a1 : seckey), ref (pk_from_secret_key_x c a0 a1) (pk_from_secret_key_x d a0 a1).
Proof. intros. unfold pk_from_secret_key_x. off. Qed.
#[local] Hint Resolve pk_from_secret_key_off : off.
Lemma pk_parse_off : forall (a0 : list Z), ref (pk_parse_x c a0) (pk_parse_x d a0).
Proof. intros. unfold pk_parse_x. off. Qed.
#[local] Hint Resolve pk_parse_off : off.
Lemma pk_parse_compressed_off : forall (a0 : list Z), ref (pk_parse_compressed_x c a0) (pk_parse_compressed_x d a0).
Proof. intros. unfold pk_parse_compressed_x. off. Qed.
#[local] Hint Resolve pk_parse_compressed_off : off.
Lemma pk_parse_slice_off : forall (a0 : list Z) (a1 : option pkformat), ref (pk_parse_slice_x c a0 a1) (pk_parse_slice_x d a0 a1).
Proof. intros. unfold pk_parse_slice_x. off. Qed.
#[local] Hint Resolve pk_parse_slice_off : off.
Lemma pk_serialize_off : forall (a0 : pubkey), ref (pk_serialize_x c a0) (pk_serialize_x d a0).
Proof. intros. unfold pk_serialize_x. off. Qed.
#[local] Hint Resolve pk_serialize_off : off.
Lemma pk_serialize_compressed_off : forall (a0 : pubkey), ref (pk_serialize_compressed_x c a0) (pk_serialize_compressed_x d a0).
Proof. intros. unfold pk_serialize_compressed_x. off. Qed.
#[local] Hint Resolve pk_serialize_compressed_off : off.
Lemma pk_eq_off : forall (a0 : pubkey) (a1 : pubkey), ref (pk_eq_x c a0 a1) (pk_eq_x d a0 a1).
Proof. intros. unfold pk_eq_x. off. Qed.
#[local] Hint Resolve pk_eq_off : off.
Lemma pk_tweak_add_assign_off : forall (a0 : ecctx) (a1 : pubkey) (a2 : seckey), ref (pk_tweak_add_assign_x c a0 a1 a2) (pk_tweak_add_assign_x d a0 a1 a2).
Proof. intros. unfold pk_tweak_add_assign_x. off. Qed.
#[local] Hint Resolve pk_tweak_add_assign_off : off.
Lemma pk_tweak_mul_assign_off : forall (a0 : ecctx) (a1 : pubkey) (a2 : seckey), ref (pk_tweak_mul_assign_x c a0 a1 a2) (pk_tweak_mul_assign_x d a0 a1 a2).
Proof. intros. unfold pk_tweak_mul_assign_x. off. Qed.
#[local] Hint Resolve pk_tweak_mul_assign_off : off.
Lemma combine_loop_off : forall (a1 : list pubkey) (a0 : jac), ref (combine_loop_x c a0 a1) (combine_loop_x d a0 a1).
Proof. induction a1 as [|? ? IH] || induction a1 as [|? IH]; intros; cbn [combine_loop_x]; off. Qed.
#[local] Hint Resolve combine_loop_off : off.
Lemma pk_combine_off : forall (a0 : list pubkey), ref (pk_combine_x c a0) (pk_combine_x d a0).
Proof. intros. unfold pk_combine_x. off. Qed.
#[local] Hint Resolve pk_combine_off : off.
Lemma pk_try_from_off : forall (a0 : affine), ref (pk_try_from_x c a0) (pk_try_from_x d a0).
Proof. intros. unfold pk_try_from_x. off. Qed.
#[local] Hint Resolve pk_try_from_off : off.
Lemma sk_parse_off : forall (a0 : list Z), ref (sk_parse_x c a0) (sk_parse_x d a0).
Proof. intros. unfold sk_parse_x. off. Qed.
#[local] Hint Resolve sk_parse_off : off.
Lemma sk_parse_slice_off : forall (a0 : list Z), ref (sk_parse_slice_x c a0) (sk_parse_slice_x d a0).
Proof. intros. unfold sk_parse_slice_x. off. Qed.
#[local] Hint Resolve sk_parse_slice_off : off.
Lemma sk_tweak_add_assign_off : forall (a0 : seckey) (a1 : seckey), ref (sk_tweak_add_assign_x c a0 a1) (sk_tweak_add_assign_x d a0 a1).
Proof. intros. unfold sk_tweak_add_assign_x. off. Qed.
#[local] Hint Resolve sk_tweak_add_assign_off : off.
Lemma sk_tweak_mul_assign_off : forall (a0 : seckey) (a1 : seckey), ref (sk_tweak_mul_assign_x c a0 a1) (sk_tweak_mul_assign_x d a0 a1).
Proof. intros. unfold sk_tweak_mul_assign_x. off. Qed.
#[local] Hint Resolve sk_tweak_mul_assign_off : off.
Lemma sk_inv_off : forall (a0 : seckey), ref (sk_inv_x c a0) (sk_inv_x d a0).
Proof. intros. unfold sk_inv_x. off. Qed.
#[local] Hint Resolve sk_inv_off : off.
Lemma sk_default_off : ref (sk_default_x c) (sk_default_x d).
Proof. intros. unfold sk_default_x. off. Qed.
#[local] Hint Resolve sk_default_off : off.
Lemma sig_parse_overflowing_off : forall (a0 : list Z), ref (sig_parse_overflowing_x c a0) (sig_parse_overflowing_x d a0).
Proof. intros. unfold sig_parse_overflowing_x. off. Qed.
#[local] Hint Resolve sig_parse_overflowing_off : off.
Lemma sig_parse_standard_off : forall (a0 : list Z), ref (sig_parse_standard_x c a0) (sig_parse_standard_x d a0).
Proof. intros. unfold sig_parse_standard_x. off. Qed.
#[local] Hint Resolve sig_parse_standard_off : off.
Lemma sig_parse_overflowing_slice_off : forall (a0 : list Z), ref (sig_parse_overflowing_slice_x c a0) (sig_parse_overflowing_slice_x d a0).
Proof. intros. unfold sig_parse_overflowing_slice_x. off. Qed.
#[local] Hint Resolve sig_parse_overflowing_slice_off : off.
Lemma sig_parse_standard_slice_off : forall (a0 : list Z), ref (sig_parse_standard_slice_x c a0) (sig_parse_standard_slice_x d a0).
Proof. intros. unfold sig_parse_standard_slice_x. off. Qed.
#[local] Hint Resolve sig_parse_standard_slice_off : off.
Lemma sig_parse_der_off : forall (a0 : list Z), ref (sig_parse_der_x c a0) (sig_parse_der_x d a0).
Proof. intros. unfold sig_parse_der_x. off. Qed.
#[local] Hint Resolve sig_parse_der_off : off.
Lemma sig_parse_der_lax_off : forall (a0 : list Z), ref (sig_parse_der_lax_x c a0) (sig_parse_der_lax_x d a0).
Proof. intros. unfold sig_parse_der_lax_x. off. Qed.
#[local] Hint Resolve sig_parse_der_lax_off : off.
Lemma sig_normalize_s_off : forall (a0 : signature), ref (sig_normalize_s_x c a0) (sig_normalize_s_x d a0).
Proof. intros. unfold sig_normalize_s_x. off. Qed.
#[local] Hint Resolve sig_normalize_s_off : off.
Lemma msg_parse_off : forall (a0 : list Z), ref (msg_parse_x c a0) (msg_parse_x d a0).
Proof. intros. unfold msg_parse_x. off. Qed.
#[local] Hint Resolve msg_parse_off : off.
Lemma msg_parse_slice_off : forall (a0 : list Z), ref (msg_parse_slice_x c a0) (msg_parse_slice_x d a0).
Proof. intros. unfold msg_parse_slice_x. off. Qed.
#[local] Hint Resolve msg_parse_slice_off : off.
Lemma shared_secret_new_off : forall (a0 : (list Z -> list Z)) (a1 : pubkey) (a2 : seckey), ref (shared_secret_new_x c a0 a1 a2) (shared_secret_new_x d a0 a1 a2).
Proof. intros. unfold shared_secret_new_x. off. Qed.
#[local] Hint Resolve shared_secret_new_off : off.
Lemma verify_off : forall (a0 : ecctx) (a1 : message) (a2 : signature) (a3 : pubkey), ref (verify_x c a0 a1 a2 a3) (verify_x d a0 a1 a2 a3).
Proof. intros. unfold verify_x. off. Qed.
#[local] Hint Resolve verify_off : off.
Lemma recover_off : forall (a0 : ecctx) (a1 : message) (a2 : signature) (a3 : recid), ref (recover_x c a0 a1 a2 a3) (recover_x d a0 a1 a2 a3).
Proof. intros. unfold recover_x. off. Qed.
#[local] Hint Resolve recover_off : off.
Lemma pk_ser_off : forall (a0 : (list Z -> list Z)) (a1 : bool) (a2 : pubkey), ref (pk_ser_x c a0 a1 a2) (pk_ser_x d a0 a1 a2).
Proof. intros. unfold pk_ser_x. off. Qed.
#[local] Hint Resolve pk_ser_off : off.
Lemma pk_de_off : forall (a0 : (list Z -> option (list Z))) (a1 : bool) (a2 : list Z), ref (pk_de_x c a0 a1 a2) (pk_de_x d a0 a1 a2).
Proof. intros. unfold pk_de_x. off. Qed.
#[local] Hint Resolve pk_de_off : off.
End Off.
