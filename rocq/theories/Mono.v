(** Whatever a debug build computes without panicking, a release build computes too: one lemma per function of the model. *)
From Verif Require Import Word MField MScalar MGroup MEcmult MEcdsa MDer MApi.

(** Every normal return of [x] is a normal return of [y]. *)
Definition ref {A} (x y : option A) : Prop := forall r, x = Some r -> y = Some r.
Lemma ref_refl {A} (x : option A) : ref x x. Proof. intros r H. exact H. Qed.
Lemma ref_none {A} (x : option A) : ref None x. Proof. intros r H. discriminate H. Qed.
Lemma ref_unit (x : option unit) : ref x (Some tt). Proof. intros [] _. reflexivity. Qed.
Lemma ref_bind {A B} (x y : option A) (f g : A -> option B) : ref x y -> (forall a, ref (f a) (g a)) -> ref (bind x f) (bind y g).
Proof. intros H K r. destruct x as [a|]; [|discriminate]. rewrite (H a eq_refl). apply K. Qed.
Lemma ref_rbind {A B} (x y : option (result A)) (f g : A -> option (result B)) : ref x y -> (forall a, ref (f a) (g a)) -> ref (rbind x f) (rbind y g).
Proof. intros H K r. destruct x as [[a|e]|]; [| |discriminate]; rewrite (H _ eq_refl); cbn [rbind]; [apply K | auto]. Qed.
Lemma ref_mapo {A B} (f g : A -> option B) l : (forall a, ref (f a) (g a)) -> ref (mapo f l) (mapo g l).
Proof. intros H. induction l as [|a l IH]; cbn [mapo]; [apply ref_refl|]. apply ref_bind; [apply H|]. intros b. apply ref_bind; [exact IH|]. intros. apply ref_refl. Qed.
Lemma uchk_ref w v : ref (uchk w true v) (uchk w false v).
Proof. unfold uchk. destruct (_ && _); [apply ref_refl | apply ref_none]. Qed.
Lemma ichk_ref v : ref (ichk true v) (ichk false v).
Proof. unfold ichk. destruct (_ && _); [apply ref_refl | apply ref_none]. Qed.
Lemma dassert_ref b : ref (dassert true b) (dassert false b).
Proof. apply ref_unit. Qed.
Create HintDb mono discriminated.
#[global] Hint Constants Opaque : mono.
#[global] Hint Variables Opaque : mono.
#[global] Hint Transparent pubkey seckey message recid decoder acc : mono.
#[global] Hint Resolve uchk_ref ichk_ref dassert_ref : mono.
Lemma add32_ref a b : ref (add32 true a b) (add32 false a b). Proof. apply uchk_ref. Qed.
Lemma sub32_ref a b : ref (sub32 true a b) (sub32 false a b). Proof. apply uchk_ref. Qed.
Lemma mul32_ref a b : ref (mul32 true a b) (mul32 false a b). Proof. apply uchk_ref. Qed.
Lemma add64_ref a b : ref (add64 true a b) (add64 false a b). Proof. apply uchk_ref. Qed.
Lemma sub64_ref a b : ref (sub64 true a b) (sub64 false a b). Proof. apply uchk_ref. Qed.
Lemma mul64_ref a b : ref (mul64 true a b) (mul64 false a b). Proof. apply uchk_ref. Qed.
Lemma add8_ref a b : ref (add8 true a b) (add8 false a b). Proof. apply uchk_ref. Qed.
Lemma sub8_ref a b : ref (sub8 true a b) (sub8 false a b). Proof. apply uchk_ref. Qed.
#[global] Hint Resolve add32_ref sub32_ref mul32_ref add64_ref sub64_ref mul64_ref add8_ref sub8_ref : mono.
Ltac mono1 :=
  lazymatch goal with
  | |- ref ?x ?x => apply ref_refl
  | |- ref None _ => apply ref_none
  | |- ref _ (Some tt) => apply ref_unit
  | |- ref (bind _ _) (bind _ _) => apply ref_bind; [|intros ?]
  | |- ref (rbind _ _) (rbind _ _) => apply ref_rbind; [|intros ?]
  | |- ref (mapo _ _) (mapo _ _) => apply ref_mapo; intros ?
  | |- ref (if true then _ else _) (if false then _ else _) => cbv beta iota
  | |- ref (match ?e with _ => _ end) (match ?e with _ => _ end) => destruct e
  | IH : forall _, _ |- _ => first [apply IH | solve [auto with mono nocore]]
  | |- _ => solve [auto with mono nocore]
  end.
Ltac mono := repeat mono1.

Lemma f_normalize_ref : forall (a0 : field), ref (f_normalize true a0) (f_normalize false a0).
Proof. intros. unfold f_normalize. mono. Qed.
#[global] Hint Resolve f_normalize_ref : mono.
Lemma f_normalize_weak_ref : forall (a0 : field), ref (f_normalize_weak true a0) (f_normalize_weak false a0).
Proof. intros. unfold f_normalize_weak. mono. Qed.
#[global] Hint Resolve f_normalize_weak_ref : mono.
Lemma f_normalize_var_ref : forall (a0 : field), ref (f_normalize_var true a0) (f_normalize_var false a0).
Proof. intros. unfold f_normalize_var. mono. Qed.
#[global] Hint Resolve f_normalize_var_ref : mono.
Lemma f_normalizes_to_zero_ref : forall (a0 : field), ref (f_normalizes_to_zero true a0) (f_normalizes_to_zero false a0).
Proof. intros. unfold f_normalizes_to_zero. mono. Qed.
#[global] Hint Resolve f_normalizes_to_zero_ref : mono.
Lemma f_normalizes_to_zero_var_ref : forall (a0 : field), ref (f_normalizes_to_zero_var true a0) (f_normalizes_to_zero_var false a0).
Proof. intros. unfold f_normalizes_to_zero_var. mono. Qed.
#[global] Hint Resolve f_normalizes_to_zero_var_ref : mono.
Lemma f_set_int_ref : forall (a0 : Z), ref (f_set_int true a0) (f_set_int false a0).
Proof. intros. unfold f_set_int. mono. Qed.
#[global] Hint Resolve f_set_int_ref : mono.
Lemma f_is_zero_ref : forall (a0 : field), ref (f_is_zero true a0) (f_is_zero false a0).
Proof. intros. unfold f_is_zero. mono. Qed.
#[global] Hint Resolve f_is_zero_ref : mono.
Lemma f_is_odd_ref : forall (a0 : field), ref (f_is_odd true a0) (f_is_odd false a0).
Proof. intros. unfold f_is_odd. mono. Qed.
#[global] Hint Resolve f_is_odd_ref : mono.
Lemma f_set_b32_ref : forall (a0 : field) (a1 : list Z), ref (f_set_b32 true a0 a1) (f_set_b32 false a0 a1).
Proof. intros. unfold f_set_b32. mono. Qed.
#[global] Hint Resolve f_set_b32_ref : mono.
Lemma f_b32_ref : forall (a0 : field), ref (f_b32 true a0) (f_b32 false a0).
Proof. intros. unfold f_b32. mono. Qed.
#[global] Hint Resolve f_b32_ref : mono.
Lemma f_neg_limb_ref : forall (a0 : Z) (a1 : Z) (a2 : Z), ref (f_neg_limb true a0 a1 a2) (f_neg_limb false a0 a1 a2).
Proof. intros. unfold f_neg_limb. mono. Qed.
#[global] Hint Resolve f_neg_limb_ref : mono.
Lemma f_neg_ref : forall (a0 : field) (a1 : Z), ref (f_neg true a0 a1) (f_neg false a0 a1).
Proof. intros. unfold f_neg. mono. Qed.
#[global] Hint Resolve f_neg_ref : mono.
Lemma f_mul_int_ref : forall (a0 : field) (a1 : Z), ref (f_mul_int true a0 a1) (f_mul_int false a0 a1).
Proof. intros. unfold f_mul_int. mono. Qed.
#[global] Hint Resolve f_mul_int_ref : mono.
Lemma f_add_ref : forall (a0 : field) (a1 : field), ref (f_add true a0 a1) (f_add false a0 a1).
Proof. intros. unfold f_add. mono. Qed.
#[global] Hint Resolve f_add_ref : mono.
Lemma f_cmp_var_ref : forall (a0 : field) (a1 : field), ref (f_cmp_var true a0 a1) (f_cmp_var false a0 a1).
Proof. intros. unfold f_cmp_var. mono. Qed.
#[global] Hint Resolve f_cmp_var_ref : mono.
Lemma f_ge_ref : forall (a0 : field) (a1 : field), ref (f_ge true a0 a1) (f_ge false a0 a1).
Proof. intros. unfold f_ge. mono. Qed.
#[global] Hint Resolve f_ge_ref : mono.
Lemma f_eq_var_ref : forall (a0 : field) (a1 : field), ref (f_eq_var true a0 a1) (f_eq_var false a0 a1).
Proof. intros. unfold f_eq_var. mono. Qed.
#[global] Hint Resolve f_eq_var_ref : mono.
Lemma f_eq_ref : forall (a0 : field) (a1 : field), ref (f_eq true a0 a1) (f_eq false a0 a1).
Proof. intros. unfold f_eq. mono. Qed.
#[global] Hint Resolve f_eq_ref : mono.
Lemma f_mul_inner_ref : forall (a0 : field) (a1 : field), ref (f_mul_inner true a0 a1) (f_mul_inner false a0 a1).
Proof. intros. unfold f_mul_inner. mono. Qed.
#[global] Hint Resolve f_mul_inner_ref : mono.
Lemma f_sqr_inner_ref : forall (a0 : field), ref (f_sqr_inner true a0) (f_sqr_inner false a0).
Proof. intros. unfold f_sqr_inner. mono. Qed.
#[global] Hint Resolve f_sqr_inner_ref : mono.
Lemma f_mul_ref : forall (a0 : field) (a1 : field), ref (f_mul true a0 a1) (f_mul false a0 a1).
Proof. intros. unfold f_mul. mono. Qed.
#[global] Hint Resolve f_mul_ref : mono.
Lemma f_sqr_ref : forall (a0 : field), ref (f_sqr true a0) (f_sqr false a0).
Proof. intros. unfold f_sqr. mono. Qed.
#[global] Hint Resolve f_sqr_ref : mono.
Lemma f_sqr_n_ref : forall (a0 : nat) (a1 : field), ref (f_sqr_n true a0 a1) (f_sqr_n false a0 a1).
Proof. induction a0 as [|? ? IH] || induction a0 as [|? IH]; intros; cbn [f_sqr_n]; mono. Qed.
#[global] Hint Resolve f_sqr_n_ref : mono.
Lemma f_chain223_ref : forall (a0 : field), ref (f_chain223 true a0) (f_chain223 false a0).
Proof. intros. unfold f_chain223. mono. Qed.
#[global] Hint Resolve f_chain223_ref : mono.
Lemma f_sqrt_ref : forall (a0 : field), ref (f_sqrt true a0) (f_sqrt false a0).
Proof. intros. unfold f_sqrt. mono. Qed.
#[global] Hint Resolve f_sqrt_ref : mono.
Lemma f_inv_ref : forall (a0 : field), ref (f_inv true a0) (f_inv false a0).
Proof. intros. unfold f_inv. mono. Qed.
#[global] Hint Resolve f_inv_ref : mono.
Lemma f_is_quad_var_ref : forall (a0 : field), ref (f_is_quad_var true a0) (f_is_quad_var false a0).
Proof. intros. unfold f_is_quad_var. mono. Qed.
#[global] Hint Resolve f_is_quad_var_ref : mono.
Lemma f_to_storage_ref : forall (a0 : field), ref (f_to_storage true a0) (f_to_storage false a0).
Proof. intros. unfold f_to_storage. mono. Qed.
#[global] Hint Resolve f_to_storage_ref : mono.
Lemma shlc32_ref : forall (a0 : Z) (a1 : Z), ref (shlc32 true a0 a1) (shlc32 false a0 a1).
Proof. intros. unfold shlc32. mono. Qed.
#[global] Hint Resolve shlc32_ref : mono.
Lemma shrc32_ref : forall (a0 : Z) (a1 : Z), ref (shrc32 true a0 a1) (shrc32 false a0 a1).
Proof. intros. unfold shrc32. mono. Qed.
#[global] Hint Resolve shrc32_ref : mono.
Lemma choice_from_ref : forall (a0 : Z), ref (choice_from true a0) (choice_from false a0).
Proof. intros. unfold choice_from. mono. Qed.
#[global] Hint Resolve choice_from_ref : mono.
Lemma s_bits_ref : forall (a0 : scalar) (a1 : Z) (a2 : Z), ref (s_bits true a0 a1 a2) (s_bits false a0 a1 a2).
Proof. intros. unfold s_bits. mono. Qed.
#[global] Hint Resolve s_bits_ref : mono.
Lemma s_bits_var_ref : forall (a0 : scalar) (a1 : Z) (a2 : Z), ref (s_bits_var true a0 a1 a2) (s_bits_var false a0 a1 a2).
Proof. intros. unfold s_bits_var. mono. Qed.
#[global] Hint Resolve s_bits_var_ref : mono.
Lemma s_reduce_ref : forall (a0 : scalar) (a1 : Z), ref (s_reduce true a0 a1) (s_reduce false a0 a1).
Proof. intros. unfold s_reduce. mono. Qed.
#[global] Hint Resolve s_reduce_ref : mono.
Lemma cadd_step_ref : forall (a0 : Z) (a1 : Z) (a2 : Z) (a3 : Z), ref (cadd_step true a0 a1 a2 a3) (cadd_step false a0 a1 a2 a3).
Proof. intros. unfold cadd_step. mono. Qed.
#[global] Hint Resolve cadd_step_ref : mono.
Lemma s_cadd_bit_ref : forall (a0 : scalar) (a1 : Z) (a2 : bool), ref (s_cadd_bit true a0 a1 a2) (s_cadd_bit false a0 a1 a2).
Proof. intros. unfold s_cadd_bit. mono. Qed.
#[global] Hint Resolve s_cadd_bit_ref : mono.
Lemma s_set_b32_ref : forall (a0 : list Z), ref (s_set_b32 true a0) (s_set_b32 false a0).
Proof. intros. unfold s_set_b32. mono. Qed.
#[global] Hint Resolve s_set_b32_ref : mono.
Lemma cneg_step_ref : forall (a0 : Z) (a1 : Z) (a2 : Z) (a3 : Z) (a4 : Z), ref (cneg_step true a0 a1 a2 a3 a4) (cneg_step false a0 a1 a2 a3 a4).
Proof. intros. unfold cneg_step. mono. Qed.
#[global] Hint Resolve cneg_step_ref : mono.
Lemma s_cond_neg_ref : forall (a0 : scalar) (a1 : bool), ref (s_cond_neg true a0 a1) (s_cond_neg false a0 a1).
Proof. intros. unfold s_cond_neg. mono. Qed.
#[global] Hint Resolve s_cond_neg_ref : mono.
Lemma s_neg_ref : forall (a0 : scalar), ref (s_neg true a0) (s_neg false a0).
Proof. intros. unfold s_neg. mono. Qed.
#[global] Hint Resolve s_neg_ref : mono.
Lemma a_muladd_ref : forall (a0 : Z) (a1 : Z) (a2 : acc), ref (a_muladd true a0 a1 a2) (a_muladd false a0 a1 a2).
Proof. intros. unfold a_muladd. mono. Qed.
#[global] Hint Resolve a_muladd_ref : mono.
Lemma a_muladd_fast_ref : forall (a0 : Z) (a1 : Z) (a2 : acc), ref (a_muladd_fast true a0 a1 a2) (a_muladd_fast false a0 a1 a2).
Proof. intros. unfold a_muladd_fast. mono. Qed.
#[global] Hint Resolve a_muladd_fast_ref : mono.
Lemma a_muladd2_ref : forall (a0 : Z) (a1 : Z) (a2 : acc), ref (a_muladd2 true a0 a1 a2) (a_muladd2 false a0 a1 a2).
Proof. intros. unfold a_muladd2. mono. Qed.
#[global] Hint Resolve a_muladd2_ref : mono.
Lemma a_sumadd_fast_ref : forall (a0 : Z) (a1 : acc), ref (a_sumadd_fast true a0 a1) (a_sumadd_fast false a0 a1).
Proof. intros. unfold a_sumadd_fast. mono. Qed.
#[global] Hint Resolve a_sumadd_fast_ref : mono.
Lemma a_extract_fast_ref : forall (a0 : acc), ref (a_extract_fast true a0) (a_extract_fast false a0).
Proof. intros. unfold a_extract_fast. mono. Qed.
#[global] Hint Resolve a_extract_fast_ref : mono.
Lemma s_red_a_ref : forall (a0 : list Z), ref (s_red_a true a0) (s_red_a false a0).
Proof. intros. unfold s_red_a. mono. Qed.
#[global] Hint Resolve s_red_a_ref : mono.
Lemma s_red_b_ref : forall (a0 : list Z), ref (s_red_b true a0) (s_red_b false a0).
Proof. intros. unfold s_red_b. mono. Qed.
#[global] Hint Resolve s_red_b_ref : mono.
Lemma s_red_c_ref : forall (a0 : list Z), ref (s_red_c true a0) (s_red_c false a0).
Proof. intros. unfold s_red_c. mono. Qed.
#[global] Hint Resolve s_red_c_ref : mono.
Lemma s_reduce_512_ref : forall (a0 : list Z), ref (s_reduce_512 true a0) (s_reduce_512 false a0).
Proof. intros. unfold s_reduce_512. mono. Qed.
#[global] Hint Resolve s_reduce_512_ref : mono.
Lemma s_mul_512_ref : forall (a0 : scalar) (a1 : scalar), ref (s_mul_512 true a0 a1) (s_mul_512 false a0 a1).
Proof. intros. unfold s_mul_512. mono. Qed.
#[global] Hint Resolve s_mul_512_ref : mono.
Lemma s_sqr_512_ref : forall (a0 : scalar), ref (s_sqr_512 true a0) (s_sqr_512 false a0).
Proof. intros. unfold s_sqr_512. mono. Qed.
#[global] Hint Resolve s_sqr_512_ref : mono.
Lemma s_mul_ref : forall (a0 : scalar) (a1 : scalar), ref (s_mul true a0 a1) (s_mul false a0 a1).
Proof. intros. unfold s_mul. mono. Qed.
#[global] Hint Resolve s_mul_ref : mono.
Lemma s_sqr_ref : forall (a0 : scalar), ref (s_sqr true a0) (s_sqr false a0).
Proof. intros. unfold s_sqr. mono. Qed.
#[global] Hint Resolve s_sqr_ref : mono.
Lemma s_sqr_n_ref : forall (a0 : nat) (a1 : scalar), ref (s_sqr_n true a0 a1) (s_sqr_n false a0 a1).
Proof. induction a0 as [|? ? IH] || induction a0 as [|? IH]; intros; cbn [s_sqr_n]; mono. Qed.
#[global] Hint Resolve s_sqr_n_ref : mono.
Lemma shr_step_ref : forall (a0 : Z) (a1 : Z) (a2 : Z), ref (shr_step true a0 a1 a2) (shr_step false a0 a1 a2).
Proof. intros. unfold shr_step. mono. Qed.
#[global] Hint Resolve shr_step_ref : mono.
Lemma s_shr_int_ref : forall (a0 : scalar) (a1 : Z), ref (s_shr_int true a0 a1) (s_shr_int false a0 a1).
Proof. intros. unfold s_shr_int. mono. Qed.
#[global] Hint Resolve s_shr_int_ref : mono.
Lemma s_inv_ref : forall (a0 : scalar), ref (s_inv true a0) (s_inv false a0).
Proof. intros. unfold s_inv. mono. Qed.
#[global] Hint Resolve s_inv_ref : mono.
Lemma sadd_step_ref : forall (a0 : Z) (a1 : Z) (a2 : Z), ref (sadd_step true a0 a1 a2) (sadd_step false a0 a1 a2).
Proof. intros. unfold sadd_step. mono. Qed.
#[global] Hint Resolve sadd_step_ref : mono.
Lemma s_add_ref : forall (a0 : scalar) (a1 : scalar), ref (s_add true a0 a1) (s_add false a0 a1).
Proof. intros. unfold s_add. mono. Qed.
#[global] Hint Resolve s_add_ref : mono.
Lemma af_set_xquad_ref : forall (a0 : field), ref (af_set_xquad true a0) (af_set_xquad false a0).
Proof. intros. unfold af_set_xquad. mono. Qed.
#[global] Hint Resolve af_set_xquad_ref : mono.
Lemma af_set_xo_var_ref : forall (a0 : field) (a1 : bool), ref (af_set_xo_var true a0 a1) (af_set_xo_var false a0 a1).
Proof. intros. unfold af_set_xo_var. mono. Qed.
#[global] Hint Resolve af_set_xo_var_ref : mono.
Lemma af_is_valid_var_ref : forall (a0 : affine), ref (af_is_valid_var true a0) (af_is_valid_var false a0).
Proof. intros. unfold af_is_valid_var. mono. Qed.
#[global] Hint Resolve af_is_valid_var_ref : mono.
Lemma af_neg_ref : forall (a0 : affine), ref (af_neg true a0) (af_neg false a0).
Proof. intros. unfold af_neg. mono. Qed.
#[global] Hint Resolve af_neg_ref : mono.
Lemma af_eq_ref : forall (a0 : affine) (a1 : affine), ref (af_eq true a0 a1) (af_eq false a0 a1).
Proof. intros. unfold af_eq. mono. Qed.
#[global] Hint Resolve af_eq_ref : mono.
Lemma af_set_gej_ref : forall (a0 : jac), ref (af_set_gej true a0) (af_set_gej false a0).
Proof. intros. unfold af_set_gej. mono. Qed.
#[global] Hint Resolve af_set_gej_ref : mono.
Lemma af_set_gej_var_ref : forall (a0 : affine) (a1 : jac), ref (af_set_gej_var true a0 a1) (af_set_gej_var false a0 a1).
Proof. intros. unfold af_set_gej_var. mono. Qed.
#[global] Hint Resolve af_set_gej_var_ref : mono.
Lemma af_set_gej_zinv_ref : forall (a0 : jac) (a1 : field), ref (af_set_gej_zinv true a0 a1) (af_set_gej_zinv false a0 a1).
Proof. intros. unfold af_set_gej_zinv. mono. Qed.
#[global] Hint Resolve af_set_gej_zinv_ref : mono.
Lemma set_table_loop_ref : forall (a0 : list jac) (a1 : list field) (a2 : field) (a3 : list affine), ref (set_table_loop true a0 a1 a2 a3) (set_table_loop false a0 a1 a2 a3).
Proof. induction a0 as [|? ? IH] || induction a0 as [|? IH]; intros; cbn [set_table_loop]; mono. Qed.
#[global] Hint Resolve set_table_loop_ref : mono.
Lemma set_table_gej_var_ref : forall (a0 : list jac) (a1 : list field), ref (set_table_gej_var true a0 a1) (set_table_gej_var false a0 a1).
Proof. intros. unfold set_table_gej_var. mono. Qed.
#[global] Hint Resolve set_table_gej_var_ref : mono.
Lemma globalz_set_table_gej_ref : forall (a0 : list jac) (a1 : list field), ref (globalz_set_table_gej true a0 a1) (globalz_set_table_gej false a0 a1).
Proof. intros. unfold globalz_set_table_gej. mono. Qed.
#[global] Hint Resolve globalz_set_table_gej_ref : mono.
Lemma j_set_ge_ref : forall (a0 : affine), ref (j_set_ge true a0) (j_set_ge false a0).
Proof. intros. unfold j_set_ge. mono. Qed.
#[global] Hint Resolve j_set_ge_ref : mono.
Lemma j_eq_x_var_ref : forall (a0 : jac) (a1 : field), ref (j_eq_x_var true a0 a1) (j_eq_x_var false a0 a1).
Proof. intros. unfold j_eq_x_var. mono. Qed.
#[global] Hint Resolve j_eq_x_var_ref : mono.
Lemma j_neg_ref : forall (a0 : jac), ref (j_neg true a0) (j_neg false a0).
Proof. intros. unfold j_neg. mono. Qed.
#[global] Hint Resolve j_neg_ref : mono.
Lemma j_has_quad_y_var_ref : forall (a0 : jac), ref (j_has_quad_y_var true a0) (j_has_quad_y_var false a0).
Proof. intros. unfold j_has_quad_y_var. mono. Qed.
#[global] Hint Resolve j_has_quad_y_var_ref : mono.
Lemma j_double_var_in_place_ref : forall (a0 : jac) (a1 : jac) (a2 : option field), ref (j_double_var_in_place true a0 a1 a2) (j_double_var_in_place false a0 a1 a2).
Proof. intros. unfold j_double_var_in_place. mono. Qed.
#[global] Hint Resolve j_double_var_in_place_ref : mono.
Lemma j_double_var_ref : forall (a0 : jac) (a1 : option field), ref (j_double_var true a0 a1) (j_double_var false a0 a1).
Proof. intros. unfold j_double_var. mono. Qed.
#[global] Hint Resolve j_double_var_ref : mono.
Lemma j_double_ref : forall (a0 : jac), ref (j_double true a0) (j_double false a0).
Proof. intros. unfold j_double. mono. Qed.
#[global] Hint Resolve j_double_ref : mono.
Lemma j_double_nonzero_in_place_ref : forall (a0 : jac) (a1 : jac), ref (j_double_nonzero_in_place true a0 a1) (j_double_nonzero_in_place false a0 a1).
Proof. intros. unfold j_double_nonzero_in_place. mono. Qed.
#[global] Hint Resolve j_double_nonzero_in_place_ref : mono.
Lemma j_add_tail_ref : forall (a0 : field) (a1 : field) (a2 : field) (a3 : field) (a4 : field) (a5 : field) (a6 : field), ref (j_add_tail true a0 a1 a2 a3 a4 a5 a6) (j_add_tail false a0 a1 a2 a3 a4 a5 a6).
Proof. intros. unfold j_add_tail. mono. Qed.
#[global] Hint Resolve j_add_tail_ref : mono.
Lemma j_add_same_x_ref : forall (a0 : jac) (a1 : field) (a2 : option field), ref (j_add_same_x true a0 a1 a2) (j_add_same_x false a0 a1 a2).
Proof. intros. unfold j_add_same_x. mono. Qed.
#[global] Hint Resolve j_add_same_x_ref : mono.
Lemma j_add_var_ref : forall (a0 : jac) (a1 : jac) (a2 : option field), ref (j_add_var true a0 a1 a2) (j_add_var false a0 a1 a2).
Proof. intros. unfold j_add_var. mono. Qed.
#[global] Hint Resolve j_add_var_ref : mono.
Lemma j_add_ref : forall (a0 : jac) (a1 : jac), ref (j_add true a0 a1) (j_add false a0 a1).
Proof. intros. unfold j_add. mono. Qed.
#[global] Hint Resolve j_add_ref : mono.
Lemma j_add_ge_ref : forall (a0 : jac) (a1 : affine), ref (j_add_ge true a0 a1) (j_add_ge false a0 a1).
Proof. intros. unfold j_add_ge. mono. Qed.
#[global] Hint Resolve j_add_ge_ref : mono.
Lemma j_add_ge_var_ref : forall (a0 : jac) (a1 : affine) (a2 : option field), ref (j_add_ge_var true a0 a1 a2) (j_add_ge_var false a0 a1 a2).
Proof. intros. unfold j_add_ge_var. mono. Qed.
#[global] Hint Resolve j_add_ge_var_ref : mono.
Lemma j_add_ge_v_ref : forall (a0 : jac) (a1 : affine), ref (j_add_ge_v true a0 a1) (j_add_ge_v false a0 a1).
Proof. intros. unfold j_add_ge_v. mono. Qed.
#[global] Hint Resolve j_add_ge_v_ref : mono.
Lemma j_add_zinv_var_ref : forall (a0 : jac) (a1 : affine) (a2 : field), ref (j_add_zinv_var true a0 a1 a2) (j_add_zinv_var false a0 a1 a2).
Proof. intros. unfold j_add_zinv_var. mono. Qed.
#[global] Hint Resolve j_add_zinv_var_ref : mono.
Lemma j_rescale_ref : forall (a0 : jac) (a1 : field), ref (j_rescale true a0 a1) (j_rescale false a0 a1).
Proof. intros. unfold j_rescale. mono. Qed.
#[global] Hint Resolve j_rescale_ref : mono.
Lemma af_to_storage_ref : forall (a0 : affine), ref (af_to_storage true a0) (af_to_storage false a0).
Proof. intros. unfold af_to_storage. mono. Qed.
#[global] Hint Resolve af_to_storage_ref : mono.
Lemma odd_mult_loop_ref : forall (a0 : nat) (a1 : jac) (a2 : affine), ref (odd_mult_loop true a0 a1 a2) (odd_mult_loop false a0 a1 a2).
Proof. induction a0 as [|? ? IH] || induction a0 as [|? IH]; intros; cbn [odd_mult_loop]; mono. Qed.
#[global] Hint Resolve odd_mult_loop_ref : mono.
Lemma scale_last_ref : forall (a0 : list jac) (a1 : field), ref (scale_last true a0 a1) (scale_last false a0 a1).
Proof. induction a0 as [|? ? IH] || induction a0 as [|? IH]; intros; cbn [scale_last]; mono. Qed.
#[global] Hint Resolve scale_last_ref : mono.
Lemma odd_multiples_table_ref : forall (a0 : nat) (a1 : jac), ref (odd_multiples_table true a0 a1) (odd_multiples_table false a0 a1).
Proof. intros. unfold odd_multiples_table. mono. Qed.
#[global] Hint Resolve odd_multiples_table_ref : mono.
Lemma odd_multiples_table_globalz_windowa_ref : forall (a0 : jac), ref (odd_multiples_table_globalz_windowa true a0) (odd_multiples_table_globalz_windowa false a0).
Proof. intros. unfold odd_multiples_table_globalz_windowa. mono. Qed.
#[global] Hint Resolve odd_multiples_table_globalz_windowa_ref : mono.
Lemma odd_multiples_table_storage_var_ref : forall (a0 : nat) (a1 : jac), ref (odd_multiples_table_storage_var true a0 a1) (odd_multiples_table_storage_var false a0 a1).
Proof. intros. unfold odd_multiples_table_storage_var. mono. Qed.
#[global] Hint Resolve odd_multiples_table_storage_var_ref : mono.
Lemma ecmult_context_new_ref : ref (ecmult_context_new true) (ecmult_context_new false).
Proof. intros. unfold ecmult_context_new. mono. Qed.
#[global] Hint Resolve ecmult_context_new_ref : mono.
Lemma run_products_ref : forall (a1 : list field) (a0 : field) (a2 : list field), ref (run_products true a0 a1 a2) (run_products false a0 a1 a2).
Proof. induction a1 as [|? ? IH] || induction a1 as [|? IH]; intros; cbn [run_products]; mono. Qed.
#[global] Hint Resolve run_products_ref : mono.
Lemma inv_down_ref : forall (a0 : list field) (a1 : list field) (a2 : field) (a3 : list field), ref (inv_down true a0 a1 a2 a3) (inv_down false a0 a1 a2 a3).
Proof. induction a0 as [|? ? IH] || induction a0 as [|? IH]; intros; cbn [inv_down]; mono. Qed.
#[global] Hint Resolve inv_down_ref : mono.
Lemma inv_all_var_ref : forall (a0 : list field), ref (inv_all_var true a0) (inv_all_var false a0).
Proof. intros. unfold inv_all_var. mono. Qed.
#[global] Hint Resolve inv_all_var_ref : mono.
Lemma set_all_loop_ref : forall (a0 : list jac) (a1 : list field), ref (set_all_loop true a0 a1) (set_all_loop false a0 a1).
Proof. induction a0 as [|? ? IH] || induction a0 as [|? IH]; intros; cbn [set_all_loop]; mono. Qed.
#[global] Hint Resolve set_all_loop_ref : mono.
Lemma set_all_gej_var_ref : forall (a0 : list jac), ref (set_all_gej_var true a0) (set_all_gej_var false a0).
Proof. intros. unfold set_all_gej_var. mono. Qed.
#[global] Hint Resolve set_all_gej_var_ref : mono.
Lemma gen_row_ref : forall (a0 : nat) (a1 : jac) (a2 : jac), ref (gen_row true a0 a1 a2) (gen_row false a0 a1 a2).
Proof. induction a0 as [|? ? IH] || induction a0 as [|? IH]; intros; cbn [gen_row]; mono. Qed.
#[global] Hint Resolve gen_row_ref : mono.
Lemma gen_rows_ref : forall (a0 : nat) (a1 : Z) (a2 : jac) (a3 : jac) (a4 : jac), ref (gen_rows true a0 a1 a2 a3 a4) (gen_rows false a0 a1 a2 a3 a4).
Proof. induction a0 as [|? ? IH] || induction a0 as [|? IH]; intros; cbn [gen_rows]; mono. Qed.
#[global] Hint Resolve gen_rows_ref : mono.
Lemma ecmult_gen_context_new_ref : ref (ecmult_gen_context_new true) (ecmult_gen_context_new false).
Proof. intros. unfold ecmult_gen_context_new. mono. Qed.
#[global] Hint Resolve ecmult_gen_context_new_ref : mono.
Lemma digit_asserts_ref : forall (a0 : Z) (a1 : Z), ref (digit_asserts true a0 a1) (digit_asserts false a0 a1).
Proof. intros. unfold digit_asserts. mono. Qed.
#[global] Hint Resolve digit_asserts_ref : mono.
Lemma table_get_ge_ref : forall (a0 : list affine) (a1 : Z) (a2 : Z), ref (table_get_ge true a0 a1 a2) (table_get_ge false a0 a1 a2).
Proof. intros. unfold table_get_ge. mono. Qed.
#[global] Hint Resolve table_get_ge_ref : mono.
Lemma table_get_ge_const_ref : forall (a0 : affine) (a1 : list affine) (a2 : Z) (a3 : Z), ref (table_get_ge_const true a0 a1 a2 a3) (table_get_ge_const false a0 a1 a2 a3).
Proof. intros. unfold table_get_ge_const. mono. Qed.
#[global] Hint Resolve table_get_ge_const_ref : mono.
Lemma table_get_ge_storage_ref : forall (a0 : list astorage) (a1 : Z) (a2 : Z), ref (table_get_ge_storage true a0 a1 a2) (table_get_ge_storage false a0 a1 a2).
Proof. intros. unfold table_get_ge_storage. mono. Qed.
#[global] Hint Resolve table_get_ge_storage_ref : mono.
Lemma wnaf_loop_ref : forall (a0 : nat) (a1 : scalar) (a2 : Z) (a3 : Z) (a4 : Z) (a5 : Z) (a6 : Z) (a7 : Z) (a8 : list Z), ref (wnaf_loop true a0 a1 a2 a3 a4 a5 a6 a7 a8) (wnaf_loop false a0 a1 a2 a3 a4 a5 a6 a7 a8).
Proof. induction a0 as [|? ? IH] || induction a0 as [|? IH]; intros; cbn [wnaf_loop]; mono. Qed.
#[global] Hint Resolve wnaf_loop_ref : mono.
Lemma high_bits_zero_ref : forall (a0 : nat) (a1 : scalar) (a2 : Z), ref (high_bits_zero true a0 a1 a2) (high_bits_zero false a0 a1 a2).
Proof. induction a0 as [|? ? IH] || induction a0 as [|? IH]; intros; cbn [high_bits_zero]; mono. Qed.
#[global] Hint Resolve high_bits_zero_ref : mono.
Lemma ecmult_wnaf_ref : forall (a0 : Z) (a1 : scalar) (a2 : Z), ref (ecmult_wnaf true a0 a1 a2) (ecmult_wnaf false a0 a1 a2).
Proof. intros. unfold ecmult_wnaf. mono. Qed.
#[global] Hint Resolve ecmult_wnaf_ref : mono.
Lemma wnaf_const_loop_ref : forall (a0 : nat) (a1 : Z) (a2 : Z) (a3 : scalar) (a4 : Z) (a5 : Z) (a6 : Z) (a7 : list Z), ref (wnaf_const_loop true a0 a1 a2 a3 a4 a5 a6 a7) (wnaf_const_loop false a0 a1 a2 a3 a4 a5 a6 a7).
Proof. induction a0 as [|? ? IH] || induction a0 as [|? IH]; intros; cbn [wnaf_const_loop]; mono. Qed.
#[global] Hint Resolve wnaf_const_loop_ref : mono.
Lemma ecmult_wnaf_const_ref : forall (a0 : Z) (a1 : scalar) (a2 : Z), ref (ecmult_wnaf_const true a0 a1 a2) (ecmult_wnaf_const false a0 a1 a2).
Proof. intros. unfold ecmult_wnaf_const. mono. Qed.
#[global] Hint Resolve ecmult_wnaf_const_ref : mono.
Lemma ecmult_loop_ref : forall (a0 : nat) (a1 : list astorage) (a2 : list affine) (a3 : field) (a4 : list Z) (a5 : list Z) (a6 : Z) (a7 : Z) (a8 : jac), ref (ecmult_loop true a0 a1 a2 a3 a4 a5 a6 a7 a8) (ecmult_loop false a0 a1 a2 a3 a4 a5 a6 a7 a8).
Proof. induction a0 as [|? ? IH] || induction a0 as [|? IH]; intros; cbn [ecmult_loop]; mono. Qed.
#[global] Hint Resolve ecmult_loop_ref : mono.
Lemma ecmult_ref : forall (a0 : ecctx) (a1 : jac) (a2 : scalar) (a3 : scalar), ref (ecmult true a0 a1 a2 a3) (ecmult false a0 a1 a2 a3).
Proof. intros. unfold ecmult. mono. Qed.
#[global] Hint Resolve ecmult_ref : mono.
Lemma double_nonzero_n_ref : forall (a0 : nat) (a1 : jac), ref (double_nonzero_n true a0 a1) (double_nonzero_n false a0 a1).
Proof. induction a0 as [|? ? IH] || induction a0 as [|? IH]; intros; cbn [double_nonzero_n]; mono. Qed.
#[global] Hint Resolve double_nonzero_n_ref : mono.
Lemma ecmult_const_loop_ref : forall (a0 : nat) (a1 : list affine) (a2 : list Z) (a3 : affine) (a4 : jac), ref (ecmult_const_loop true a0 a1 a2 a3 a4) (ecmult_const_loop false a0 a1 a2 a3 a4).
Proof. induction a0 as [|? ? IH] || induction a0 as [|? IH]; intros; cbn [ecmult_const_loop]; mono. Qed.
#[global] Hint Resolve ecmult_const_loop_ref : mono.
Lemma ecmult_const_ref : forall (a0 : affine) (a1 : scalar), ref (ecmult_const true a0 a1) (ecmult_const false a0 a1).
Proof. intros. unfold ecmult_const. mono. Qed.
#[global] Hint Resolve ecmult_const_ref : mono.
Lemma ecmult_gen_loop_ref : forall (a0 : list (list astorage)) (a1 : Z) (a2 : scalar) (a3 : astorage) (a4 : jac), ref (ecmult_gen_loop true a0 a1 a2 a3 a4) (ecmult_gen_loop false a0 a1 a2 a3 a4).
Proof. induction a0 as [|? ? IH] || induction a0 as [|? IH]; intros; cbn [ecmult_gen_loop]; mono. Qed.
#[global] Hint Resolve ecmult_gen_loop_ref : mono.
Lemma ecmult_gen_ref : forall (a0 : genctx) (a1 : scalar), ref (ecmult_gen true a0 a1) (ecmult_gen false a0 a1).
Proof. intros. unfold ecmult_gen. mono. Qed.
#[global] Hint Resolve ecmult_gen_ref : mono.
Lemma verify_raw_ref : forall (a0 : ecctx) (a1 : scalar) (a2 : scalar) (a3 : affine) (a4 : scalar), ref (verify_raw true a0 a1 a2 a3 a4) (verify_raw false a0 a1 a2 a3 a4).
Proof. intros. unfold verify_raw. mono. Qed.
#[global] Hint Resolve verify_raw_ref : mono.
Lemma recover_raw_ref : forall (a0 : ecctx) (a1 : scalar) (a2 : scalar) (a3 : Z) (a4 : scalar), ref (recover_raw true a0 a1 a2 a3 a4) (recover_raw false a0 a1 a2 a3 a4).
Proof. intros. unfold recover_raw. mono. Qed.
#[global] Hint Resolve recover_raw_ref : mono.
Lemma sign_raw_ref : forall (a0 : genctx) (a1 : scalar) (a2 : scalar) (a3 : scalar), ref (sign_raw true a0 a1 a2 a3) (sign_raw false a0 a1 a2 a3).
Proof. intros. unfold sign_raw. mono. Qed.
#[global] Hint Resolve sign_raw_ref : mono.
Lemma ecdh_raw_ref : forall (a0 : (list Z -> list Z)) (a1 : affine) (a2 : scalar), ref (ecdh_raw true a0 a1 a2) (ecdh_raw false a0 a1 a2).
Proof. intros. unfold ecdh_raw. mono. Qed.
#[global] Hint Resolve ecdh_raw_ref : mono.
Lemma read_len_loop_ref : forall (a0 : nat) (a1 : Z) (a2 : decoder), ref (read_len_loop true a0 a1 a2) (read_len_loop false a0 a1 a2).
Proof. induction a0 as [|? ? IH] || induction a0 as [|? IH]; intros; cbn [read_len_loop]; mono. Qed.
#[global] Hint Resolve read_len_loop_ref : mono.
Lemma d_read_len_ref : forall (a0 : decoder), ref (d_read_len true a0) (d_read_len false a0).
Proof. intros. unfold d_read_len. mono. Qed.
#[global] Hint Resolve d_read_len_ref : mono.
Lemma read_scalar_ref : forall (a0 : decoder) (a1 : Z), ref (read_scalar true a0 a1) (read_scalar false a0 a1).
Proof. intros. unfold read_scalar. mono. Qed.
#[global] Hint Resolve read_scalar_ref : mono.
Lemma d_read_integer_ref : forall (a0 : decoder), ref (d_read_integer true a0) (d_read_integer false a0).
Proof. intros. unfold d_read_integer. mono. Qed.
#[global] Hint Resolve d_read_integer_ref : mono.
Lemma d_read_seq_len_lax_ref : forall (a0 : decoder), ref (d_read_seq_len_lax true a0) (d_read_seq_len_lax false a0).
Proof. intros. unfold d_read_seq_len_lax. mono. Qed.
#[global] Hint Resolve d_read_seq_len_lax_ref : mono.
Lemma lax_len_loop_ref : forall (a0 : nat) (a1 : Z) (a2 : decoder), ref (lax_len_loop true a0 a1 a2) (lax_len_loop false a0 a1 a2).
Proof. induction a0 as [|? ? IH] || induction a0 as [|? IH]; intros; cbn [lax_len_loop]; mono. Qed.
#[global] Hint Resolve lax_len_loop_ref : mono.
Lemma d_read_len_lax_ref : forall (a0 : decoder), ref (d_read_len_lax true a0) (d_read_len_lax false a0).
Proof. intros. unfold d_read_len_lax. mono. Qed.
#[global] Hint Resolve d_read_len_lax_ref : mono.
Lemma d_read_integer_lax_ref : forall (a0 : decoder), ref (d_read_integer_lax true a0) (d_read_integer_lax false a0).
Proof. intros. unfold d_read_integer_lax. mono. Qed.
#[global] Hint Resolve d_read_integer_lax_ref : mono.
Lemma pk_from_secret_key_ref : forall (a0 : genctx) (a1 : seckey), ref (pk_from_secret_key true a0 a1) (pk_from_secret_key false a0 a1).
Proof. intros. unfold pk_from_secret_key. mono. Qed.
#[global] Hint Resolve pk_from_secret_key_ref : mono.
Lemma pk_parse_ref : forall (a0 : list Z), ref (pk_parse true a0) (pk_parse false a0).
Proof. intros. unfold pk_parse. mono. Qed.
#[global] Hint Resolve pk_parse_ref : mono.
Lemma pk_parse_compressed_ref : forall (a0 : list Z), ref (pk_parse_compressed true a0) (pk_parse_compressed false a0).
Proof. intros. unfold pk_parse_compressed. mono. Qed.
#[global] Hint Resolve pk_parse_compressed_ref : mono.
Lemma pk_parse_slice_ref : forall (a0 : list Z) (a1 : option pkformat), ref (pk_parse_slice true a0 a1) (pk_parse_slice false a0 a1).
Proof. intros. unfold pk_parse_slice. mono. Qed.
#[global] Hint Resolve pk_parse_slice_ref : mono.
Lemma pk_serialize_ref : forall (a0 : pubkey), ref (pk_serialize true a0) (pk_serialize false a0).
Proof. intros. unfold pk_serialize. mono. Qed.
#[global] Hint Resolve pk_serialize_ref : mono.
Lemma pk_serialize_compressed_ref : forall (a0 : pubkey), ref (pk_serialize_compressed true a0) (pk_serialize_compressed false a0).
Proof. intros. unfold pk_serialize_compressed. mono. Qed.
#[global] Hint Resolve pk_serialize_compressed_ref : mono.
Lemma pk_eq_ref : forall (a0 : pubkey) (a1 : pubkey), ref (pk_eq true a0 a1) (pk_eq false a0 a1).
Proof. intros. unfold pk_eq. mono. Qed.
#[global] Hint Resolve pk_eq_ref : mono.
Lemma pk_tweak_add_assign_ref : forall (a0 : ecctx) (a1 : pubkey) (a2 : seckey), ref (pk_tweak_add_assign true a0 a1 a2) (pk_tweak_add_assign false a0 a1 a2).
Proof. intros. unfold pk_tweak_add_assign. mono. Qed.
#[global] Hint Resolve pk_tweak_add_assign_ref : mono.
Lemma pk_tweak_mul_assign_ref : forall (a0 : ecctx) (a1 : pubkey) (a2 : seckey), ref (pk_tweak_mul_assign true a0 a1 a2) (pk_tweak_mul_assign false a0 a1 a2).
Proof. intros. unfold pk_tweak_mul_assign. mono. Qed.
#[global] Hint Resolve pk_tweak_mul_assign_ref : mono.
Lemma combine_loop_ref : forall (a1 : list pubkey) (a0 : jac), ref (combine_loop true a0 a1) (combine_loop false a0 a1).
Proof. induction a1 as [|? ? IH] || induction a1 as [|? IH]; intros; cbn [combine_loop]; mono. Qed.
#[global] Hint Resolve combine_loop_ref : mono.
Lemma pk_combine_ref : forall (a0 : list pubkey), ref (pk_combine true a0) (pk_combine false a0).
Proof. intros. unfold pk_combine. mono. Qed.
#[global] Hint Resolve pk_combine_ref : mono.
Lemma pk_try_from_ref : forall (a0 : affine), ref (pk_try_from true a0) (pk_try_from false a0).
Proof. intros. unfold pk_try_from. mono. Qed.
#[global] Hint Resolve pk_try_from_ref : mono.
Lemma sk_parse_ref : forall (a0 : list Z), ref (sk_parse true a0) (sk_parse false a0).
Proof. intros. unfold sk_parse. mono. Qed.
#[global] Hint Resolve sk_parse_ref : mono.
Lemma sk_parse_slice_ref : forall (a0 : list Z), ref (sk_parse_slice true a0) (sk_parse_slice false a0).
Proof. intros. unfold sk_parse_slice. mono. Qed.
#[global] Hint Resolve sk_parse_slice_ref : mono.
Lemma sk_tweak_add_assign_ref : forall (a0 : seckey) (a1 : seckey), ref (sk_tweak_add_assign true a0 a1) (sk_tweak_add_assign false a0 a1).
Proof. intros. unfold sk_tweak_add_assign. mono. Qed.
#[global] Hint Resolve sk_tweak_add_assign_ref : mono.
Lemma sk_tweak_mul_assign_ref : forall (a0 : seckey) (a1 : seckey), ref (sk_tweak_mul_assign true a0 a1) (sk_tweak_mul_assign false a0 a1).
Proof. intros. unfold sk_tweak_mul_assign. mono. Qed.
#[global] Hint Resolve sk_tweak_mul_assign_ref : mono.
Lemma sk_inv_ref : forall (a0 : seckey), ref (sk_inv true a0) (sk_inv false a0).
Proof. intros. unfold sk_inv. mono. Qed.
#[global] Hint Resolve sk_inv_ref : mono.
Lemma sk_default_ref : ref (sk_default true) (sk_default false).
Proof. intros. unfold sk_default. mono. Qed.
#[global] Hint Resolve sk_default_ref : mono.
Lemma sig_parse_overflowing_ref : forall (a0 : list Z), ref (sig_parse_overflowing true a0) (sig_parse_overflowing false a0).
Proof. intros. unfold sig_parse_overflowing. mono. Qed.
#[global] Hint Resolve sig_parse_overflowing_ref : mono.
Lemma sig_parse_standard_ref : forall (a0 : list Z), ref (sig_parse_standard true a0) (sig_parse_standard false a0).
Proof. intros. unfold sig_parse_standard. mono. Qed.
#[global] Hint Resolve sig_parse_standard_ref : mono.
Lemma sig_parse_overflowing_slice_ref : forall (a0 : list Z), ref (sig_parse_overflowing_slice true a0) (sig_parse_overflowing_slice false a0).
Proof. intros. unfold sig_parse_overflowing_slice. mono. Qed.
#[global] Hint Resolve sig_parse_overflowing_slice_ref : mono.
Lemma sig_parse_standard_slice_ref : forall (a0 : list Z), ref (sig_parse_standard_slice true a0) (sig_parse_standard_slice false a0).
Proof. intros. unfold sig_parse_standard_slice. mono. Qed.
#[global] Hint Resolve sig_parse_standard_slice_ref : mono.
Lemma sig_parse_der_ref : forall (a0 : list Z), ref (sig_parse_der true a0) (sig_parse_der false a0).
Proof. intros. unfold sig_parse_der. mono. Qed.
#[global] Hint Resolve sig_parse_der_ref : mono.
Lemma sig_parse_der_lax_ref : forall (a0 : list Z), ref (sig_parse_der_lax true a0) (sig_parse_der_lax false a0).
Proof. intros. unfold sig_parse_der_lax. mono. Qed.
#[global] Hint Resolve sig_parse_der_lax_ref : mono.
Lemma sig_normalize_s_ref : forall (a0 : signature), ref (sig_normalize_s true a0) (sig_normalize_s false a0).
Proof. intros. unfold sig_normalize_s. mono. Qed.
#[global] Hint Resolve sig_normalize_s_ref : mono.
Lemma msg_parse_ref : forall (a0 : list Z), ref (msg_parse true a0) (msg_parse false a0).
Proof. intros. unfold msg_parse. mono. Qed.
#[global] Hint Resolve msg_parse_ref : mono.
Lemma msg_parse_slice_ref : forall (a0 : list Z), ref (msg_parse_slice true a0) (msg_parse_slice false a0).
Proof. intros. unfold msg_parse_slice. mono. Qed.
#[global] Hint Resolve msg_parse_slice_ref : mono.
Lemma shared_secret_new_ref : forall (a0 : (list Z -> list Z)) (a1 : pubkey) (a2 : seckey), ref (shared_secret_new true a0 a1 a2) (shared_secret_new false a0 a1 a2).
Proof. intros. unfold shared_secret_new. mono. Qed.
#[global] Hint Resolve shared_secret_new_ref : mono.
Lemma verify_ref : forall (a0 : ecctx) (a1 : message) (a2 : signature) (a3 : pubkey), ref (verify true a0 a1 a2 a3) (verify false a0 a1 a2 a3).
Proof. intros. unfold verify. mono. Qed.
#[global] Hint Resolve verify_ref : mono.
Lemma recover_ref : forall (a0 : ecctx) (a1 : message) (a2 : signature) (a3 : recid), ref (recover true a0 a1 a2 a3) (recover false a0 a1 a2 a3).
Proof. intros. unfold recover. mono. Qed.
#[global] Hint Resolve recover_ref : mono.
Lemma pk_ser_ref : forall (a0 : (list Z -> list Z)) (a1 : bool) (a2 : pubkey), ref (pk_ser true a0 a1 a2) (pk_ser false a0 a1 a2).
Proof. intros. unfold pk_ser. mono. Qed.
#[global] Hint Resolve pk_ser_ref : mono.
Lemma pk_de_ref : forall (a0 : (list Z -> option (list Z))) (a1 : bool) (a2 : list Z), ref (pk_de true a0 a1 a2) (pk_de false a0 a1 a2).
Proof. intros. unfold pk_de. mono. Qed.
#[global] Hint Resolve pk_de_ref : mono.

(** The outcome of a loop: a panic may become anything, everything else is kept. *)
Definition oref {A} (x y : outcome A) : Prop := x = Panic \/ x = y.
Lemma sk_random_ref : forall fuel rng i, oref (sk_random true fuel rng i) (sk_random false fuel rng i).
Proof.
  induction fuel as [|f IH]; intros rng i; cbn [sk_random]; [right; reflexivity|]. destruct (sk_parse true (rng i)) as [r|] eqn:E; [|left; reflexivity].
  rewrite (sk_parse_ref _ _ E). destruct r; [right; reflexivity | apply IH].
Qed.
Lemma sign_loop_ref : forall fuel gen i ctx sk m, oref (sign_loop true fuel gen i ctx sk m) (sign_loop false fuel gen i ctx sk m).
Proof.
  induction fuel as [|f IH]; intros; cbn [sign_loop]; [right; reflexivity|]. destruct (s_set_b32 true (gen i)) as [[nonce over]|] eqn:E; [|left; reflexivity].
  rewrite (s_set_b32_ref _ _ E). destruct (negb over && negb (s_is_zero nonce)); [|apply IH]. destruct (sign_raw true ctx sk m nonce) as [r|] eqn:E2; [|left; reflexivity].
  rewrite (sign_raw_ref _ _ _ _ _ E2). destruct r as [[[? ?] ?]|]; [right; reflexivity | apply IH].
Qed.
