(** All four build configurations ([debug-assertions] and [overflow-checks] set independently) of every function, for every input whatsoever. *)
From Verif Require Import Word MField MScalar MGroup MEcmult MEcdsa MDer MApi Mono XField XScalar XGroup XEcmult XEcdsa XDer XApi Builds BuildsQ.
From Verif Require Import WP FieldMul FieldNorm Spec Fp Bits FieldOps FieldCodec Denote Curve Group Chain Order Jac JacOps Table Ecmult Lift Gen Key Ctx ApiScalar ApiDer ApiPub ApiGroup Ecdsa ApiEcdsa ApiKeys.

(** What a user wants to know about the build configurations. [d] and [r] are a call in a debug build and in a release build,
    [x (a, o)] the call in a build with debug assertions iff [a] and overflow checks iff [o]; [None] is a panic. *)
Definition every_build {A} (d r : option A) (x : bool * bool -> option A) : Prop :=
  x (true, true) = d /\ x (false, false) = r /\
  (forall c v, d = Some v -> x c = Some v) /\ (forall c v, x c = Some v -> r = Some v) /\
  (d = None <-> x (true, false) = None \/ x (false, true) = None).
(** The same for calls that can also run forever. *)
Definition every_outcome {A} (d r : outcome A) (x : bool * bool -> outcome A) : Prop :=
  x (true, true) = d /\ x (false, false) = r /\
  (forall c, d <> Panic -> x c = d) /\ (forall c, x c <> Panic -> r = x c) /\
  (d = Panic <-> x (true, false) = Panic \/ x (false, true) = Panic).

Lemma bge_top c : bge (true, true) c. Proof. split; reflexivity. Qed.
Lemma bge_bot c : bge c (false, false). Proof. split; discriminate. Qed.
Lemma every_intro {A} (d r : option A) (x : bool * bool -> option A) : x (true, true) = d -> x (false, false) = r -> (forall c c', bge c c' -> ref (x c) (x c')) ->
  quad (x (true, true)) (x (true, false)) (x (false, true)) (x (false, false)) -> every_build d r x.
Proof.
  intros E1 E2 M (Q1 & Q2 & Q3). split; [exact E1|]. split; [exact E2|]. subst d r. split; [intros c v H; exact (M _ _ (bge_top c) v H)|]. split; [intros c v H; exact (M _ _ (bge_bot c) v H)|].
  split.
  - intros N. destruct (x (true, false)) as [a|] eqn:Ea; [|left; reflexivity]. destruct (x (false, true)) as [b|] eqn:Eb; [|right; reflexivity].
    pose proof (Q1 a eq_refl) as P1. pose proof (Q2 b eq_refl) as P2. assert (a = b) by congruence. subst b. rewrite (Q3 a eq_refl eq_refl) in N. discriminate N.
  - intros H. destruct (x (true, true)) as [a|] eqn:E; [|reflexivity]. rewrite (M _ _ (bge_top (true, false)) a E), (M _ _ (bge_top (false, true)) a E) in H. destruct H; discriminate.
Qed.

(** Loops *)
Definition omono {A} (x : bool * bool -> outcome A) : Prop := forall c c', bge c c' -> oref (x c) (x c').
Lemma outcome_intro {A} (d r : outcome A) (x : bool * bool -> outcome A) : x (true, true) = d -> x (false, false) = r -> omono x ->
  (x (true, true) = Panic -> x (true, false) = Panic \/ x (false, true) = Panic) -> every_outcome d r x.
Proof.
  intros E1 E2 M Q. split; [exact E1|]. split; [exact E2|]. subst d r. split; [|split].
  - intros c N. destruct (M _ _ (bge_top c)) as [K|K]; congruence.
  - intros c N. destruct (M _ _ (bge_bot c)) as [K|K]; congruence.
  - split; [exact Q|]. intros H. destruct (x (true, true)) eqn:E; try reflexivity; (destruct H as [H|H]; [destruct (M _ _ (bge_top (true, false))) as [K|K] | destruct (M _ _ (bge_top (false, true))) as [K|K]]; congruence).
Qed.
Lemma quad_none {A} (a b c d : option A) : quad a b c d -> a = None -> b = None \/ c = None.
Proof.
  intros (Q1 & Q2 & Q3) ->. destruct b as [b|]; [|left; reflexivity]. destruct c as [c|]; [|right; reflexivity].
  pose proof (Q1 b eq_refl) as P1. pose proof (Q2 c eq_refl) as P2. assert (c = b) by congruence. subst c. discriminate (Q3 b eq_refl eq_refl).
Qed.
Lemma sk_random_corner : forall b fuel rng i, sk_random_x (b, b) fuel rng i = sk_random b fuel rng i.
Proof. induction fuel as [|f IH]; intros rng i; cbn [sk_random_x sk_random]; [reflexivity|]. rewrite sk_parse_corner. destruct (sk_parse b (rng i)) as [[]|]; [reflexivity | apply IH | reflexivity]. Qed.
Lemma sk_random_off : forall fuel rng i, omono (fun c => sk_random_x c fuel rng i).
Proof.
  induction fuel as [|f IH]; intros rng i c c' H; cbn [sk_random_x]; [right; reflexivity|]. destruct (sk_parse_x c (rng i)) as [r|] eqn:E; [|left; reflexivity].
  rewrite (sk_parse_off c c' H _ _ E). destruct r; [right; reflexivity | apply IH, H].
Qed.
Lemma sk_random_quad : forall fuel rng i, sk_random_x (true, true) fuel rng i = Panic -> sk_random_x (true, false) fuel rng i = Panic \/ sk_random_x (false, true) fuel rng i = Panic.
Proof.
  induction fuel as [|f IH]; intros rng i; cbn [sk_random_x]; [discriminate|]. destruct (sk_parse_x (true, true) (rng i)) as [r|] eqn:E.
  - rewrite (sk_parse_off _ _ (bge_top (true, false)) _ _ E), (sk_parse_off _ _ (bge_top (false, true)) _ _ E). destruct r; [discriminate | apply IH].
  - intros _. destruct (quad_none _ _ _ _ (sk_parse_quad (rng i)) E) as [-> | ->]; [left | right]; reflexivity.
Qed.
Lemma sign_loop_corner : forall b fuel gen i ctx sk m, sign_loop_x (b, b) fuel gen i ctx sk m = sign_loop b fuel gen i ctx sk m.
Proof.
  induction fuel as [|f IH]; intros; cbn [sign_loop_x sign_loop]; [reflexivity|]. rewrite s_set_b32_corner. destruct (s_set_b32 b (gen i)) as [[nonce over]|]; [|reflexivity].
  destruct (negb over && negb (s_is_zero nonce)); [|apply IH]. rewrite sign_raw_corner. destruct (sign_raw b ctx sk m nonce) as [[[[? ?] ?]|]|]; [reflexivity | apply IH | reflexivity].
Qed.
Lemma sign_loop_off : forall fuel gen i ctx sk m, omono (fun c => sign_loop_x c fuel gen i ctx sk m).
Proof.
  induction fuel as [|f IH]; intros gen i ctx sk m c c' H; cbn [sign_loop_x]; [right; reflexivity|]. destruct (s_set_b32_x c (gen i)) as [[nonce over]|] eqn:E; [|left; reflexivity].
  rewrite (s_set_b32_off c c' H _ _ E). destruct (negb over && negb (s_is_zero nonce)); [|apply IH, H]. destruct (sign_raw_x c ctx sk m nonce) as [r|] eqn:E2; [|left; reflexivity].
  rewrite (sign_raw_off c c' H _ _ _ _ _ E2). destruct r as [[[? ?] ?]|]; [right; reflexivity | apply IH, H].
Qed.
Lemma sign_loop_quad : forall fuel gen i ctx sk m, sign_loop_x (true, true) fuel gen i ctx sk m = Panic -> sign_loop_x (true, false) fuel gen i ctx sk m = Panic \/ sign_loop_x (false, true) fuel gen i ctx sk m = Panic.
Proof.
  induction fuel as [|f IH]; intros gen i ctx sk m; cbn [sign_loop_x]; [discriminate|]. destruct (s_set_b32_x (true, true) (gen i)) as [[nonce over]|] eqn:E.
  - rewrite (s_set_b32_off _ _ (bge_top (true, false)) _ _ E), (s_set_b32_off _ _ (bge_top (false, true)) _ _ E). destruct (negb over && negb (s_is_zero nonce)); [|apply IH].
    destruct (sign_raw_x (true, true) ctx sk m nonce) as [r|] eqn:E2.
    + rewrite (sign_raw_off _ _ (bge_top (true, false)) _ _ _ _ _ E2), (sign_raw_off _ _ (bge_top (false, true)) _ _ _ _ _ E2). destruct r as [[[? ?] ?]|]; [discriminate | apply IH].
    + intros _. destruct (quad_none _ _ _ _ (sign_raw_quad ctx sk m nonce) E2) as [-> | ->]; [left | right]; reflexivity.
  - intros _. destruct (quad_none _ _ _ _ (s_set_b32_quad (gen i)) E) as [-> | ->]; [left | right]; reflexivity.
Qed.

(** * C94 *)
(** Public keys: parsing, serializing, comparing, deriving, tweaking, combining, serde. *)
Lemma C94_public_key_pf :
  (forall a0 a1, every_build (pk_from_secret_key true a0 a1) (pk_from_secret_key false a0 a1) (fun c => pk_from_secret_key_x c a0 a1)) /\
  (forall a0, every_build (pk_parse true a0) (pk_parse false a0) (fun c => pk_parse_x c a0)) /\
  (forall a0, every_build (pk_parse_compressed true a0) (pk_parse_compressed false a0) (fun c => pk_parse_compressed_x c a0)) /\
  (forall a0 a1, every_build (pk_parse_slice true a0 a1) (pk_parse_slice false a0 a1) (fun c => pk_parse_slice_x c a0 a1)) /\
  (forall a0, every_build (pk_serialize true a0) (pk_serialize false a0) (fun c => pk_serialize_x c a0)) /\
  (forall a0, every_build (pk_serialize_compressed true a0) (pk_serialize_compressed false a0) (fun c => pk_serialize_compressed_x c a0)) /\
  (forall a0 a1, every_build (pk_eq true a0 a1) (pk_eq false a0 a1) (fun c => pk_eq_x c a0 a1)) /\
  (forall a0 a1 a2, every_build (pk_tweak_add_assign true a0 a1 a2) (pk_tweak_add_assign false a0 a1 a2) (fun c => pk_tweak_add_assign_x c a0 a1 a2)) /\
  (forall a0 a1 a2, every_build (pk_tweak_mul_assign true a0 a1 a2) (pk_tweak_mul_assign false a0 a1 a2) (fun c => pk_tweak_mul_assign_x c a0 a1 a2)) /\
  (forall a0, every_build (pk_combine true a0) (pk_combine false a0) (fun c => pk_combine_x c a0)) /\
  (forall a0, every_build (pk_try_from true a0) (pk_try_from false a0) (fun c => pk_try_from_x c a0)) /\
  (forall a0 a1 a2, every_build (pk_ser true a0 a1 a2) (pk_ser false a0 a1 a2) (fun c => pk_ser_x c a0 a1 a2)) /\
  (forall a0 a1 a2, every_build (pk_de true a0 a1 a2) (pk_de false a0 a1 a2) (fun c => pk_de_x c a0 a1 a2)).
Proof.
  split; [intros; apply every_intro; [apply pk_from_secret_key_corner | apply pk_from_secret_key_corner | intros c c' B; apply (pk_from_secret_key_off c c' B) | apply pk_from_secret_key_quad]|].
  split; [intros; apply every_intro; [apply pk_parse_corner | apply pk_parse_corner | intros c c' B; apply (pk_parse_off c c' B) | apply pk_parse_quad]|].
  split; [intros; apply every_intro; [apply pk_parse_compressed_corner | apply pk_parse_compressed_corner | intros c c' B; apply (pk_parse_compressed_off c c' B) | apply pk_parse_compressed_quad]|].
  split; [intros; apply every_intro; [apply pk_parse_slice_corner | apply pk_parse_slice_corner | intros c c' B; apply (pk_parse_slice_off c c' B) | apply pk_parse_slice_quad]|].
  split; [intros; apply every_intro; [apply pk_serialize_corner | apply pk_serialize_corner | intros c c' B; apply (pk_serialize_off c c' B) | apply pk_serialize_quad]|].
  split; [intros; apply every_intro; [apply pk_serialize_compressed_corner | apply pk_serialize_compressed_corner | intros c c' B; apply (pk_serialize_compressed_off c c' B) | apply pk_serialize_compressed_quad]|].
  split; [intros; apply every_intro; [apply pk_eq_corner | apply pk_eq_corner | intros c c' B; apply (pk_eq_off c c' B) | apply pk_eq_quad]|].
  split; [intros; apply every_intro; [apply pk_tweak_add_assign_corner | apply pk_tweak_add_assign_corner | intros c c' B; apply (pk_tweak_add_assign_off c c' B) | apply pk_tweak_add_assign_quad]|].
  split; [intros; apply every_intro; [apply pk_tweak_mul_assign_corner | apply pk_tweak_mul_assign_corner | intros c c' B; apply (pk_tweak_mul_assign_off c c' B) | apply pk_tweak_mul_assign_quad]|].
  split; [intros; apply every_intro; [apply pk_combine_corner | apply pk_combine_corner | intros c c' B; apply (pk_combine_off c c' B) | apply pk_combine_quad]|].
  split; [intros; apply every_intro; [apply pk_try_from_corner | apply pk_try_from_corner | intros c c' B; apply (pk_try_from_off c c' B) | apply pk_try_from_quad]|].
  split; [intros; apply every_intro; [apply pk_ser_corner | apply pk_ser_corner | intros c c' B; apply (pk_ser_off c c' B) | apply pk_ser_quad]|].
  intros; apply every_intro; [apply pk_de_corner | apply pk_de_corner | intros c c' B; apply (pk_de_off c c' B) | apply pk_de_quad].
Qed.
(** Secret keys, messages and shared secrets. *)
Lemma C94_secret_key_pf :
  (forall a0, every_build (sk_parse true a0) (sk_parse false a0) (fun c => sk_parse_x c a0)) /\
  (forall a0, every_build (sk_parse_slice true a0) (sk_parse_slice false a0) (fun c => sk_parse_slice_x c a0)) /\
  (forall a0 a1, every_build (sk_tweak_add_assign true a0 a1) (sk_tweak_add_assign false a0 a1) (fun c => sk_tweak_add_assign_x c a0 a1)) /\
  (forall a0 a1, every_build (sk_tweak_mul_assign true a0 a1) (sk_tweak_mul_assign false a0 a1) (fun c => sk_tweak_mul_assign_x c a0 a1)) /\
  (forall a0, every_build (sk_inv true a0) (sk_inv false a0) (fun c => sk_inv_x c a0)) /\
  (every_build (sk_default true) (sk_default false) (fun c => sk_default_x c)) /\
  (forall a0, every_build (msg_parse true a0) (msg_parse false a0) (fun c => msg_parse_x c a0)) /\
  (forall a0, every_build (msg_parse_slice true a0) (msg_parse_slice false a0) (fun c => msg_parse_slice_x c a0)) /\
  (forall a0 a1 a2, every_build (shared_secret_new true a0 a1 a2) (shared_secret_new false a0 a1 a2) (fun c => shared_secret_new_x c a0 a1 a2)) /\
  (forall fuel rng i, every_outcome (sk_random true fuel rng i) (sk_random false fuel rng i) (fun c => sk_random_x c fuel rng i)).
Proof.
  split; [intros; apply every_intro; [apply sk_parse_corner | apply sk_parse_corner | intros c c' B; apply (sk_parse_off c c' B) | apply sk_parse_quad]|].
  split; [intros; apply every_intro; [apply sk_parse_slice_corner | apply sk_parse_slice_corner | intros c c' B; apply (sk_parse_slice_off c c' B) | apply sk_parse_slice_quad]|].
  split; [intros; apply every_intro; [apply sk_tweak_add_assign_corner | apply sk_tweak_add_assign_corner | intros c c' B; apply (sk_tweak_add_assign_off c c' B) | apply sk_tweak_add_assign_quad]|].
  split; [intros; apply every_intro; [apply sk_tweak_mul_assign_corner | apply sk_tweak_mul_assign_corner | intros c c' B; apply (sk_tweak_mul_assign_off c c' B) | apply sk_tweak_mul_assign_quad]|].
  split; [intros; apply every_intro; [apply sk_inv_corner | apply sk_inv_corner | intros c c' B; apply (sk_inv_off c c' B) | apply sk_inv_quad]|].
  split; [intros; apply every_intro; [apply sk_default_corner | apply sk_default_corner | intros c c' B; apply (sk_default_off c c' B) | apply sk_default_quad]|].
  split; [intros; apply every_intro; [apply msg_parse_corner | apply msg_parse_corner | intros c c' B; apply (msg_parse_off c c' B) | apply msg_parse_quad]|].
  split; [intros; apply every_intro; [apply msg_parse_slice_corner | apply msg_parse_slice_corner | intros c c' B; apply (msg_parse_slice_off c c' B) | apply msg_parse_slice_quad]|].
  split; [intros; apply every_intro; [apply shared_secret_new_corner | apply shared_secret_new_corner | intros c c' B; apply (shared_secret_new_off c c' B) | apply shared_secret_new_quad]|].
  intros; apply outcome_intro; [apply sk_random_corner | apply sk_random_corner | apply sk_random_off | apply sk_random_quad].
Qed.
(** Signatures: parsing, normalizing, verifying, recovering, signing with a given nonce. *)
Lemma C94_signature_pf :
  (forall a0, every_build (sig_parse_overflowing true a0) (sig_parse_overflowing false a0) (fun c => sig_parse_overflowing_x c a0)) /\
  (forall a0, every_build (sig_parse_standard true a0) (sig_parse_standard false a0) (fun c => sig_parse_standard_x c a0)) /\
  (forall a0, every_build (sig_parse_overflowing_slice true a0) (sig_parse_overflowing_slice false a0) (fun c => sig_parse_overflowing_slice_x c a0)) /\
  (forall a0, every_build (sig_parse_standard_slice true a0) (sig_parse_standard_slice false a0) (fun c => sig_parse_standard_slice_x c a0)) /\
  (forall a0, every_build (sig_parse_der true a0) (sig_parse_der false a0) (fun c => sig_parse_der_x c a0)) /\
  (forall a0, every_build (sig_parse_der_lax true a0) (sig_parse_der_lax false a0) (fun c => sig_parse_der_lax_x c a0)) /\
  (forall a0, every_build (sig_normalize_s true a0) (sig_normalize_s false a0) (fun c => sig_normalize_s_x c a0)) /\
  (forall a0 a1 a2 a3, every_build (verify true a0 a1 a2 a3) (verify false a0 a1 a2 a3) (fun c => verify_x c a0 a1 a2 a3)) /\
  (forall a0 a1 a2 a3, every_build (recover true a0 a1 a2 a3) (recover false a0 a1 a2 a3) (fun c => recover_x c a0 a1 a2 a3)) /\
  (forall a0 a1 a2 a3 a4, every_build (verify_raw true a0 a1 a2 a3 a4) (verify_raw false a0 a1 a2 a3 a4) (fun c => verify_raw_x c a0 a1 a2 a3 a4)) /\
  (forall a0 a1 a2 a3 a4, every_build (recover_raw true a0 a1 a2 a3 a4) (recover_raw false a0 a1 a2 a3 a4) (fun c => recover_raw_x c a0 a1 a2 a3 a4)) /\
  (forall a0 a1 a2 a3, every_build (sign_raw true a0 a1 a2 a3) (sign_raw false a0 a1 a2 a3) (fun c => sign_raw_x c a0 a1 a2 a3)) /\
  (forall a0 a1 a2, every_build (ecdh_raw true a0 a1 a2) (ecdh_raw false a0 a1 a2) (fun c => ecdh_raw_x c a0 a1 a2)) /\
  (forall drbg fuel ctx m sk, every_outcome (sign true drbg fuel ctx m sk) (sign false drbg fuel ctx m sk) (fun c => sign_x c drbg fuel ctx m sk)).
Proof.
  split; [intros; apply every_intro; [apply sig_parse_overflowing_corner | apply sig_parse_overflowing_corner | intros c c' B; apply (sig_parse_overflowing_off c c' B) | apply sig_parse_overflowing_quad]|].
  split; [intros; apply every_intro; [apply sig_parse_standard_corner | apply sig_parse_standard_corner | intros c c' B; apply (sig_parse_standard_off c c' B) | apply sig_parse_standard_quad]|].
  split; [intros; apply every_intro; [apply sig_parse_overflowing_slice_corner | apply sig_parse_overflowing_slice_corner | intros c c' B; apply (sig_parse_overflowing_slice_off c c' B) | apply sig_parse_overflowing_slice_quad]|].
  split; [intros; apply every_intro; [apply sig_parse_standard_slice_corner | apply sig_parse_standard_slice_corner | intros c c' B; apply (sig_parse_standard_slice_off c c' B) | apply sig_parse_standard_slice_quad]|].
  split; [intros; apply every_intro; [apply sig_parse_der_corner | apply sig_parse_der_corner | intros c c' B; apply (sig_parse_der_off c c' B) | apply sig_parse_der_quad]|].
  split; [intros; apply every_intro; [apply sig_parse_der_lax_corner | apply sig_parse_der_lax_corner | intros c c' B; apply (sig_parse_der_lax_off c c' B) | apply sig_parse_der_lax_quad]|].
  split; [intros; apply every_intro; [apply sig_normalize_s_corner | apply sig_normalize_s_corner | intros c c' B; apply (sig_normalize_s_off c c' B) | apply sig_normalize_s_quad]|].
  split; [intros; apply every_intro; [apply verify_corner | apply verify_corner | intros c c' B; apply (verify_off c c' B) | apply verify_quad]|].
  split; [intros; apply every_intro; [apply recover_corner | apply recover_corner | intros c c' B; apply (recover_off c c' B) | apply recover_quad]|].
  split; [intros; apply every_intro; [apply verify_raw_corner | apply verify_raw_corner | intros c c' B; apply (verify_raw_off c c' B) | apply verify_raw_quad]|].
  split; [intros; apply every_intro; [apply recover_raw_corner | apply recover_raw_corner | intros c c' B; apply (recover_raw_off c c' B) | apply recover_raw_quad]|].
  split; [intros; apply every_intro; [apply sign_raw_corner | apply sign_raw_corner | intros c c' B; apply (sign_raw_off c c' B) | apply sign_raw_quad]|].
  split; [intros; apply every_intro; [apply ecdh_raw_corner | apply ecdh_raw_corner | intros c c' B; apply (ecdh_raw_off c c' B) | apply ecdh_raw_quad]|].
  intros; unfold sign_x, sign; apply outcome_intro; [apply sign_loop_corner | apply sign_loop_corner | intros c c' B; apply (sign_loop_off fuel _ 0%nat ctx sk m c c' B) | apply sign_loop_quad].
Qed.
(** Points, recodings, multiplications and contexts. *)
Lemma C94_points_pf :
  (forall a0, every_build (af_set_xquad true a0) (af_set_xquad false a0) (fun c => af_set_xquad_x c a0)) /\
  (forall a0 a1, every_build (af_set_xo_var true a0 a1) (af_set_xo_var false a0 a1) (fun c => af_set_xo_var_x c a0 a1)) /\
  (forall a0, every_build (af_is_valid_var true a0) (af_is_valid_var false a0) (fun c => af_is_valid_var_x c a0)) /\
  (forall a0, every_build (af_neg true a0) (af_neg false a0) (fun c => af_neg_x c a0)) /\
  (forall a0 a1, every_build (af_eq true a0 a1) (af_eq false a0 a1) (fun c => af_eq_x c a0 a1)) /\
  (forall a0, every_build (af_set_gej true a0) (af_set_gej false a0) (fun c => af_set_gej_x c a0)) /\
  (forall a0 a1, every_build (af_set_gej_var true a0 a1) (af_set_gej_var false a0 a1) (fun c => af_set_gej_var_x c a0 a1)) /\
  (forall a0 a1, every_build (af_set_gej_zinv true a0 a1) (af_set_gej_zinv false a0 a1) (fun c => af_set_gej_zinv_x c a0 a1)) /\
  (forall a0 a1, every_build (set_table_gej_var true a0 a1) (set_table_gej_var false a0 a1) (fun c => set_table_gej_var_x c a0 a1)) /\
  (forall a0 a1, every_build (globalz_set_table_gej true a0 a1) (globalz_set_table_gej false a0 a1) (fun c => globalz_set_table_gej_x c a0 a1)) /\
  (forall a0, every_build (j_set_ge true a0) (j_set_ge false a0) (fun c => j_set_ge_x c a0)) /\
  (forall a0 a1, every_build (j_eq_x_var true a0 a1) (j_eq_x_var false a0 a1) (fun c => j_eq_x_var_x c a0 a1)) /\
  (forall a0, every_build (j_neg true a0) (j_neg false a0) (fun c => j_neg_x c a0)) /\
  (forall a0, every_build (j_has_quad_y_var true a0) (j_has_quad_y_var false a0) (fun c => j_has_quad_y_var_x c a0)) /\
  (forall a0 a1 a2, every_build (j_double_var_in_place true a0 a1 a2) (j_double_var_in_place false a0 a1 a2) (fun c => j_double_var_in_place_x c a0 a1 a2)) /\
  (forall a0 a1, every_build (j_double_var true a0 a1) (j_double_var false a0 a1) (fun c => j_double_var_x c a0 a1)) /\
  (forall a0, every_build (j_double true a0) (j_double false a0) (fun c => j_double_x c a0)) /\
  (forall a0 a1, every_build (j_double_nonzero_in_place true a0 a1) (j_double_nonzero_in_place false a0 a1) (fun c => j_double_nonzero_in_place_x c a0 a1)) /\
  (forall a0 a1 a2, every_build (j_add_var true a0 a1 a2) (j_add_var false a0 a1 a2) (fun c => j_add_var_x c a0 a1 a2)) /\
  (forall a0 a1, every_build (j_add true a0 a1) (j_add false a0 a1) (fun c => j_add_x c a0 a1)) /\
  (forall a0 a1, every_build (j_add_ge true a0 a1) (j_add_ge false a0 a1) (fun c => j_add_ge_x c a0 a1)) /\
  (forall a0 a1 a2, every_build (j_add_ge_var true a0 a1 a2) (j_add_ge_var false a0 a1 a2) (fun c => j_add_ge_var_x c a0 a1 a2)) /\
  (forall a0 a1 a2, every_build (j_add_zinv_var true a0 a1 a2) (j_add_zinv_var false a0 a1 a2) (fun c => j_add_zinv_var_x c a0 a1 a2)) /\
  (forall a0 a1, every_build (j_rescale true a0 a1) (j_rescale false a0 a1) (fun c => j_rescale_x c a0 a1)) /\
  (forall a0, every_build (af_to_storage true a0) (af_to_storage false a0) (fun c => af_to_storage_x c a0)) /\
  (forall a0 a1, every_build (odd_multiples_table true a0 a1) (odd_multiples_table false a0 a1) (fun c => odd_multiples_table_x c a0 a1)) /\
  (forall a0 a1, every_build (odd_multiples_table_storage_var true a0 a1) (odd_multiples_table_storage_var false a0 a1) (fun c => odd_multiples_table_storage_var_x c a0 a1)) /\
  (every_build (ecmult_context_new true) (ecmult_context_new false) (fun c => ecmult_context_new_x c)) /\
  (forall a0, every_build (inv_all_var true a0) (inv_all_var false a0) (fun c => inv_all_var_x c a0)) /\
  (forall a0, every_build (set_all_gej_var true a0) (set_all_gej_var false a0) (fun c => set_all_gej_var_x c a0)) /\
  (every_build (ecmult_gen_context_new true) (ecmult_gen_context_new false) (fun c => ecmult_gen_context_new_x c)) /\
  (forall a0 a1 a2, 0 <= a2 -> every_build (ecmult_wnaf true a0 a1 a2) (ecmult_wnaf false a0 a1 a2) (fun c => ecmult_wnaf_x c a0 a1 a2)) /\
  (forall a0 a1 a2, every_build (ecmult_wnaf_const true a0 a1 a2) (ecmult_wnaf_const false a0 a1 a2) (fun c => ecmult_wnaf_const_x c a0 a1 a2)) /\
  (forall a0 a1 a2 a3, every_build (ecmult true a0 a1 a2 a3) (ecmult false a0 a1 a2 a3) (fun c => ecmult_x c a0 a1 a2 a3)) /\
  (forall a0 a1, every_build (ecmult_const true a0 a1) (ecmult_const false a0 a1) (fun c => ecmult_const_x c a0 a1)) /\
  (forall a0 a1, every_build (ecmult_gen true a0 a1) (ecmult_gen false a0 a1) (fun c => ecmult_gen_x c a0 a1)).
Proof.
  split; [intros; apply every_intro; [apply af_set_xquad_corner | apply af_set_xquad_corner | intros c c' B; apply (af_set_xquad_off c c' B) | apply af_set_xquad_quad]|].
  split; [intros; apply every_intro; [apply af_set_xo_var_corner | apply af_set_xo_var_corner | intros c c' B; apply (af_set_xo_var_off c c' B) | apply af_set_xo_var_quad]|].
  split; [intros; apply every_intro; [apply af_is_valid_var_corner | apply af_is_valid_var_corner | intros c c' B; apply (af_is_valid_var_off c c' B) | apply af_is_valid_var_quad]|].
  split; [intros; apply every_intro; [apply af_neg_corner | apply af_neg_corner | intros c c' B; apply (af_neg_off c c' B) | apply af_neg_quad]|].
  split; [intros; apply every_intro; [apply af_eq_corner | apply af_eq_corner | intros c c' B; apply (af_eq_off c c' B) | apply af_eq_quad]|].
  split; [intros; apply every_intro; [apply af_set_gej_corner | apply af_set_gej_corner | intros c c' B; apply (af_set_gej_off c c' B) | apply af_set_gej_quad]|].
  split; [intros; apply every_intro; [apply af_set_gej_var_corner | apply af_set_gej_var_corner | intros c c' B; apply (af_set_gej_var_off c c' B) | apply af_set_gej_var_quad]|].
  split; [intros; apply every_intro; [apply af_set_gej_zinv_corner | apply af_set_gej_zinv_corner | intros c c' B; apply (af_set_gej_zinv_off c c' B) | apply af_set_gej_zinv_quad]|].
  split; [intros; apply every_intro; [apply set_table_gej_var_corner | apply set_table_gej_var_corner | intros c c' B; apply (set_table_gej_var_off c c' B) | apply set_table_gej_var_quad]|].
  split; [intros; apply every_intro; [apply globalz_set_table_gej_corner | apply globalz_set_table_gej_corner | intros c c' B; apply (globalz_set_table_gej_off c c' B) | apply globalz_set_table_gej_quad]|].
  split; [intros; apply every_intro; [apply j_set_ge_corner | apply j_set_ge_corner | intros c c' B; apply (j_set_ge_off c c' B) | apply j_set_ge_quad]|].
  split; [intros; apply every_intro; [apply j_eq_x_var_corner | apply j_eq_x_var_corner | intros c c' B; apply (j_eq_x_var_off c c' B) | apply j_eq_x_var_quad]|].
  split; [intros; apply every_intro; [apply j_neg_corner | apply j_neg_corner | intros c c' B; apply (j_neg_off c c' B) | apply j_neg_quad]|].
  split; [intros; apply every_intro; [apply j_has_quad_y_var_corner | apply j_has_quad_y_var_corner | intros c c' B; apply (j_has_quad_y_var_off c c' B) | apply j_has_quad_y_var_quad]|].
  split; [intros; apply every_intro; [apply j_double_var_in_place_corner | apply j_double_var_in_place_corner | intros c c' B; apply (j_double_var_in_place_off c c' B) | apply j_double_var_in_place_quad]|].
  split; [intros; apply every_intro; [apply j_double_var_corner | apply j_double_var_corner | intros c c' B; apply (j_double_var_off c c' B) | apply j_double_var_quad]|].
  split; [intros; apply every_intro; [apply j_double_corner | apply j_double_corner | intros c c' B; apply (j_double_off c c' B) | apply j_double_quad]|].
  split; [intros; apply every_intro; [apply j_double_nonzero_in_place_corner | apply j_double_nonzero_in_place_corner | intros c c' B; apply (j_double_nonzero_in_place_off c c' B) | apply j_double_nonzero_in_place_quad]|].
  split; [intros; apply every_intro; [apply j_add_var_corner | apply j_add_var_corner | intros c c' B; apply (j_add_var_off c c' B) | apply j_add_var_quad]|].
  split; [intros; apply every_intro; [apply j_add_corner | apply j_add_corner | intros c c' B; apply (j_add_off c c' B) | apply j_add_quad]|].
  split; [intros; apply every_intro; [apply j_add_ge_corner | apply j_add_ge_corner | intros c c' B; apply (j_add_ge_off c c' B) | apply j_add_ge_quad]|].
  split; [intros; apply every_intro; [apply j_add_ge_var_corner | apply j_add_ge_var_corner | intros c c' B; apply (j_add_ge_var_off c c' B) | apply j_add_ge_var_quad]|].
  split; [intros; apply every_intro; [apply j_add_zinv_var_corner | apply j_add_zinv_var_corner | intros c c' B; apply (j_add_zinv_var_off c c' B) | apply j_add_zinv_var_quad]|].
  split; [intros; apply every_intro; [apply j_rescale_corner | apply j_rescale_corner | intros c c' B; apply (j_rescale_off c c' B) | apply j_rescale_quad]|].
  split; [intros; apply every_intro; [apply af_to_storage_corner | apply af_to_storage_corner | intros c c' B; apply (af_to_storage_off c c' B) | apply af_to_storage_quad]|].
  split; [intros; apply every_intro; [apply odd_multiples_table_corner | apply odd_multiples_table_corner | intros c c' B; apply (odd_multiples_table_off c c' B) | apply odd_multiples_table_quad]|].
  split; [intros; apply every_intro; [apply odd_multiples_table_storage_var_corner | apply odd_multiples_table_storage_var_corner | intros c c' B; apply (odd_multiples_table_storage_var_off c c' B) | apply odd_multiples_table_storage_var_quad]|].
  split; [intros; apply every_intro; [apply ecmult_context_new_corner | apply ecmult_context_new_corner | intros c c' B; apply (ecmult_context_new_off c c' B) | apply ecmult_context_new_quad]|].
  split; [intros; apply every_intro; [apply inv_all_var_corner | apply inv_all_var_corner | intros c c' B; apply (inv_all_var_off c c' B) | apply inv_all_var_quad]|].
  split; [intros; apply every_intro; [apply set_all_gej_var_corner | apply set_all_gej_var_corner | intros c c' B; apply (set_all_gej_var_off c c' B) | apply set_all_gej_var_quad]|].
  split; [intros; apply every_intro; [apply ecmult_gen_context_new_corner | apply ecmult_gen_context_new_corner | intros c c' B; apply (ecmult_gen_context_new_off c c' B) | apply ecmult_gen_context_new_quad]|].
  split; [intros; apply every_intro; [apply ecmult_wnaf_corner | apply ecmult_wnaf_corner | intros c c' B; apply (ecmult_wnaf_off c c' B) | apply ecmult_wnaf_quad; assumption]|].
  split; [intros; apply every_intro; [apply ecmult_wnaf_const_corner | apply ecmult_wnaf_const_corner | intros c c' B; apply (ecmult_wnaf_const_off c c' B) | apply ecmult_wnaf_const_quad]|].
  split; [intros; apply every_intro; [apply ecmult_corner | apply ecmult_corner | intros c c' B; apply (ecmult_off c c' B) | apply ecmult_quad]|].
  split; [intros; apply every_intro; [apply ecmult_const_corner | apply ecmult_const_corner | intros c c' B; apply (ecmult_const_off c c' B) | apply ecmult_const_quad]|].
  intros; apply every_intro; [apply ecmult_gen_corner | apply ecmult_gen_corner | intros c c' B; apply (ecmult_gen_off c c' B) | apply ecmult_gen_quad].
Qed.
(** Field elements and scalars. *)
Lemma C94_arithmetic_pf :
  (forall a0, every_build (f_normalize true a0) (f_normalize false a0) (fun c => f_normalize_x c a0)) /\
  (forall a0, every_build (f_normalize_weak true a0) (f_normalize_weak false a0) (fun c => f_normalize_weak_x c a0)) /\
  (forall a0, every_build (f_normalize_var true a0) (f_normalize_var false a0) (fun c => f_normalize_var_x c a0)) /\
  (forall a0, every_build (f_normalizes_to_zero true a0) (f_normalizes_to_zero false a0) (fun c => f_normalizes_to_zero_x c a0)) /\
  (forall a0, every_build (f_normalizes_to_zero_var true a0) (f_normalizes_to_zero_var false a0) (fun c => f_normalizes_to_zero_var_x c a0)) /\
  (forall a0, every_build (f_set_int true a0) (f_set_int false a0) (fun c => f_set_int_x c a0)) /\
  (forall a0, every_build (f_is_zero true a0) (f_is_zero false a0) (fun c => f_is_zero_x c a0)) /\
  (forall a0, every_build (f_is_odd true a0) (f_is_odd false a0) (fun c => f_is_odd_x c a0)) /\
  (forall a0 a1, every_build (f_set_b32 true a0 a1) (f_set_b32 false a0 a1) (fun c => f_set_b32_x c a0 a1)) /\
  (forall a0, every_build (f_b32 true a0) (f_b32 false a0) (fun c => f_b32_x c a0)) /\
  (forall a0 a1, every_build (f_neg true a0 a1) (f_neg false a0 a1) (fun c => f_neg_x c a0 a1)) /\
  (forall a0 a1, every_build (f_mul_int true a0 a1) (f_mul_int false a0 a1) (fun c => f_mul_int_x c a0 a1)) /\
  (forall a0 a1, every_build (f_add true a0 a1) (f_add false a0 a1) (fun c => f_add_x c a0 a1)) /\
  (forall a0 a1, every_build (f_cmp_var true a0 a1) (f_cmp_var false a0 a1) (fun c => f_cmp_var_x c a0 a1)) /\
  (forall a0 a1, every_build (f_eq_var true a0 a1) (f_eq_var false a0 a1) (fun c => f_eq_var_x c a0 a1)) /\
  (forall a0 a1, every_build (f_eq true a0 a1) (f_eq false a0 a1) (fun c => f_eq_x c a0 a1)) /\
  (forall a0 a1, every_build (f_mul true a0 a1) (f_mul false a0 a1) (fun c => f_mul_x c a0 a1)) /\
  (forall a0, every_build (f_sqr true a0) (f_sqr false a0) (fun c => f_sqr_x c a0)) /\
  (forall a0, every_build (f_sqrt true a0) (f_sqrt false a0) (fun c => f_sqrt_x c a0)) /\
  (forall a0, every_build (f_inv true a0) (f_inv false a0) (fun c => f_inv_x c a0)) /\
  (forall a0, every_build (f_is_quad_var true a0) (f_is_quad_var false a0) (fun c => f_is_quad_var_x c a0)) /\
  (forall a0, every_build (f_to_storage true a0) (f_to_storage false a0) (fun c => f_to_storage_x c a0)) /\
  (forall a0 a1 a2, 0 <= a2 -> every_build (s_bits true a0 a1 a2) (s_bits false a0 a1 a2) (fun c => s_bits_x c a0 a1 a2)) /\
  (forall a0 a1 a2, 0 <= a2 -> every_build (s_bits_var true a0 a1 a2) (s_bits_var false a0 a1 a2) (fun c => s_bits_var_x c a0 a1 a2)) /\
  (forall a0 a1 a2, every_build (s_cadd_bit true a0 a1 a2) (s_cadd_bit false a0 a1 a2) (fun c => s_cadd_bit_x c a0 a1 a2)) /\
  (forall a0, every_build (s_set_b32 true a0) (s_set_b32 false a0) (fun c => s_set_b32_x c a0)) /\
  (forall a0 a1, every_build (s_cond_neg true a0 a1) (s_cond_neg false a0 a1) (fun c => s_cond_neg_x c a0 a1)) /\
  (forall a0, every_build (s_neg true a0) (s_neg false a0) (fun c => s_neg_x c a0)) /\
  (forall a0 a1, every_build (s_mul true a0 a1) (s_mul false a0 a1) (fun c => s_mul_x c a0 a1)) /\
  (forall a0, every_build (s_sqr true a0) (s_sqr false a0) (fun c => s_sqr_x c a0)) /\
  (forall a0 a1, every_build (s_shr_int true a0 a1) (s_shr_int false a0 a1) (fun c => s_shr_int_x c a0 a1)) /\
  (forall a0, every_build (s_inv true a0) (s_inv false a0) (fun c => s_inv_x c a0)) /\
  (forall a0 a1, every_build (s_add true a0 a1) (s_add false a0 a1) (fun c => s_add_x c a0 a1)).
Proof.
  split; [intros; apply every_intro; [apply f_normalize_corner | apply f_normalize_corner | intros c c' B; apply (f_normalize_off c c' B) | apply f_normalize_quad]|].
  split; [intros; apply every_intro; [apply f_normalize_weak_corner | apply f_normalize_weak_corner | intros c c' B; apply (f_normalize_weak_off c c' B) | apply f_normalize_weak_quad]|].
  split; [intros; apply every_intro; [apply f_normalize_var_corner | apply f_normalize_var_corner | intros c c' B; apply (f_normalize_var_off c c' B) | apply f_normalize_var_quad]|].
  split; [intros; apply every_intro; [apply f_normalizes_to_zero_corner | apply f_normalizes_to_zero_corner | intros c c' B; apply (f_normalizes_to_zero_off c c' B) | apply f_normalizes_to_zero_quad]|].
  split; [intros; apply every_intro; [apply f_normalizes_to_zero_var_corner | apply f_normalizes_to_zero_var_corner | intros c c' B; apply (f_normalizes_to_zero_var_off c c' B) | apply f_normalizes_to_zero_var_quad]|].
  split; [intros; apply every_intro; [apply f_set_int_corner | apply f_set_int_corner | intros c c' B; apply (f_set_int_off c c' B) | apply f_set_int_quad]|].
  split; [intros; apply every_intro; [apply f_is_zero_corner | apply f_is_zero_corner | intros c c' B; apply (f_is_zero_off c c' B) | apply f_is_zero_quad]|].
  split; [intros; apply every_intro; [apply f_is_odd_corner | apply f_is_odd_corner | intros c c' B; apply (f_is_odd_off c c' B) | apply f_is_odd_quad]|].
  split; [intros; apply every_intro; [apply f_set_b32_corner | apply f_set_b32_corner | intros c c' B; apply (f_set_b32_off c c' B) | apply f_set_b32_quad]|].
  split; [intros; apply every_intro; [apply f_b32_corner | apply f_b32_corner | intros c c' B; apply (f_b32_off c c' B) | apply f_b32_quad]|].
  split; [intros; apply every_intro; [apply f_neg_corner | apply f_neg_corner | intros c c' B; apply (f_neg_off c c' B) | apply f_neg_quad]|].
  split; [intros; apply every_intro; [apply f_mul_int_corner | apply f_mul_int_corner | intros c c' B; apply (f_mul_int_off c c' B) | apply f_mul_int_quad]|].
  split; [intros; apply every_intro; [apply f_add_corner | apply f_add_corner | intros c c' B; apply (f_add_off c c' B) | apply f_add_quad]|].
  split; [intros; apply every_intro; [apply f_cmp_var_corner | apply f_cmp_var_corner | intros c c' B; apply (f_cmp_var_off c c' B) | apply f_cmp_var_quad]|].
  split; [intros; apply every_intro; [apply f_eq_var_corner | apply f_eq_var_corner | intros c c' B; apply (f_eq_var_off c c' B) | apply f_eq_var_quad]|].
  split; [intros; apply every_intro; [apply f_eq_corner | apply f_eq_corner | intros c c' B; apply (f_eq_off c c' B) | apply f_eq_quad]|].
  split; [intros; apply every_intro; [apply f_mul_corner | apply f_mul_corner | intros c c' B; apply (f_mul_off c c' B) | apply f_mul_quad]|].
  split; [intros; apply every_intro; [apply f_sqr_corner | apply f_sqr_corner | intros c c' B; apply (f_sqr_off c c' B) | apply f_sqr_quad]|].
  split; [intros; apply every_intro; [apply f_sqrt_corner | apply f_sqrt_corner | intros c c' B; apply (f_sqrt_off c c' B) | apply f_sqrt_quad]|].
  split; [intros; apply every_intro; [apply f_inv_corner | apply f_inv_corner | intros c c' B; apply (f_inv_off c c' B) | apply f_inv_quad]|].
  split; [intros; apply every_intro; [apply f_is_quad_var_corner | apply f_is_quad_var_corner | intros c c' B; apply (f_is_quad_var_off c c' B) | apply f_is_quad_var_quad]|].
  split; [intros; apply every_intro; [apply f_to_storage_corner | apply f_to_storage_corner | intros c c' B; apply (f_to_storage_off c c' B) | apply f_to_storage_quad]|].
  split; [intros; apply every_intro; [apply s_bits_corner | apply s_bits_corner | intros c c' B; apply (s_bits_off c c' B) | apply s_bits_quad; assumption]|].
  split; [intros; apply every_intro; [apply s_bits_var_corner | apply s_bits_var_corner | intros c c' B; apply (s_bits_var_off c c' B) | apply s_bits_var_quad; assumption]|].
  split; [intros; apply every_intro; [apply s_cadd_bit_corner | apply s_cadd_bit_corner | intros c c' B; apply (s_cadd_bit_off c c' B) | apply s_cadd_bit_quad]|].
  split; [intros; apply every_intro; [apply s_set_b32_corner | apply s_set_b32_corner | intros c c' B; apply (s_set_b32_off c c' B) | apply s_set_b32_quad]|].
  split; [intros; apply every_intro; [apply s_cond_neg_corner | apply s_cond_neg_corner | intros c c' B; apply (s_cond_neg_off c c' B) | apply s_cond_neg_quad]|].
  split; [intros; apply every_intro; [apply s_neg_corner | apply s_neg_corner | intros c c' B; apply (s_neg_off c c' B) | apply s_neg_quad]|].
  split; [intros; apply every_intro; [apply s_mul_corner | apply s_mul_corner | intros c c' B; apply (s_mul_off c c' B) | apply s_mul_quad]|].
  split; [intros; apply every_intro; [apply s_sqr_corner | apply s_sqr_corner | intros c c' B; apply (s_sqr_off c c' B) | apply s_sqr_quad]|].
  split; [intros; apply every_intro; [apply s_shr_int_corner | apply s_shr_int_corner | intros c c' B; apply (s_shr_int_off c c' B) | apply s_shr_int_quad]|].
  split; [intros; apply every_intro; [apply s_inv_corner | apply s_inv_corner | intros c c' B; apply (s_inv_off c c' B) | apply s_inv_quad]|].
  intros; apply every_intro; [apply s_add_corner | apply s_add_corner | intros c c' B; apply (s_add_off c c' B) | apply s_add_quad].
Qed.
(** Runs of the builds with one kind of check: both return, only the one with assertions panics, only the one with overflow checks panics. *)
Lemma C94_public_key_example_pf : pk_serialize_x (true, false) AFFINE_INFINITY = None /\ pk_serialize_x (false, true) AFFINE_INFINITY <> None /\ pk_try_from_x (true, false) AFFINE_G = Some (Ok AFFINE_G) /\ pk_try_from_x (false, true) AFFINE_G = Some (Ok AFFINE_G).
Proof. split; [vm_compute; reflexivity|]. split; [vm_compute; discriminate|]. split; vm_compute; reflexivity. Qed.
Lemma C94_secret_key_example_pf : sk_tweak_add_assign_x (true, false) (s_from_int 5) (s_from_int 6) = Some (s_from_int 11, Ok tt) /\ sk_tweak_add_assign_x (false, true) (s_from_int 5) (s_from_int 6) = Some (s_from_int 11, Ok tt).
Proof. split; vm_compute; reflexivity. Qed.
Lemma C94_signature_example_pf : sig_parse_der_x (true, false) [48; 6; 2; 1; 5; 2; 1; 9] = Some (Ok (Sig (s_from_int 5) (s_from_int 9))) /\ sig_parse_der_x (false, true) [48; 6; 2; 1; 5; 2; 1; 9] = Some (Ok (Sig (s_from_int 5) (s_from_int 9))).
Proof. split; vm_compute; reflexivity. Qed.
Lemma C94_points_example_pf : exists j, j_set_ge_x (false, true) AFFINE_G = Some j /\ match j_double_x (false, true) j with Some _ => True | None => False end.
Proof. eexists. split; [vm_compute; reflexivity|]. vm_compute. exact I. Qed.
(** The lowest word of the first operand is 2^32 - 1: the addition wraps, and the sum passes the assertion on its words. A bit count of 2^64 - 5 escapes the assertion on it in the same way. *)
Definition big_fe : field := Fe 4294967295 0 0 0 0 0 0 0 0 0 2 false.
Lemma C94_arithmetic_example_pf : f_add_x (false, true) big_fe FE1 = None /\ f_add_x (true, false) big_fe FE1 <> None /\ f_b32_x (true, false) big_fe = None /\ f_b32_x (false, true) big_fe <> None /\
  0 <= 2 ^ 64 - 5 /\ s_bits_x (true, false) (s_from_int 7) 10 (2 ^ 64 - 5) <> None /\ s_bits_x (false, true) (s_from_int 7) 10 (2 ^ 64 - 5) = None.
Proof. split; [vm_compute; reflexivity|]. split; [vm_compute; discriminate|]. split; [vm_compute; reflexivity|]. split; [vm_compute; discriminate|]. split; [vm_compute; discriminate|]. split; [vm_compute; discriminate | vm_compute; reflexivity]. Qed.

(** "The kind of check does not matter" is false: of the builds with one kind of check, either can be the only one to panic. *)
Lemma C94_kinds_agree_refuted_pf : (exists k, pk_serialize_x (true, false) k = None /\ pk_serialize_x (false, true) k <> None) /\
  (exists s offset count, 0 <= offset < 256 /\ 0 <= count < 2 ^ 64 /\ s_bits_x (true, false) s offset count <> None /\ s_bits_x (false, true) s offset count = None).
Proof.
  split; [exists AFFINE_INFINITY; split; [vm_compute; reflexivity | vm_compute; discriminate]|]. exists (s_from_int 7), 10, (2 ^ 64 - 5).
  split; [lia|]. split; [split; [vm_compute; discriminate | vm_compute; reflexivity]|]. split; [vm_compute; discriminate | vm_compute; reflexivity].
Qed.

(** Signing with one nonce: debug assertions make it panic on exactly the nonces whose point has x >= n, overflow checks never make it panic. *)
Lemma wp_up {A} (P : A -> Prop) (x : option A) (y : option A) : wp x P -> ref x y -> exists v, y = Some v /\ P v.
Proof. intros H R. destruct (wp_ex _ _ H) as (v & E & K). exists v. split; [apply R, E | exact K]. Qed.
Lemma up {A} (f : option A) (x : bool * bool -> option A) c : x (true, true) = f -> (forall c c', bge c c' -> ref (x c) (x c')) -> ref f (x c).
Proof. intros <- M. apply M, bge_top. Qed.
Ltac st := repeat (change (bind (Some ?x) ?f) with (f x); cbv beta iota).
Lemma sign_raw_some o ctx d z k : gen_ctx ctx -> 0 <= d < n -> 0 <= z < n -> 1 <= k < n -> exists r, sign_raw_x (false, o) ctx (scalar_of d) (scalar_of z) (scalar_of k) = Some r.
Proof.
  intros HC D Z K. apply gen_ctx_ok in HC. pose proof n_lt as NL. pose proof n_pos as NP. pose proof pnx as (PN & _ & P2). destruct (nonce_pt k K) as (X & Y & PT & _). unfold sign_raw_x.
  destruct (wp_up _ _ _ (ecmult_gen_ok true ctx k HC ltac:(lia)) (up _ (fun c => ecmult_gen_x c ctx (scalar_of k)) (false, o) (ecmult_gen_corner true _ _) (fun c c' B => ecmult_gen_off c c' B _ _))) as (j & -> & J). st.
  destruct (wp_up _ _ _ (af_set_gej_ok true j _ J) (up _ (fun c => af_set_gej_x c j) (false, o) (af_set_gej_corner true _) (fun c c' B => af_set_gej_off c c' B _))) as (a & -> & AA & AI). st.
  assert (I : af_inf a = false) by (rewrite AI; apply (jok_fin _ _ _ J); apply emul_nz; exact K).
  destruct AA as (FX & FY & AP). rewrite I in AP. apply jpt_one in AP. rewrite PT in AP. apply FAff_inj in AP. destruct AP as [-> ->].
  set (x := fe (af_x a)) in *. set (y := fe (af_y a)) in *. pose proof (val_range x) as XR.
  destruct (wp_up _ _ _ (f_normalize_rep true (af_x a) x ltac:(eapply frep_mono; [apply fok_frep; exact FX | lia])) (up _ (fun c => f_normalize_x c (af_x a)) (false, o) (f_normalize_corner true _) (fun c c' B => f_normalize_off c c' B _))) as (rx & -> & RX). st.
  destruct (wp_up _ _ _ (f_normalize_rep true (af_y a) y ltac:(eapply frep_mono; [apply fok_frep; exact FY | lia])) (up _ (fun c => f_normalize_x c (af_y a)) (false, o) (f_normalize_corner true _) (fun c c' B => f_normalize_off c c' B _))) as (ry & -> & RY). st.
  destruct (wp_up _ _ _ (f_b32_rep true rx x RX) (up _ (fun c => f_b32_x c rx) (false, o) (f_b32_corner true _) (fun c c' B => f_b32_off c c' B _))) as (b & -> & ->). st.
  destruct (be32_bytes (val x)) as [L B].
  rewrite (up _ (fun c => s_set_b32_x c (be_bytes 32 (val x))) (false, o) (s_set_b32_corner true _) (fun c c' B => s_set_b32_off c c' B _) _ (s_set_b32_eq true _ L B)). rewrite be32_val by lia. st.
  pose proof (Z.mod_pos_bound (val x) n ltac:(lia)) as MR. change (dassert (fst (false, o)) ?e) with (Some tt). st.
  destruct (wp_up _ _ _ (f_is_odd_rep true ry y RY) (up _ (fun c => f_is_odd_x c ry) (false, o) (f_is_odd_corner true _) (fun c c' B => f_is_odd_off c c' B _))) as (od & -> & ->). st.
  assert (MUL : forall u v, 0 <= u < 2 ^ 256 -> 0 <= v < 2 ^ 256 -> s_mul_x (false, o) (scalar_of u) (scalar_of v) = Some (scalar_of ((u * v) mod n))).
  { intros u v U V. apply (up _ (fun c => s_mul_x c (scalar_of u) (scalar_of v)) (false, o) (s_mul_corner true _ _) (fun c c' B => s_mul_off c c' B _ _)). apply s_mul_eq; assumption. }
  rewrite MUL by lia. st. pose proof (Z.mod_pos_bound (val x mod n * d) n ltac:(lia)) as MD.
  rewrite (up _ (fun c => s_add_x c (scalar_of ((val x mod n * d) mod n)) (scalar_of z)) (false, o) (s_add_corner true _ _) (fun c c' B => s_add_off c c' B _ _) _ (s_add_eq true _ _ MD Z)). st.
  pose proof (inv_n_rng k) as WR.
  rewrite (up _ (fun c => s_inv_x c (scalar_of k)) (false, o) (s_inv_corner true _) (fun c c' B => s_inv_off c c' B _) _ (s_inv_eq true k ltac:(lia))). st.
  pose proof (Z.mod_pos_bound ((val x mod n * d) mod n + z) n ltac:(lia)) as AR. rewrite MUL by lia. st.
  destruct (s_is_zero _); [eexists; reflexivity|]. destruct (s_is_high _); [|eexists; reflexivity].
  match goal with |- context [s_neg_x _ (scalar_of ?s)] => assert (SR : 0 <= s < n) by (apply Z.mod_pos_bound; lia); rewrite (up _ (fun c => s_neg_x c (scalar_of s)) (false, o) (s_neg_corner true _) (fun c c' B => s_neg_off c c' B _) _ (s_neg_eq true s ltac:(lia))) end.
  eexists; reflexivity.
Qed.
Lemma C94_sign_raw_pf : forall ctx d z k o, gen_ctx ctx -> 0 <= d < n -> 0 <= z < n -> 1 <= k < n ->
  (sign_raw_x (true, o) ctx (scalar_of d) (scalar_of z) (scalar_of k) = None <-> wraps k) /\
  (~ wraps k -> sign_raw_x (true, o) ctx (scalar_of d) (scalar_of z) (scalar_of k) = sign_raw_x (false, false) ctx (scalar_of d) (scalar_of z) (scalar_of k)) /\
  sign_raw_x (false, o) ctx (scalar_of d) (scalar_of z) (scalar_of k) = sign_raw_x (false, false) ctx (scalar_of d) (scalar_of z) (scalar_of k) /\
  sign_raw_x (false, o) ctx (scalar_of d) (scalar_of z) (scalar_of k) <> None.
Proof.
  intros ctx d z k o HC D Z K. destruct (C31_debug_release_pf ctx d z k HC D Z K) as (H1 & H2 & H3). destruct (sign_raw_some o ctx d z k HC D Z K) as (r & R). destruct (sign_raw_some true ctx d z k HC D Z K) as (rt & RT).
  rewrite <- (sign_raw_corner true) in H1, H2. rewrite <- (sign_raw_corner false) in H2, H3.
  split; [|split; [|split]].
  - split.
    + intros N. apply H1. destruct (sign_raw_x (true, true) _ _ _ _) eqn:E; [|reflexivity]. rewrite (sign_raw_off _ _ (bge_top (true, o)) _ _ _ _ _ E) in N. discriminate N.
    + intros W. apply H1 in W. destruct o; [exact W|]. destruct (quad_none _ _ _ _ (sign_raw_quad ctx (scalar_of d) (scalar_of z) (scalar_of k)) W) as [N|N]; [exact N | congruence].
  - intros W. specialize (H2 W). rewrite <- H2. destruct (sign_raw_x (true, true) ctx (scalar_of d) (scalar_of z) (scalar_of k)) eqn:E; [apply (sign_raw_off _ _ (bge_top (true, o)) _ _ _ _ _ E) | congruence].
  - rewrite R. symmetry. apply (sign_raw_off _ _ (bge_bot (false, o)) _ _ _ _ _ R).
  - rewrite R. discriminate.
Qed.
Lemma C94_sign_raw_example_pf : exists ctx k k', gen_ctx ctx /\ 0 <= 1 < n /\ 1 <= k < n /\ wraps k /\ 1 <= k' < n /\ ~ wraps k'.
Proof.
  destruct C53_ecmult_gen_example_pf as (ctx & _ & HC). destruct C31_wrapping_nonces_exist_pf as (_ & k & x & y & K & _ & _ & W). exists ctx, k, 1. split; [exact HC|]. split; [vmr|]. split; [exact K|]. split; [exact W|]. split; [vmr|].
  intros (_ & x1 & y1 & E & H). rewrite smulG, emul_1, sp_G in E by lia. injection E as <- <-. revert H. vm_compute. intros H. apply H. reflexivity.
Qed.
(** [sign]: without debug assertions it is what the release build does, overflow checks or not, and never a panic. *)
Lemma C94_sign_pf : forall drbg fuel ctx d z o, gen_ctx ctx -> (forall s s', stream (drbg s s')) -> 0 <= d < n -> 0 <= z < n ->
  sign_x (false, o) drbg fuel ctx (scalar_of z) (scalar_of d) = sign false drbg fuel ctx (scalar_of z) (scalar_of d) /\ sign_x (false, o) drbg fuel ctx (scalar_of z) (scalar_of d) <> Panic.
Proof.
  intros drbg fuel ctx d z o HC HS D Z. unfold sign_x, sign. specialize (HS (s_b32 (scalar_of d)) (s_b32 (scalar_of z))). set (gen := drbg _ _) in *. clearbody gen. generalize 0%nat.
  induction fuel as [|f IH]; intros i; cbn [sign_loop_x sign_loop]; [split; [reflexivity | discriminate]|].
  destruct (HS i) as [L B]. pose proof (nonce_range gen i HS) as NR. unfold nonce in NR.
  rewrite (up _ (fun c => s_set_b32_x c (gen i)) (false, o) (s_set_b32_corner true _) (fun c c' B => s_set_b32_off c c' B _) _ (s_set_b32_eq true _ L B)). rewrite (s_set_b32_eq false _ L B). cbv beta iota.
  pose proof (Z.mod_pos_bound (be_val (gen i)) n n_pos) as MR. pose proof n_lt. rewrite s_is_zero_eq by lia.
  destruct (Z.leb_spec n (be_val (gen i))) as [?G|?G]; cbn [negb andb]; [apply IH|]. destruct (Z.eqb_spec (be_val (gen i) mod n) 0) as [?E|?E]; cbn [negb]; [apply IH|].
  destruct (C94_sign_raw_pf ctx d z (be_val (gen i) mod n) o HC D Z ltac:(lia)) as (_ & _ & H1 & H2). rewrite <- (sign_raw_corner false), <- H1. destruct (sign_raw_x (false, o) ctx _ _ _) as [[[[? ?] ?]|]|]; [split; [reflexivity | discriminate] | apply IH | contradiction].
Qed.
Lemma C94_sign_example_pf : exists drbg ctx g, gen_ctx ctx /\ (forall s s', stream (drbg s s')) /\ 0 <= 1 < n /\ sign_x (false, true) drbg 2 ctx (scalar_of 1) (scalar_of 1) = Done g.
Proof.
  destruct C53_ecmult_gen_example_pf as (c & _ & HC). destruct one_stream_at as [E1 E0]. assert (D : 0 <= 1 < n) by vmr.
  destruct (C29_first_usable_pf false (fun _ _ => one_stream) 2 c 1 1 1 HC D D one_stream_ok) as (r & s & id & _ & H); [lia | | rewrite E1; exact usable_1 | |].
  - intros l L. rewrite (E0 l L). intros (K & _). lia.
  - left. reflexivity.
  - exists (fun _ _ => one_stream), c, (Sig (scalar_of r) (scalar_of s), id). split; [exact HC|]. split; [intros _ _; exact one_stream_ok|]. split; [exact D|].
    rewrite (proj1 (C94_sign_pf (fun _ _ => one_stream) 2 c 1 1 true HC (fun _ _ => one_stream_ok) D D)). exact H.
Qed.
(** For values a program can hold, every build returns, and all four return the same. *)
Definition same_in_all {A} (d : option A) (x : bool * bool -> option A) : Prop := d <> None /\ forall c, x c = d.
Lemma same_intro {A} (d r : option A) (x : bool * bool -> option A) : d <> None -> every_build d r x -> same_in_all d x.
Proof. intros N (_ & _ & H & _). split; [exact N|]. intros c. destruct d as [v|]; [apply H; reflexivity | contradiction]. Qed.
Lemma C94_reachable_pf : forall gc vc k t q q' qs m g i D, reachable (VGen gc) -> reachable (VVerify vc) -> reachable (VSec k) -> reachable (VSec t) ->
  reachable (VPub q) -> reachable (VPub q') -> (forall x, In x qs -> reachable (VPub x)) -> reachable (VMsg m) -> reachable (VSig g) -> reachable (VRid i) ->
  same_in_all (pk_from_secret_key true gc k) (fun c => pk_from_secret_key_x c gc k) /\
  same_in_all (pk_serialize true q) (fun c => pk_serialize_x c q) /\
  same_in_all (pk_serialize_compressed true q) (fun c => pk_serialize_compressed_x c q) /\
  same_in_all (pk_eq true q q') (fun c => pk_eq_x c q q') /\
  same_in_all (pk_tweak_add_assign true vc q t) (fun c => pk_tweak_add_assign_x c vc q t) /\
  same_in_all (pk_tweak_mul_assign true vc q t) (fun c => pk_tweak_mul_assign_x c vc q t) /\
  same_in_all (pk_combine true qs) (fun c => pk_combine_x c qs) /\
  same_in_all (sk_tweak_add_assign true k t) (fun c => sk_tweak_add_assign_x c k t) /\
  same_in_all (sk_tweak_mul_assign true k t) (fun c => sk_tweak_mul_assign_x c k t) /\
  same_in_all (sk_inv true k) (fun c => sk_inv_x c k) /\
  same_in_all (sig_normalize_s true g) (fun c => sig_normalize_s_x c g) /\
  same_in_all (verify true vc m g q) (fun c => verify_x c vc m g q) /\
  same_in_all (recover true vc m g i) (fun c => recover_x c vc m g i) /\
  same_in_all (shared_secret_new true D q k) (fun c => shared_secret_new_x c D q k).
Proof.
  intros gc vc k t q q' qs m g i D R1 R2 R3 R4 R5 R6 R7 R8 R9 R10. destruct (C40_no_panic_pf true gc vc k t q q' qs m g i R1 R2 R3 R4 R5 R6 R7 R8 R9 R10) as (H1 & H2 & H3 & H4 & H5 & H6 & H7 & H8 & H9 & H10 & H11 & H12 & H13 & H14 & _).
  split; [eapply same_intro; [exact H1|]; apply every_intro; [apply pk_from_secret_key_corner | apply pk_from_secret_key_corner | intros c c' B; apply (pk_from_secret_key_off c c' B) | apply pk_from_secret_key_quad]|].
  split; [eapply same_intro; [exact H2|]; apply every_intro; [apply pk_serialize_corner | apply pk_serialize_corner | intros c c' B; apply (pk_serialize_off c c' B) | apply pk_serialize_quad]|].
  split; [eapply same_intro; [exact H3|]; apply every_intro; [apply pk_serialize_compressed_corner | apply pk_serialize_compressed_corner | intros c c' B; apply (pk_serialize_compressed_off c c' B) | apply pk_serialize_compressed_quad]|].
  split; [eapply same_intro; [exact H4|]; apply every_intro; [apply pk_eq_corner | apply pk_eq_corner | intros c c' B; apply (pk_eq_off c c' B) | apply pk_eq_quad]|].
  split; [eapply same_intro; [exact H5|]; apply every_intro; [apply pk_tweak_add_assign_corner | apply pk_tweak_add_assign_corner | intros c c' B; apply (pk_tweak_add_assign_off c c' B) | apply pk_tweak_add_assign_quad]|].
  split; [eapply same_intro; [exact H6|]; apply every_intro; [apply pk_tweak_mul_assign_corner | apply pk_tweak_mul_assign_corner | intros c c' B; apply (pk_tweak_mul_assign_off c c' B) | apply pk_tweak_mul_assign_quad]|].
  split; [eapply same_intro; [exact H7|]; apply every_intro; [apply pk_combine_corner | apply pk_combine_corner | intros c c' B; apply (pk_combine_off c c' B) | apply pk_combine_quad]|].
  split; [eapply same_intro; [exact H8|]; apply every_intro; [apply sk_tweak_add_assign_corner | apply sk_tweak_add_assign_corner | intros c c' B; apply (sk_tweak_add_assign_off c c' B) | apply sk_tweak_add_assign_quad]|].
  split; [eapply same_intro; [exact H9|]; apply every_intro; [apply sk_tweak_mul_assign_corner | apply sk_tweak_mul_assign_corner | intros c c' B; apply (sk_tweak_mul_assign_off c c' B) | apply sk_tweak_mul_assign_quad]|].
  split; [eapply same_intro; [exact H10|]; apply every_intro; [apply sk_inv_corner | apply sk_inv_corner | intros c c' B; apply (sk_inv_off c c' B) | apply sk_inv_quad]|].
  split; [eapply same_intro; [exact H11|]; apply every_intro; [apply sig_normalize_s_corner | apply sig_normalize_s_corner | intros c c' B; apply (sig_normalize_s_off c c' B) | apply sig_normalize_s_quad]|].
  split; [eapply same_intro; [exact H12|]; apply every_intro; [apply verify_corner | apply verify_corner | intros c c' B; apply (verify_off c c' B) | apply verify_quad]|].
  split; [eapply same_intro; [exact H13|]; apply every_intro; [apply recover_corner | apply recover_corner | intros c c' B; apply (recover_off c c' B) | apply recover_quad]|].
  eapply same_intro; [exact (H14 D)|]; apply every_intro; [apply shared_secret_new_corner | apply shared_secret_new_corner | intros c c' B; apply (shared_secret_new_off c c' B) | apply shared_secret_new_quad].
Qed.
Lemma C94_reachable_example_pf : exists gc vc k q m g i, reachable (VGen gc) /\ reachable (VVerify vc) /\ reachable (VSec k) /\ reachable (VPub q) /\ reachable (VMsg m) /\ reachable (VSig g) /\ reachable (VRid i).
Proof. exact C40_no_panic_example_pf. Qed.
