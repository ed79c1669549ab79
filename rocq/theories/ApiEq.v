(** Equality and order of the library's values as their users see them. *)
From Verif Require Import Word MField MScalar MGroup MEcmult MDer MApi MEq WP FieldMul FieldNorm FieldOps FieldStore ScalarOps Spec Bits Denote Fp Key Ctx ApiScalar ApiDer ApiPub ApiGroup ApiEcdsa ApiKeys ApiArith.

Lemma s_eqb_val a b : 0 <= a < 2 ^ 256 -> 0 <= b < 2 ^ 256 -> (s_eqb (scalar_of a) (scalar_of b) = true <-> a = b).
Proof. intros A B. rewrite s_eqb_eq. split; [apply scalar_of_inj; assumption | intros ->; reflexivity]. Qed.
Lemma be32_inj a b : 0 <= a < 2 ^ 256 -> 0 <= b < 2 ^ 256 -> be_bytes 32 a = be_bytes 32 b -> a = b.
Proof. intros A B E. apply (f_equal be_val) in E. rewrite !val_be_bytes_32 in E by assumption. exact E. Qed.

Lemma split_64 (b : list Z) : length b = 64%nat -> exists a c, b = a ++ c /\ length a = 32%nat /\ length c = 32%nat.
Proof. intros L. exists (firstn 32 b), (skipn 32 b). rewrite firstn_skipn, firstn_length, skipn_length, L. auto. Qed.
Lemma sig_parsed dbg b g : length b = 64%nat -> bytes b -> sig_parse_standard dbg b = Some (Ok g) ->
  exists r s, g = Sig (scalar_of r) (scalar_of s) /\ 0 <= r < n /\ 0 <= s < n.
Proof.
  intros L B E. destruct (split_64 b L) as (a & c & -> & LA & LC). apply Forall_app in B. destruct B as [BA BC]. rewrite (C08_sig_parse_standard_pf dbg a c LA LC BA BC) in E.
  pose proof (be_val_range a BA). pose proof (be_val_range c BC). destruct (Z.ltb_spec (be_val a) n), (Z.ltb_spec (be_val c) n); try discriminate E. apply some_inv in E.
  exists (be_val a), (be_val c). split; [cbn [andb] in E; congruence | lia].
Qed.
Lemma smulG_inj d e : 0 <= d < n -> 0 <= e < n -> smul d G = smul e G -> d = e.
Proof.
  intros D E H. destruct C56_cyclic_example_pf as (O & _). destruct C56_cyclic_pf as (_ & _ & _ & N). apply (C56_scalar_action_pf G d e O ltac:(lia) ltac:(lia)) in H; [|exact N].
  rewrite !Z.mod_small in H by lia. exact H.
Qed.

Lemma fs_eqb_val x y : fs_ok x -> fs_ok y -> (fs_eqb x y = true <-> fsv x = fsv y).
Proof.
  destruct x as [a0 a1 a2 a3 a4 a5 a6 a7], y as [b0 b1 b2 b3 b4 b5 b6 b7]. unfold fs_ok, u32x8. intros A B. cbn [fs_eqb fsv]. rewrite !andb_true_iff, !Z.eqb_eq. split; [intros [[[[[[[-> ->] ->] ->] ->] ->] ->] ->]; reflexivity|].
  intros E. pose proof (sv_inj (Sc a0 a1 a2 a3 a4 a5 a6 a7) (Sc b0 b1 b2 b3 b4 b5 b6 b7) A B E) as H. injection H as -> -> -> -> -> -> -> ->. auto 10.
Qed.

(** * C75 *)
(** Two secret keys are equal exactly if they serialize to the same bytes, for every value a scalar can hold; so are two messages. *)
Lemma C75_secret_message_pf : forall a b, 0 <= a < 2 ^ 256 -> 0 <= b < 2 ^ 256 ->
  (sk_eqb (scalar_of a) (scalar_of b) = true <-> sk_serialize (scalar_of a) = sk_serialize (scalar_of b)) /\
  (msg_eqb (scalar_of a) (scalar_of b) = true <-> msg_serialize (scalar_of a) = msg_serialize (scalar_of b)).
Proof.
  intros a b A B. unfold sk_eqb, msg_eqb, sk_serialize, msg_serialize. rewrite s_eqb_val, !s_b32_eq by assumption.
  assert (E : a = b <-> be_bytes 32 a = be_bytes 32 b) by (split; [intros ->; reflexivity | apply be32_inj; assumption]). split; exact E.
Qed.
Lemma C75_secret_message_example_pf : sk_eqb (scalar_of 5) (scalar_of (n + 5)) = false /\ sk_eqb (scalar_of 5) (scalar_of 5) = true.
Proof. split; vmr. Qed.
(** Two signatures are equal exactly if their 64-byte forms are, for every value the two scalars can hold; and, where the DER form can be read back, exactly if the DER forms are. *)
Lemma C75_signature_pf : forall r s r' s', 0 <= r < 2 ^ 256 -> 0 <= s < 2 ^ 256 -> 0 <= r' < 2 ^ 256 -> 0 <= s' < 2 ^ 256 ->
  let g := Sig (scalar_of r) (scalar_of s) in let g' := Sig (scalar_of r') (scalar_of s') in
  (sig_eqb g g' = true <-> sig_serialize g = sig_serialize g') /\
  (r < n -> 1 <= s < n -> r' < n -> 1 <= s' < n -> (sig_eqb g g' = true <-> sig_serialize_der g = sig_serialize_der g')).
Proof.
  intros r s r' s' R S R' S' g g'.
  assert (E : sig_eqb g g' = true <-> r = r' /\ s = s').
  { unfold sig_eqb, g, g'. cbn [sig_r sig_s]. rewrite andb_true_iff, !s_eqb_val by assumption. reflexivity. }
  rewrite E. split.
  - unfold sig_serialize, g, g'. cbn [sig_r sig_s]. rewrite !s_b32_eq by assumption. split; [intros [-> ->]; reflexivity|].
    intros H. apply app_inj_len in H; [|rewrite !be_len; reflexivity]. destruct H as [H1 H2]. split; apply be32_inj; assumption.
  - intros RN SN RN' SN'. split; [intros [-> ->]; reflexivity|]. intros H.
    pose proof (C13_parse_serialize_der_pf true r s ltac:(lia) SN) as P. pose proof (C13_parse_serialize_der_pf true r' s' ltac:(lia) SN') as P'.
    fold g in P. fold g' in P'. rewrite H, P' in P. apply some_inv in P. assert (G : g' = g) by congruence.
    pose proof (f_equal sig_r G) as G1. pose proof (f_equal sig_s G) as G2. unfold g, g' in G1, G2. cbn [sig_r sig_s] in G1, G2. split; symmetry; apply scalar_of_inj; assumption.
Qed.
Lemma C75_signature_example_pf : sig_eqb (Sig (scalar_of 5) (scalar_of 7)) (Sig (scalar_of 7) (scalar_of 5)) = false /\ sig_eqb (Sig (scalar_of 5) (scalar_of 7)) (Sig (scalar_of 5) (scalar_of 8)) = false /\
  sig_eqb (Sig (scalar_of 5) (scalar_of 7)) (Sig (scalar_of 5) (scalar_of 7)) = true.
Proof. repeat split; vmr. Qed.
(** What was read from two byte strings is equal exactly if the byte strings are: secret keys, 64-byte signatures, recovery ids in either numbering, and digests of shared secrets. *)
Lemma C75_parsed_pf : forall dbg,
  (forall a b k l, length a = 32%nat -> length b = 32%nat -> bytes a -> bytes b -> sk_parse dbg a = Some (Ok k) -> sk_parse dbg b = Some (Ok l) -> (sk_eqb k l = true <-> a = b)) /\
  (forall a b g h, length a = 64%nat -> length b = 64%nat -> bytes a -> bytes b -> sig_parse_standard dbg a = Some (Ok g) -> sig_parse_standard dbg b = Some (Ok h) -> (sig_eqb g h = true <-> a = b)) /\
  (forall a b i j, 0 <= a < 256 -> 0 <= b < 256 -> rid_parse a = Ok i -> rid_parse b = Ok j -> (rid_eqb i j = true <-> a = b)) /\
  (forall a b i j, 0 <= a < 256 -> 0 <= b < 256 -> rid_parse_rpc a = Ok i -> rid_parse_rpc b = Ok j -> (rid_eqb i j = true <-> a = b)) /\
  (forall a b, ss_eqb a b = true <-> a = b).
Proof.
  intros dbg. split; [|split; [|split; [|split]]].
  - intros a b k l LA LB BA BB. rewrite (C01_seckey_parse_pf dbg a LA BA), (C01_seckey_parse_pf dbg b LB BB).
    destruct (Z.leb_spec 1 (be_val a)), (Z.ltb_spec (be_val a) n); try discriminate. destruct (Z.leb_spec 1 (be_val b)), (Z.ltb_spec (be_val b) n); try discriminate.
    intros E1 E2. apply some_inv in E1, E2. cbn [andb] in E1, E2. assert (k = scalar_of (be_val a)) as -> by congruence. assert (l = scalar_of (be_val b)) as -> by congruence.
    pose proof n_lt. unfold sk_eqb. rewrite s_eqb_val by lia. split; [apply be_val_inj; [congruence | exact BA | exact BB] | intros ->; reflexivity].
  - intros a b g h LA LB BA BB E1 E2. pose proof (C08_sig_parse_serialize_pf dbg a g LA BA E1) as S1. pose proof (C08_sig_parse_serialize_pf dbg b h LB BB E2) as S2.
    destruct (sig_parsed dbg a g LA BA E1) as (r & s & -> & R & S). destruct (sig_parsed dbg b h LB BB E2) as (r' & s' & -> & R' & S'). pose proof n_lt.
    rewrite (proj1 (C75_signature_pf r s r' s' ltac:(lia) ltac:(lia) ltac:(lia) ltac:(lia))), S1, S2. reflexivity.
  - intros a b i j A B. rewrite (proj1 (C11_recovery_id_pf a A)), (proj1 (C11_recovery_id_pf b B)). destruct (Z.leb_spec a 3), (Z.leb_spec b 3); try discriminate.
    intros [= <-] [= <-]. unfold rid_eqb. apply Z.eqb_eq.
  - intros a b i j A B. rewrite (proj1 (proj2 (C11_recovery_id_pf a A))), (proj1 (proj2 (C11_recovery_id_pf b B))).
    destruct ((27 <=? a) && (a <=? 30)); [|discriminate]. destruct ((27 <=? b) && (b <=? 30)); [|discriminate]. intros [= <-] [= <-]. unfold rid_eqb. rewrite Z.eqb_eq. lia.
  - induction a as [|x a IH]; intros [|y b]; cbn [ss_eqb]; [tauto | | |].
    + split; discriminate.
    + split; discriminate.
    + rewrite andb_true_iff, Z.eqb_eq, IH. split; [intros [-> ->]; reflexivity | intros [= -> ->]; auto].
Qed.
Lemma C75_parsed_example_pf : sk_parse true (be_bytes 32 5) = Some (Ok (scalar_of 5)) /\ rid_parse 3 = Ok 3 /\ rid_parse_rpc 30 = Ok 3 /\ ss_eqb [1; 2] [1; 2; 3] = false /\ ss_eqb [1; 2] [1; 2] = true.
Proof. repeat split; vmr. Qed.
(** The public keys of two secret keys are equal exactly if the secret keys are. *)
Lemma C75_public_secret_pf : forall dbg ctx ctx' d e, gen_ctx ctx -> gen_ctx ctx' -> 1 <= d < n -> 1 <= e < n ->
  exists k k', pk_from_secret_key dbg ctx (scalar_of d) = Some k /\ pk_from_secret_key dbg ctx' (scalar_of e) = Some k' /\ pk_eq dbg k k' = Some (sk_eqb (scalar_of d) (scalar_of e)).
Proof.
  intros dbg ctx ctx' d e C C' D E. destruct (C21_from_secret_key_pf dbg ctx d C D) as (k & K1 & _ & K2 & N1), (C21_from_secret_key_pf dbg ctx' e C' E) as (k' & K1' & _ & K2' & N1').
  exists k, k'. split; [exact K1|]. split; [exact K1'|]. destruct (smul d G) as [|x y] eqn:ED; [contradiction|]. destruct (smul e G) as [|x' y'] eqn:EE; [contradiction|].
  destruct (C07_equality_pf dbg k k' x y x' y' K2 K2') as (b & EB & HB & _). rewrite EB. f_equal. apply Bool.eq_iff_eq_true. pose proof n_lt. unfold sk_eqb. rewrite s_eqb_val by lia. rewrite HB. split.
  - intros [-> ->]. apply (smulG_inj d e); [lia | lia | congruence].
  - intros ->. rewrite ED in EE. split; congruence.
Qed.
Lemma C75_public_secret_example_pf : (exists ctx, gen_ctx ctx) /\ 1 <= n - 1 < n.
Proof. split; [apply C35_commutes_example_pf | vmr]. Qed.
(** On normalized field elements the order is that of the values, and agrees with equality. *)
Lemma C75_field_order_pf : forall dbg f g, fcan f -> fcan g -> exists c, f_cmp dbg f g = Some c /\ f_partial_cmp dbg f g = Some (Some c) /\
  (c = Eq <-> f_eq dbg f g = Some true) /\ (c = Eq <-> fv f = fv g) /\ (c = Lt <-> fv f < fv g) /\ (c = Gt <-> fv g < fv f) /\ f_cmp dbg g f = Some (CompOpp c).
Proof.
  intros dbg f g F G. exists (fv f ?= fv g). unfold f_partial_cmp, f_cmp. rewrite (proj1 (C46_compare_pf dbg f g F G)), (proj1 (C46_compare_pf dbg g f G F)). cbn [bind].
  rewrite (proj1 (C44_equality_pf dbg f g) 1 1 (proj1 F) (proj1 G) ltac:(lia)).
  assert (FB : 0 <= fv f < p) by (exact (fcan_range _ F)). assert (GB : 0 <= fv g < p) by (exact (fcan_range _ G)). rewrite !Z.mod_small by assumption.
  split; [reflexivity|]. split; [reflexivity|]. split; [|split; [apply Z.compare_eq_iff|split; [apply Z.compare_lt_iff|split; [apply Z.compare_gt_iff|rewrite Z.compare_antisym; reflexivity]]]].
  rewrite Z.compare_eq_iff. split; [intros ->; rewrite Z.eqb_refl; reflexivity|]. intros E. apply some_inv in E. apply Z.eqb_eq, E.
Qed.
Lemma C75_field_order_example_pf : fcan (Fe 0 1 0 0 0 0 0 0 0 0 1 true) /\ f_cmp true (Fe 67108863 0 0 0 0 0 0 0 0 0 1 true) (Fe 0 1 0 0 0 0 0 0 0 0 1 true) = Some Lt.
Proof. split; [|vmr]. split; [apply C44_contract_pf; cbn [contract]; repeat apply conj; try lia; [repeat apply Forall_cons; try apply Forall_nil; lia | intros _; split; [lia | vmr]] | reflexivity]. Qed.
(** Without normalization it is not: a release build finds 0 and p equal but 0 below p, and a debug build panics. *)
Lemma C75_field_order_refuted_pf : exists f g, fok 1 f /\ fok 1 g /\ f_eq false f g = Some true /\ f_cmp false f g = Some Lt /\ f_cmp true f g = None.
Proof.
  exists (Fe 0 0 0 0 0 0 0 0 0 0 1 true), (Fe 67107887 67108799 67108863 67108863 67108863 67108863 67108863 67108863 67108863 4194303 1 false).
  split; [|split; [|repeat split; vmr]]; (apply C44_contract_pf; cbn [contract]; repeat apply conj; try lia; try (repeat apply Forall_cons; try apply Forall_nil; lia); (intros E; split; [lia | vmr])).
Qed.
(** Two affine values denoting the point at infinity can be unequal: the unused coordinates are compared too. *)
Lemma C75_infinity_refuted_pf : forall dbg, exists a b, key_at a Inf /\ key_at b Inf /\ af_eq dbg a b = Some false.
Proof.
  intros dbg. exists (Af f_default f_default true), (Af (Fe 1 0 0 0 0 0 0 0 0 0 1 true) f_default true).
  assert (D : fok 6 f_default) by (apply (fok_mono 1 6); [exact (proj1 (proj1 fcrep_default)) | lia]).
  assert (O : fok 6 (Fe 1 0 0 0 0 0 0 0 0 0 1 true)) by (apply C44_contract_pf; cbn [contract]; repeat apply conj; try lia; [repeat apply Forall_cons; try apply Forall_nil; lia | intros _; split; [lia | vmr]]).
  split; [|split].
  - split; [exact D|]. split; [exact D|]. split; [exact I | reflexivity].
  - split; [exact O|]. split; [exact D|]. split; [exact I | reflexivity].
  - destruct dbg; vmr.
Qed.
(** Two stored points are equal exactly if they are the same point. *)
Lemma C75_stored_pf : forall s s' P P', stored_at s P -> stored_at s' P' -> (as_eqb s s' = true <-> P = P').
Proof.
  intros [x y] [x' y'] P P' (X & Y & _ & ->) (X' & Y' & _ & ->). unfold as_eqb. rewrite andb_true_iff, !fs_eqb_val by assumption. split; [intros [-> ->]; reflexivity | intros [= -> ->]; auto].
Qed.
Lemma C75_stored_example_pf : exists ctx s, verify_ctx ctx /\ stored_at s G.
Proof.
  destruct (proj1 C51_ecmult_example_pf) as ([t] & _ & L & H). destruct t as [|s t]; [discriminate L|]. exists (Ctx (s :: t)), s. split; [split; [exact L | exact H]|].
  specialize (H 0%nat s eq_refl). rewrite <- (smul_1 G) by apply C56_cyclic_example_pf. exact H.
Qed.
