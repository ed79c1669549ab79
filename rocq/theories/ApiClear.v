(** Use after [clear]: the zero secret key, and the public key at infinity that [PublicKey::from_secret_key] makes of it, in every function of the API. *)
From Coq Require Import Znumtheory Field Zdiv.
From Verif Require Import Word MField MScalar MGroup MEcmult MEcdsa MDer MApi WP FieldMul FieldNorm FieldZero Spec Fp Bits FieldOps FieldCodec FieldStore ScalarMul ScalarOps ScalarMore ScalarBits Denote Unred Curve Group Chain Order Jac JacOps Table Wnaf WnafC Ecmult Lift Gen Key Ctx ApiScalar ApiDer ApiPub ApiGroup Ecdsa ApiEcdsa ApiKeys ApiArith ApiMore ApiUnred ApiNonce Zero.

(** A key whose coordinates are both 0 modulo p (no point of the curve has these), with the given infinity flag. *)
Definition null_key (inf : bool) (k : pubkey) : Prop :=
  fok 6 (af_x k) /\ fok 6 (af_y k) /\ fv (af_x k) mod p = 0 /\ fv (af_y k) mod p = 0 /\ af_inf k = inf.
Lemma zero_frep k f : fok k f -> fv f mod p = 0 -> frep k f f0.
Proof. intros H E. split; [exact H|]. apply val_inj. unfold fe. rewrite val_toF, E. reflexivity. Qed.
Lemma frep_zero k f : frep k f f0 -> fok k f /\ fv f mod p = 0.
Proof. intros [H E]. split; [exact H|]. apply (f_equal val) in E. unfold fe in E. rewrite val_toF in E. exact E. Qed.
Lemma null_rep i k : null_key i k <-> frep 6 (af_x k) f0 /\ frep 6 (af_y k) f0 /\ af_inf k = i.
Proof.
  split.
  - intros (X & Y & X0 & Y0 & I). auto using zero_frep.
  - intros (X & Y & I). apply frep_zero in X, Y. unfold null_key. tauto.
Qed.

(** * C84 *)
(** ** The zero secret key *)
Lemma C84_secret_pf : forall dbg d t, 0 <= t < n -> let c := sk_clear d in
  sk_serialize c = repeat 0 32 /\ sk_parse dbg (sk_serialize c) = Some (Err InvalidSecretKey) /\ sk_inv dbg c = Some c /\
  sk_tweak_add_assign dbg c (scalar_of t) = Some (if t =? 0 then (c, Err TweakOutOfRange) else (scalar_of t, Ok tt)) /\
  sk_tweak_mul_assign dbg c (scalar_of t) = Some (c, if t =? 0 then Err TweakOutOfRange else Ok tt).
Proof.
  intros dbg d t T c. assert (C : c = scalar_of 0) by reflexivity. pose proof n_lt as NL. pose proof n_pos as NP. rewrite C.
  split; [reflexivity|]. split; [destruct dbg; vm_compute; reflexivity|]. split; [unfold sk_inv; rewrite s_inv_eq by lia; rewrite inv_mod_zero by (rewrite Z.mod_0_l by lia; reflexivity); reflexivity|]. split.
  - unfold sk_tweak_add_assign. rewrite s_add_eq by lia. cbn [bind]. rewrite Z.add_0_l, Z.mod_small by lia. rewrite s_is_zero_eq by lia. destruct (Z.eqb_spec t 0); reflexivity.
  - unfold sk_tweak_mul_assign. rewrite s_is_zero_eq by lia. destruct (Z.eqb_spec t 0); [reflexivity|]. rewrite s_mul_eq by lia. cbn [bind]. rewrite Z.mul_0_l, Z.mod_0_l by lia. reflexivity.
Qed.
Lemma C84_secret_example_pf : 0 <= n - 1 < n /\ sk_tweak_add_assign true (sk_clear (scalar_of 7)) (scalar_of 9) = Some (scalar_of 9, Ok tt).
Proof. split; [pose proof n_pos; lia | vm_compute; reflexivity]. Qed.
(** Key agreement refuses it, with every public key value. *)
Lemma C84_secret_ecdh_pf : forall dbg D k d, shared_secret_new dbg D k (sk_clear d) = Some (Err InvalidSecretKey).
Proof. reflexivity. Qed.
(** [from_secret_key] does not refuse it. *)
Lemma C84_public_pf : forall dbg ctx d, gen_ctx ctx -> exists k, pk_from_secret_key dbg ctx (sk_clear d) = Some k /\ null_key true k.
Proof.
  intros dbg ctx d HC. apply gen_ctx_ok in HC. change (sk_clear d) with (scalar_of 0). pose proof n_pos as NP. pose proof n_lt as NL. unfold pk_from_secret_key.
  destruct (wp_ex _ _ (ecmult_gen_ok dbg ctx 0 HC ltac:(lia))) as (j & HJ & J). destruct (wp_ex _ _ (ecmult_gen_z dbg ctx 0 HC ltac:(lia))) as (j' & HJ' & JZ).
  rewrite HJ' in HJ. apply some_inv in HJ. subst j'. rewrite HJ'. cbn [bind].
  assert (I : j_inf j = true) by (apply (jok_inf _ _ _ J); apply pt_inj; reflexivity).
  destruct (wp_ex _ _ (af_set_gej_x0 dbg j _ J (JZ I))) as (a & HA & AX & AY). destruct (wp_ex _ _ (af_set_gej_ok dbg j _ J)) as (a' & HA' & _ & AI).
  rewrite HA in HA'. apply some_inv in HA'. subst a'. rewrite HA. exists a. split; [reflexivity|]. apply null_rep.
  split; [eapply frep_mono; [exact AX | lia]|]. split; [eapply frep_mono; [exact AY | lia] | congruence].
Qed.
Lemma C84_public_example_pf : exists ctx, gen_ctx ctx.
Proof. destruct C53_ecmult_gen_example_pf as (c & _ & HC). exists c. exact HC. Qed.
(** What it signs is recovered by nobody. *)
Lemma C84_recover_pf : forall dbg dbg' drbg fuel gctx vctx d z g id, gen_ctx gctx -> verify_ctx vctx -> 0 <= z < n -> stream (drbg (repeat 0 32) (be_bytes 32 z)) ->
  sign dbg drbg fuel gctx (scalar_of z) (sk_clear d) = Done (g, id) -> z <> 0 /\ recover dbg' vctx (scalar_of z) g id = Some (Err InvalidSignature).
Proof.
  intros dbg dbg' drbg fuel gctx vctx d z g id HG HV Z HS H. change (sk_clear d) with (scalar_of 0) in H. change (repeat 0 32) with (be_bytes 32 0) in HS. pose proof n_pos as NP. pose proof n_lt as NL.
  destruct (sign_done dbg drbg fuel gctx 0 z g id HG ltac:(lia) Z HS H) as (t & r & s & T & SF & -> & _).
  destruct (signature_for_ok 0 z t r s id ltac:(lia) Z T SF) as (R & S & SN & ID & k' & K' & _ & C & RP). split.
  { intros ->. destruct SF as (x & y & _ & _ & NE & _). cbv zeta in NE. apply NE. rewrite Z.mul_0_r, Z.add_0_l, Z.mul_0_r. apply Z.mod_0_l. lia. }
  unfold recover. cbn [sig_r sig_s]. apply verify_ctx_ok in HV.
  destruct (wp_ex _ _ (recover_raw_ok dbg' vctx r s id z HV R ltac:(lia) ID Z)) as ([k|e] & HR & HQ); rewrite HR; cbn [bind].
  - exfalso. destruct HQ as (R1 & _ & _ & A & RA & NA & _). apply NA. rewrite (lifts_fun _ _ _ _ (rpoint_lifts _ _ _ RA) (rpoint_lifts _ _ _ RP)).
    change e0 with (emul 0 eG). apply qpoint_log; [lia | exact C].
  - destruct HQ as [-> _]. reflexivity.
Qed.
Lemma C84_recover_example_pf : exists gctx g id, gen_ctx gctx /\ stream one_stream /\ sign true (fun _ _ => one_stream) 2 gctx (scalar_of 1) (sk_clear (scalar_of 7)) = Done (g, id).
Proof.
  destruct C53_ecmult_gen_example_pf as (ctx & _ & HC). assert (K : 1 <= 1 < n) by vmr. assert (D : 0 <= 0 < n) by vmr. assert (D1 : 0 <= 1 < n) by vmr. destruct one_stream_at as [E1 E0].
  assert (U : usable 0 1 1). { split; [vmr|]. exists gx, gy. split; [|vm_compute; discriminate]. rewrite smulG, emul_1, sp_G by lia. reflexivity. }
  destruct (C29_first_usable_pf true (fun _ _ => one_stream) 2 ctx 0 1 1 HC D D1 one_stream_ok) as (r & s & id & _ & H); [lia | | rewrite E1; exact U | |].
  - intros l Hl. rewrite (E0 l Hl). intros (Q & _). lia.
  - right. intros l Hl. destruct (Nat.eq_dec l 1) as [->|N]; [rewrite E1; exact wraps_1|]. rewrite (E0 l) by lia. intros (Q & _). lia.
  - exists ctx, (Sig (scalar_of r) (scalar_of s)), id. split; [exact HC|]. split; [exact one_stream_ok | exact H].
Qed.

(** ** The public key at infinity, with assertions *)
Lemma table_inf_panics j : j_inf j = true -> odd_multiples_table_globalz_windowa true j = None.
Proof. intros I. unfold odd_multiples_table_globalz_windowa, odd_multiples_table. rewrite I. reflexivity. Qed.
Lemma ecmult_inf_panics ctx j a b : j_inf j = true -> ecmult true ctx j a b = None.
Proof. intros I. destruct ctx. unfold ecmult. rewrite (table_inf_panics j I). match goal with |- bind ?x _ = _ => destruct x as [[w l]|] end; reflexivity. Qed.
Lemma set_ge_inf dbg k : af_inf k = true -> exists j, j_set_ge dbg k = Some j /\ j_inf j = true.
Proof. intros I. unfold j_set_ge. destruct (wp_ex _ _ (f_set_int_rep dbg 1 ltac:(lia))) as (g & -> & _). cbn [bind]. eexists. split; [reflexivity | exact I]. Qed.
Lemma combine_inf_panics k : af_inf k = true -> forall ks q ks', combine_loop true q (ks ++ k :: ks') = None.
Proof.
  intros I. induction ks as [|a ks IH]; intros q ks'; cbn [app combine_loop].
  - unfold j_add_ge. rewrite I. reflexivity.
  - destruct (j_add_ge true q a); [apply IH | reflexivity].
Qed.
Lemma verify_inf_panics ctx k r s z : af_inf k = true -> 1 <= r < n -> 1 <= s < n -> 0 <= z < n -> verify true ctx (scalar_of z) (Sig (scalar_of r) (scalar_of s)) k = None.
Proof.
  intros I R S Z. pose proof n_lt as NL. destruct (set_ge_inf true k I) as (j & HJ & JI).
  unfold verify, verify_raw. cbn [sig_r sig_s]. rewrite !s_is_zero_eq by lia. rewrite (proj2 (Z.eqb_neq r 0)), (proj2 (Z.eqb_neq s 0)) by lia. cbn [orb].
  pose proof (inv_n_rng s) as WR. rewrite s_inv_eq by lia. cbn [bind]. rewrite s_mul_eq by lia. cbn [bind]. rewrite s_mul_eq by lia. cbn [bind]. rewrite HJ. cbn [bind]. rewrite ecmult_inf_panics by exact JI. reflexivity.
Qed.
Lemma tweak_inf_panics ctx k : af_inf k = true -> (forall u, pk_tweak_add_assign true ctx k u = None) /\ (forall t, 1 <= t < n -> pk_tweak_mul_assign true ctx k (scalar_of t) = None).
Proof.
  intros I. pose proof n_lt as NL. destruct (set_ge_inf true k I) as (j & HJ & JI).
  split. { intros u. unfold pk_tweak_add_assign. rewrite HJ. cbn [bind]. rewrite ecmult_inf_panics by exact JI. reflexivity. }
  intros t T. unfold pk_tweak_mul_assign. rewrite s_is_zero_eq by lia. rewrite (proj2 (Z.eqb_neq t 0)) by lia. rewrite HJ. cbn [bind]. rewrite ecmult_inf_panics by exact JI. reflexivity.
Qed.
Lemma const_inf_panics k t : af_inf k = true -> ecmult_const true k t = None.
Proof.
  intros I. destruct (set_ge_inf true k I) as (j & HJ & JI). unfold ecmult_const. generalize (ecmult_wnaf_const true 65 t (WINDOW_A - 1)). intros [[w sk]|]; [|reflexivity]. 
  match goal with |- bind (Some ?x) ?f = ?R => change (f x = R); cbv beta iota end. rewrite HJ. match goal with |- bind (Some ?x) ?f = ?R => change (f x = R); cbv beta iota end. rewrite table_inf_panics by exact JI. reflexivity.
Qed.
Lemma ecdh_inf_panics D k t : af_inf k = true -> 1 <= t < n -> shared_secret_new true D k (scalar_of t) = None.
Proof.
  intros I T. pose proof n_lt as NL. unfold shared_secret_new, ecdh_raw. rewrite s_is_zero_eq by lia. rewrite (proj2 (Z.eqb_neq t 0)) by lia. rewrite const_inf_panics by exact I. reflexivity.
Qed.
Lemma C84_debug_panics_pf : forall ctx k D r s z t ks ks', null_key true k -> 1 <= r < n -> 1 <= s < n -> 0 <= z < n -> 1 <= t < n ->
  pk_serialize true k = None /\ pk_serialize_compressed true k = None /\ verify true ctx (scalar_of z) (Sig (scalar_of r) (scalar_of s)) k = None /\
  (forall u, pk_tweak_add_assign true ctx k u = None) /\ pk_tweak_mul_assign true ctx k (scalar_of t) = None /\ shared_secret_new true D k (scalar_of t) = None /\ pk_combine true (ks ++ k :: ks') = None.
Proof.
  intros ctx k D r s z t ks ks' (_ & _ & _ & _ & I) R S Z T. destruct (tweak_inf_panics ctx k I) as [T1 T2].
  split; [unfold pk_serialize; rewrite I; reflexivity|]. split; [unfold pk_serialize_compressed; rewrite I; reflexivity|]. split; [exact (verify_inf_panics ctx k r s z I R S Z)|].
  split; [exact T1|]. split; [exact (T2 t T)|]. split; [exact (ecdh_inf_panics D k t I T)|]. unfold pk_combine. rewrite combine_inf_panics by exact I. reflexivity.
Qed.
Lemma null_ex : exists k, null_key true k.
Proof. destruct C53_ecmult_gen_example_pf as (c & _ & HC). destruct (C84_public_pf true c (scalar_of 7) HC) as (k & _ & K). exists k. exact K. Qed.
Lemma C84_debug_panics_example_pf : (exists k, null_key true k) /\ 1 <= 1 < n /\ 0 <= n - 1 < n.
Proof. split; [exact null_ex|]. pose proof n_big. assert (2 < 2 ^ 255) by reflexivity. lia. Qed.

(** ** The same key without assertions *)
Lemma null_set_ge dbg i k : null_key i k -> exists j, j_set_ge dbg k = Some j /\ zxy j /\ j_inf j = i.
Proof. intros K. apply null_rep in K. destruct K as (X & Y & I). destruct (wp_ex _ _ (set_ge_zero dbg k X Y)) as (j & HJ & J & JI). exists j. split; [exact HJ|]. split; [exact J | congruence]. Qed.
Lemma inv_mul_nz s r : 1 <= s < n -> 1 <= r < n -> (inv_mod n s * r) mod n <> 0.
Proof.
  intros S R E. pose proof (eqn_inv s S) as W. assert (K : eqn r 0).
  { transitivity (inv_mod n s * s * r); [rewrite W; apply eqn_def; f_equal; ring|]. transitivity ((inv_mod n s * r) mod n * s); [rewrite eqn_mod; apply eqn_def; f_equal; ring|]. rewrite E. reflexivity. }
  unfold eqn, Zdiv.eqm in K. rewrite Z.mod_0_l, Z.mod_small in K by (pose proof n_pos; lia). lia.
Qed.
(** Every signature of every message is accepted. *)
Lemma C84_verify_pf : forall dbg ctx i k r s z, verify_ctx ctx -> null_key i k -> (dbg = true -> i = false) -> 0 <= r < n -> 0 <= s < n -> 0 <= z < n ->
  verify dbg ctx (scalar_of z) (Sig (scalar_of r) (scalar_of s)) k = Some (negb ((r =? 0) || (s =? 0))).
Proof.
  intros dbg ctx i k r s z HC K DI R S Z. apply verify_ctx_ok in HC. pose proof n_lt as NL. pose proof n_pos as NP. unfold verify, verify_raw. cbn [sig_r sig_s]. rewrite !s_is_zero_eq by lia.
  destruct (Z.eqb_spec r 0) as [|NR]; [reflexivity|]. destruct (Z.eqb_spec s 0) as [|NS]; [reflexivity|]. cbn [orb negb].
  pose proof (inv_n_rng s) as WR. rewrite s_inv_eq by lia. cbn [bind]. rewrite s_mul_eq by lia. cbn [bind]. rewrite s_mul_eq by lia. cbn [bind].
  destruct (null_set_ge dbg i k K) as (j & -> & J & JI). cbn [bind].
  assert (M1 : 0 <= (inv_mod n s * r) mod n < n) by (apply Z.mod_pos_bound; lia). assert (M2 : 0 <= (inv_mod n s * z) mod n < n) by (apply Z.mod_pos_bound; lia).
  destruct (wp_ex _ _ (ecmult_zero dbg ctx j (scalar_of ((inv_mod n s * r) mod n)) (scalar_of ((inv_mod n s * z) mod n)) _ _ HC J ltac:(intros H; rewrite JI; apply DI, H)
    (recodes_ok dbg WINDOW_A _ M1 ltac:(unfold WINDOW_A; lia)) (recodes_ok dbg WINDOW_G _ M2 ltac:(unfold WINDOW_G; lia)) ltac:(left; rewrite Z.mod_mod by lia; apply inv_mul_nz; lia))) as (pr & -> & ((PX & PY & _) & PI) & PZ).
  cbn [bind]. rewrite PI. cbn [bind]. rewrite s_b32_eq by lia. pose proof pnx as (PN & _ & P2).
  destruct (wp_ex _ _ (f_set_b32_rep dbg f_default (be_bytes 32 r) (proj1 (be32_bytes r)) (proj2 (be32_bytes r)))) as ([xr ov] & -> & _ & XF). rewrite be32_val in XF by lia. specialize (XF ltac:(lia)).
  apply fcrep_frep with (k := 6) in XF; [|lia]. cbn [bind].
  assert (EQ : j_eq_x_var dbg pr xr = Some true); [|rewrite EQ; reflexivity].
  assert (W : wp (j_eq_x_var dbg pr xr) (fun b => b = true)).
  { unfold j_eq_x_var. apply wp_dassert; [rewrite PI; reflexivity|]. do 3 fs. eapply wp_mono; [eapply f_eq_var_rep; [eassumption | eassumption | lia]|]. cbv beta. intros b ->.
    match goal with |- feqb ?e _ = _ => replace e with f0 by ring end. apply feqb_0. }
  destruct (wp_ex _ _ W) as (b & -> & ->). reflexivity.
Qed.
Lemma C84_verify_example_pf : (exists ctx, verify_ctx ctx) /\ (exists k, null_key true k) /\ 0 <= 1 < n.
Proof. split; [exact (proj1 C34_public_tweak_add_example_pf)|]. split; [exact null_ex | vmr]. Qed.
(** So a key that [from_secret_key] returned accepts a signature nobody made: every pair r, s in [1, n-1], on every message. *)
Lemma C84_verify_sound_refuted_pf : exists gctx vctx d k, gen_ctx gctx /\ verify_ctx vctx /\ pk_from_secret_key false gctx (sk_clear d) = Some k /\
  forall z r s, 0 <= z < n -> 1 <= r < n -> 1 <= s < n -> verify false vctx (scalar_of z) (Sig (scalar_of r) (scalar_of s)) k = Some true.
Proof.
  destruct C53_ecmult_gen_example_pf as (c & _ & HC). destruct (proj1 C34_public_tweak_add_example_pf) as (v & HV). destruct (C84_public_pf false c (scalar_of 7) HC) as (k & HK & K).
  exists c, v, (scalar_of 7), k. split; [exact HC|]. split; [exact HV|]. split; [exact HK|]. intros z r s Z R S. rewrite (C84_verify_pf false v true k r s z HV K) by (discriminate || lia).
  rewrite (proj2 (Z.eqb_neq r 0)), (proj2 (Z.eqb_neq s 0)) by lia. reflexivity.
Qed.
Lemma null_set_gej dbg j : zj0 j -> exists k, af_set_gej dbg j = Some k /\ null_key false k.
Proof.
  intros (((X & Y & ZZ) & I) & Z). destruct (wp_ex _ _ (af_set_gej_zero dbg j (conj X (conj Y ZZ)))) as (k & HK & KX & KY & KI). exists k. split; [exact HK|]. apply null_rep. rewrite KI. auto.
Qed.
(** Tweaks return Ok and a finite key at (0, 0). *)
Lemma C84_tweak_add_pf : forall dbg ctx i k t, verify_ctx ctx -> null_key i k -> (dbg = true -> i = false) -> 0 <= t < n ->
  exists k', pk_tweak_add_assign dbg ctx k (scalar_of t) = Some (k', Ok tt) /\ null_key false k'.
Proof.
  intros dbg ctx i k t HC K DI T. apply verify_ctx_ok in HC. unfold pk_tweak_add_assign. destruct (null_set_ge dbg i k K) as (j & -> & J & JI). cbn [bind]. change (s_from_int 1) with (scalar_of 1).
  assert (N1 : 0 <= 1 < n) by vmr.
  destruct (wp_ex _ _ (ecmult_zero dbg ctx j (scalar_of 1) (scalar_of t) _ _ HC J ltac:(intros H; rewrite JI; apply DI, H)
    (recodes_ok dbg WINDOW_A _ N1 ltac:(unfold WINDOW_A; lia)) (recodes_ok dbg WINDOW_G _ T ltac:(unfold WINDOW_G; lia)) ltac:(left; rewrite Z.mod_small by lia; lia))) as (pr & -> & PR).
  cbn [bind]. rewrite (proj2 (proj1 PR)). destruct (null_set_gej dbg pr PR) as (k' & -> & K'). cbn [bind]. exists k'. split; [reflexivity | exact K'].
Qed.
Lemma C84_tweak_add_example_pf : (exists ctx, verify_ctx ctx) /\ (exists k, null_key true k) /\ 0 <= n - 1 < n.
Proof. split; [exact (proj1 C34_public_tweak_add_example_pf)|]. split; [exact null_ex | vmr]. Qed.
Lemma C84_tweak_mul_pf : forall dbg ctx i k t, verify_ctx ctx -> null_key i k -> (dbg = true -> i = false) -> 0 <= t < n ->
  (t = 0 -> pk_tweak_mul_assign dbg ctx k (scalar_of t) = Some (k, Err TweakOutOfRange)) /\
  (t <> 0 -> exists k', pk_tweak_mul_assign dbg ctx k (scalar_of t) = Some (k', Ok tt) /\ null_key false k').
Proof.
  intros dbg ctx i k t HC K DI T. apply verify_ctx_ok in HC. pose proof n_lt as NL. unfold pk_tweak_mul_assign. rewrite s_is_zero_eq by lia. split; [intros ->; reflexivity|]. intros NT. rewrite (proj2 (Z.eqb_neq t 0)) by exact NT.
  destruct (null_set_ge dbg i k K) as (j & -> & J & JI). cbn [bind]. change (s_from_int 0) with (scalar_of 0). assert (N1 : 0 <= 0 < n) by vmr.
  destruct (wp_ex _ _ (ecmult_zero dbg ctx j (scalar_of t) (scalar_of 0) _ _ HC J ltac:(intros H; rewrite JI; apply DI, H)
    (recodes_ok dbg WINDOW_A _ T ltac:(unfold WINDOW_A; lia)) (recodes_ok dbg WINDOW_G _ N1 ltac:(unfold WINDOW_G; lia)) ltac:(left; rewrite Z.mod_small by lia; lia))) as (pr & -> & PR).
  cbn [bind]. destruct (null_set_gej dbg pr PR) as (k' & -> & K'). cbn [bind]. exists k'. split; [reflexivity | exact K'].
Qed.
Lemma C84_tweak_mul_example_pf : (exists ctx, verify_ctx ctx) /\ (exists k, null_key true k) /\ 0 <= n - 1 < n /\ n - 1 <> 0.
Proof. split; [exact (proj1 C34_public_tweak_add_example_pf)|]. split; [exact null_ex|]. split; [vmr | vm_compute; discriminate]. Qed.
(** Every secret agrees on the digest of the byte 2 and 32 zero bytes. *)
Lemma C84_ecdh_pf : forall D i k d, null_key i k -> 1 <= d < n -> shared_secret_new false D k (scalar_of d) = Some (Ok (D (2 :: repeat 0 32))).
Proof.
  intros D i k d K HD. apply null_rep in K. destruct K as (X & Y & _). pose proof n_lt as NL. unfold shared_secret_new, ecdh_raw. rewrite s_is_zero_eq by lia. rewrite (proj2 (Z.eqb_neq d 0)) by lia.
  destruct (wp_ex _ _ (ecmult_const_zero k d X Y ltac:(lia))) as (r & -> & R). cbn [bind]. destruct (wp_ex _ _ (af_set_gej_zero false r R)) as (a & -> & AX & AY & _). cbn [bind].
  destruct (wp_ex _ _ (f_normalize_rep false (af_x a) f0 ltac:(eapply frep_mono; [exact AX | lia]))) as (px & -> & PX). cbn [bind].
  destruct (wp_ex _ _ (f_normalize_rep false (af_y a) f0 ltac:(eapply frep_mono; [exact AY | lia]))) as (py & -> & PY). cbn [bind].
  destruct (wp_ex _ _ (f_b32_rep false px f0 PX)) as (b & -> & ->). cbn [bind]. destruct (wp_ex _ _ (f_is_odd_rep false py f0 PY)) as (o & -> & ->). cbn [bind]. reflexivity.
Qed.
Lemma C84_ecdh_example_pf : (exists k, null_key true k) /\ 1 <= n - 1 < n.
Proof. split; [exact null_ex | vmr]. Qed.
(** 7 is not a square modulo p: no point of the curve has x = 0 *)
Lemma seven_nonsquare y : (y * y) mod p <> 7 mod p.
Proof.
  intros H. set (v := 23822273819116792968825941180169291868489902457570255402589475878394928867310). apply (m1_nonsquare (y * v)). replace (y * v * (y * v)) with (y * y * (v * v)) by ring.
  rewrite Z.mul_mod, H, <- Z.mul_mod by (pose proof p_pos; lia). vm_compute. reflexivity.
Qed.
(** Its encodings are all zeros after the tag, and are refused by every parser. *)
Lemma C84_serialize_pf : forall dbg i k, null_key i k -> (dbg = true -> i = false) ->
  pk_serialize dbg k = Some (4 :: repeat 0 64) /\ pk_serialize_compressed dbg k = Some (2 :: repeat 0 32) /\
  forall dbg', pk_parse dbg' (4 :: repeat 0 64) = Some (Err InvalidPublicKey) /\ pk_parse_compressed dbg' (2 :: repeat 0 32) = Some (Err InvalidPublicKey).
Proof.
  intros dbg i k K DI. apply null_rep in K. destruct K as (X & Y & I).
  assert (DA : dassert dbg (negb (af_inf k)) = Some tt) by (destruct dbg; [rewrite I, DI by reflexivity|]; reflexivity).
  destruct (wp_ex _ _ (f_normalize_var_rep dbg (af_x k) f0 ltac:(eapply frep_mono; [exact X | lia]))) as (px & HX & PX).
  destruct (wp_ex _ _ (f_normalize_var_rep dbg (af_y k) f0 ltac:(eapply frep_mono; [exact Y | lia]))) as (py & HY & PY).
  destruct (wp_ex _ _ (f_b32_rep dbg px f0 PX)) as (bx & HBX & ->). destruct (wp_ex _ _ (f_b32_rep dbg py f0 PY)) as (b_y & HBY & ->). destruct (wp_ex _ _ (f_is_odd_rep dbg py f0 PY)) as (o & HO & ->).
  split; [unfold pk_serialize; rewrite DA, HX, HY; cbn [bind]; rewrite HBX, HBY; reflexivity|].
  split; [unfold pk_serialize_compressed; rewrite DA, HX, HY; cbn [bind]; rewrite HBX, HO; reflexivity|]. intros dbg'. split.
  - destruct (C03_pubkey_parse_pf dbg' 4 (repeat 0 32) (repeat 0 32) eq_refl eq_refl) as [_ H]; [repeat constructor; lia|].
    apply H. intros [_ (_ & _ & O)]. exact (seven_nonsquare _ O).
  - destruct (C04_pubkey_parse_compressed_pf dbg' 2 (repeat 0 32) eq_refl) as [_ H]; [repeat constructor; lia|]. apply H. intros y (_ & _ & O). elim (seven_nonsquare y O).
Qed.
Lemma C84_serialize_example_pf : exists k, null_key true k.
Proof. exact null_ex. Qed.
(** Alone in a combination it gives Ok and the finite key at (0, 0). *)
Lemma C84_combine_pf : forall i k, null_key i k -> exists k', pk_combine false [k] = Some (Ok k') /\ null_key false k'.
Proof.
  intros i k K. apply null_rep in K. destruct K as (X & Y & I). unfold pk_combine. cbn [combine_loop]. pose proof (fcrep_frep _ _ 6 fcrep_default ltac:(lia)) as F0.
  assert (EQ : j_add_ge false j_set_infinity k = j_add_ge false j_set_infinity (Af (af_x k) (af_y k) false)) by reflexivity. rewrite EQ.
  destruct (wp_ex _ _ (add_ge_zero false j_set_infinity (Af (af_x k) (af_y k) false) ltac:(split; [exact F0|]; split; [exact F0 | eexists; exact F0]) ltac:(split; [exact X|]; split; [exact Y | reflexivity]))) as (r & -> & R & RI).
  cbn [bind]. rewrite RI. cbn [j_set_infinity j_inf negb]. destruct (wp_ex _ _ (af_set_gej_zero false r R)) as (a & -> & AX & AY & AI). cbn [bind]. exists a. split; [reflexivity|]. apply null_rep. rewrite AI, RI. auto.
Qed.
Lemma C84_combine_example_pf : exists k, null_key true k.
Proof. exact null_ex. Qed.

(** what the unified addition formula computes when it is not degenerate *)
Lemma add_ge_chord dbg a b x1 y1 z1 x2 y2 : frep 6 (j_x a) x1 -> frep 6 (j_y a) y1 -> frep 6 (j_z a) z1 -> j_inf a = false -> frep 6 (af_x b) x2 -> frep 6 (af_y b) y2 -> af_inf b = false ->
  let t := (x1 + x2 * (z1 * z1))%F in let m := (y1 + y2 * (z1 * z1) * z1)%F in let rr := (t * t + x1 * - (x2 * (z1 * z1)))%F in m <> f0 -> z1 <> f0 ->
  wp (j_add_ge dbg a b) (fun r => j_inf r = false /\ frep 6 (j_x r) (toF 4 * (rr * rr - m * m * t))%F /\ frep 6 (j_z r) (toF 2 * (z1 * m))%F /\
    frep 6 (j_y r) (- (toF 4 * ((toF 2 * (rr * rr - m * m * t) - m * m * t) * rr + m * m * (m * m))))%F).
Proof.
  intros X1 Y1 Z1 IA X2 Y2 IB t m rr NM NZ. unfold j_add_ge. apply wp_dassert; [rewrite IB; reflexivity|].
  do 13 fs.
  match goal with K : ?bb = feqb ?e f0 |- _ => replace e with m in K by (unfold m; ring); destruct (feqb_spec m f0) as [|_]; [contradiction|]; subst bb end. 
  eapply (wp_bind _ _ (fun d => d = false)); [reflexivity|]. cbv beta. intros deg ->. do 2 fs.
  eapply (wp_cmov 6); [fr | fr |]. intros ra RA. eapply (wp_cmov 6); [fr | fr |]. intros ma MA. cbn [negb] in RA, MA.
  do 3 fs. eapply (wp_cmov 2); [fr | fr |]. intros nn NN. do 3 fs. fs. do 4 fs. fs. do 8 fs.
  rewrite IA. eapply (wp_cmov 6); [fr | fr |]. intros x3 X3. eapply (wp_cmov 6); [fr | fr |]. intros y3 Y3.
  eapply (wp_cmov 6); [fr | apply fcrep_frep; [exact fcrep_FE1 | lia] |]. intros z3 Z3.
  apply wp_some. cbn [j_inf j_x j_y j_z negb]. rewrite Bool.andb_true_r.
  split.
  { match goal with K : ?bb = feqb ?e f0 |- ?bb = false => rewrite K; replace e with (z1 * m)%F by (unfold m; ring) end.
    destruct (feqb_spec (z1 * m)%F f0) as [E|]; [|reflexivity]. apply fmul_eq0 in E. destruct E; contradiction. }
  split; [eapply frep_eq; [exact X3 | unfold rr, m, t; ring]|]. split; [eapply frep_eq; [exact Z3 | unfold m; ring]|]. eapply frep_eq; [exact Y3 | unfold rr, m, t; ring].
Qed.
(** the point the formulas produce from (x, y) on the curve and (0, 0) is never on the curve *)
Lemma null_sum_off x y zi : (y * y = x * x * x + toF 7)%F -> y <> f0 -> (toF 2 * y * zi = f1)%F ->
  let q := (y * y * x)%F in let X := (toF 4 * (x * x * (x * x) - q))%F in let Y := (- (toF 4 * ((toF 2 * (x * x * (x * x) - q) - q) * (x * x) + y * y * (y * y))))%F in
  (Y * (zi * (zi * zi)) * (Y * (zi * (zi * zi))) <> X * (zi * zi) * (X * (zi * zi)) * (X * (zi * zi)) + toF 7)%F.
Proof.
  intros C NY ZI q X Y H. assert (CX : (x * x * x = y * y - toF 7)%F) by (rewrite C; ring).
  assert (EX : X = (toF (-28) * x)%F).
  { unfold X, q. replace (toF 4 * (x * x * (x * x) - y * y * x))%F with (toF 4 * (x * (x * x * x - y * y)))%F by ring. rewrite CX. replace (toF (-28)) with (toF 4 * - toF 7)%F by (apply val_inj; vm_compute; reflexivity). ring. }
  assert (EY : Y = (toF 28 * (y * y - toF 14))%F).
  { unfold Y, q. replace (- (toF 4 * ((toF 2 * (x * x * (x * x) - y * y * x) - y * y * x) * (x * x) + y * y * (y * y))))%F
      with (- (toF 4 * (toF 2 * (x * x * x * (x * x * x)) - toF 3 * (y * y * (x * x * x)) + y * y * (y * y))))%F.
    - rewrite CX. replace (toF 28) with (toF 4 * toF 7)%F by (apply val_inj; vm_compute; reflexivity). replace (toF 14) with (toF 2 * toF 7)%F by (apply val_inj; vm_compute; reflexivity).
      replace (toF 3) with (f1 + toF 2)%F by (apply val_inj; vm_compute; reflexivity). replace (toF 4) with (toF 2 + toF 2)%F by (apply val_inj; vm_compute; reflexivity).
      replace (toF 2) with (f1 + f1)%F by (apply val_inj; vm_compute; reflexivity). ring.
    - replace (toF 3) with (f1 + toF 2)%F by (apply val_inj; vm_compute; reflexivity). ring. }
  rewrite EX, EY in H. clear EX EY X Y q.
  (* multiply by (2y)^6 *)
  assert (K : (toF 28 * (y * y - toF 14) * (toF 28 * (y * y - toF 14)) = toF (-28) * x * (toF (-28) * x) * (toF (-28) * x) + toF 7 * (toF 2 * y * (toF 2 * y) * (toF 2 * y) * (toF 2 * y * (toF 2 * y) * (toF 2 * y))))%F).
  { apply (f_equal (fun e => (toF 2 * y * (toF 2 * y) * (toF 2 * y) * (toF 2 * y * (toF 2 * y) * (toF 2 * y)) * e)%F)) in H.
    set (w := (toF 2 * y)%F) in *.
    transitivity (w * zi * (w * zi) * (w * zi) * (w * zi * (w * zi) * (w * zi)) * (toF 28 * (y * y - toF 14) * (toF 28 * (y * y - toF 14))))%F; [rewrite ZI; ring|].
    transitivity (w * zi * (w * zi) * (w * zi) * (w * zi * (w * zi) * (w * zi)) * (toF (-28) * x * (toF (-28) * x) * (toF (-28) * x)) + toF 7 * (w * w * w * (w * w * w)))%F; [|rewrite ZI; ring].
    transitivity (w * w * w * (w * w * w) * (toF 28 * (y * y - toF 14) * (zi * (zi * zi)) * (toF 28 * (y * y - toF 14) * (zi * (zi * zi)))))%F; [ring|]. rewrite H. ring. }
  clear H ZI.
  assert (L : (toF 784 * (y * y * (y * y)) = toF 448 * (y * y * (y * y) * (y * y)))%F).
  { transitivity (toF 28 * (y * y - toF 14) * (toF 28 * (y * y - toF 14)) - toF (-28) * toF (-28) * toF (-28) * (x * x * x))%F.
    - rewrite CX. replace (toF (-28)) with (- toF 28)%F by (apply val_inj; vm_compute; reflexivity). replace (toF 784) with (toF 28 * toF 28)%F by (apply val_inj; vm_compute; reflexivity).
      replace (toF 28) with (toF 2 * toF 2 * toF 7)%F by (apply val_inj; vm_compute; reflexivity). replace (toF 14) with (toF 2 * toF 7)%F by (apply val_inj; vm_compute; reflexivity).
      replace (toF 2) with (f1 + f1)%F by (apply val_inj; vm_compute; reflexivity). ring.
    - rewrite K. replace (toF 448) with (toF 7 * (toF 2 * toF 2 * toF 2 * toF 2 * toF 2 * toF 2))%F by (apply val_inj; vm_compute; reflexivity). ring. }
  assert (M : (y * y * (y * y) * (toF 112 * (toF 7 - toF 2 * y * (toF 2 * y))) = f0)%F).
  { transitivity (toF 784 * (y * y * (y * y)) - toF 448 * (y * y * (y * y) * (y * y)))%F; [|rewrite L; ring].
    replace (toF 784) with (toF 112 * toF 7)%F by (apply val_inj; vm_compute; reflexivity). replace (toF 448) with (toF 112 * (toF 2 * toF 2))%F by (apply val_inj; vm_compute; reflexivity). ring. }
  assert (YY : (y * y)%F <> f0) by (intros Q; apply fmul_eq0 in Q; tauto).
  apply fmul_eq0 in M. destruct M as [M|M]; [apply fmul_eq0 in M; tauto|]. apply fmul_eq0 in M. destruct M as [M|M]; [apply (f_equal val) in M; revert M; vm_compute; discriminate|].
  apply (seven_nonsquare (val (toF 2 * y)%F)). apply toF_eq. rewrite toF_mul, toF_val. transitivity (toF 7 - (toF 7 - toF 2 * y * (toF 2 * y)))%F; [ring|]. rewrite M. ring.
Qed.
Lemma add_ge_inf dbg b x2 y2 : frep 6 (af_x b) x2 -> frep 6 (af_y b) y2 -> af_inf b = false ->
  wp (j_add_ge dbg j_set_infinity b) (fun r => j_inf r = false /\ frep 6 (j_x r) x2 /\ frep 6 (j_y r) y2 /\ frep 6 (j_z r) f1).
Proof.
  intros X2 Y2 IB. unfold j_add_ge. apply wp_dassert; [rewrite IB; reflexivity|]. pose proof (fcrep_frep _ _ 6 fcrep_default ltac:(lia)) as F0.
  assert (X1 : frep 6 (j_x j_set_infinity) f0) by exact F0. assert (Y1 : frep 6 (j_y j_set_infinity) f0) by exact F0. assert (Z1 : frep 6 (j_z j_set_infinity) f0) by exact F0.
  assert (IA : j_inf j_set_infinity = true) by reflexivity. set (a := j_set_infinity) in *. clearbody a. do 13 fs.
  eapply (wp_bind _ _ (fun _ => True)).
  { match goal with |- wp (if ?b then _ else _) _ => destruct b end; [|exact I]. eapply wp_mono; [eapply f_normalizes_to_zero_rep; fr|]. cbv beta. auto. }
  cbv beta. intros deg _. do 2 fs. eapply (wp_cmov 6); [fr | fr |]. intros ra RA. eapply (wp_cmov 6); [fr | fr |]. intros ma MA.
  do 3 fs. eapply (wp_cmov 2); [fr | fr |]. intros nn NN. do 3 fs. fs. do 4 fs. fs. do 8 fs.
  rewrite IA. eapply (wp_cmov 6); [fr | fr |]. intros x3 X3. eapply (wp_cmov 6); [fr | fr |]. intros y3 Y3.
  eapply (wp_cmov 6); [fr | apply fcrep_frep; [exact fcrep_FE1 | lia] |]. intros z3 Z3. apply wp_some. cbn [j_inf j_x j_y j_z negb]. rewrite Bool.andb_false_r.
  split; [reflexivity|]. split; [exact X3|]. split; [exact Y3 | exact Z3].
Qed.
(** The coordinates of [k] do not satisfy the curve equation. *)
Definition off_curve (k : pubkey) : Prop := af_inf k = false /\ ~ on_curve (Aff (fv (af_x k) mod p) (fv (af_y k) mod p)).
Lemma null_off i k : null_key i k -> ~ on_curve (Aff (fv (af_x k) mod p) (fv (af_y k) mod p)).
Proof. intros (_ & _ & -> & -> & _) (_ & _ & O). exact (seven_nonsquare 0 O). Qed.
Lemma finish_off r x y : j_inf r = false -> frep 6 (j_x r) (toF 4 * (x * x * (x * x) - y * y * x))%F ->
  frep 6 (j_y r) (- (toF 4 * ((toF 2 * (x * x * (x * x) - y * y * x) - y * y * x) * (x * x) + y * y * (y * y))))%F -> frep 6 (j_z r) (toF 2 * y)%F ->
  (y * y = x * x * x + toF 7)%F -> y <> f0 -> exists k, (if j_inf r then Some (Err InvalidPublicKey) else let* q := af_set_gej false r in Some (Ok q)) = Some (Ok k) /\ off_curve k.
Proof.
  intros I X Y Z C NY. rewrite I. assert (W : wp (af_set_gej false r) (fun k => af_inf k = false /\ let zi := finv (toF 2 * y)%F in
    fe (af_x k) = (toF 4 * (x * x * (x * x) - y * y * x) * (zi * zi))%F /\ fe (af_y k) = (- (toF 4 * ((toF 2 * (x * x * (x * x) - y * y * x) - y * y * x) * (x * x) + y * y * (y * y))) * (zi * (zi * zi)))%F)).
  { unfold af_set_gej. do 6 fs. apply wp_some. split; [exact I|]. cbn [af_x af_y]. split; eapply frep_fe; eassumption. }
  destruct (wp_ex _ _ W) as (k & -> & KI & KX & KY). cbn [bind]. exists k. split; [reflexivity|]. split; [exact KI|]. intros (_ & _ & O).
  set (zi := finv (toF 2 * y)%F) in *. assert (ZI : (toF 2 * y * zi = f1)%F).
  { unfold zi. field. split; [exact NY|]. intros Q. apply (f_equal val) in Q. revert Q. vm_compute. discriminate. }
  apply (null_sum_off x y zi C NY ZI). cbv zeta. rewrite <- KX, <- KY. unfold fe. rewrite <- !toF_mul, <- toF_add. apply toF_eq.
  rewrite <- Z.mul_mod in O by (pose proof p_pos; lia). rewrite O. rewrite (Z.add_mod (fv (af_x k) mod p * _ * _) 7), (Z.add_mod (fv (af_x k) * _ * _) 7) by (pose proof p_pos; lia). f_equal. f_equal.
  rewrite (Z.mul_mod (fv (af_x k) mod p * (fv (af_x k) mod p))), <- (Z.mul_mod (fv (af_x k)) (fv (af_x k))), Z.mod_mod, <- Z.mul_mod by (pose proof p_pos; lia). reflexivity.
Qed.
(** Combined with any valid key, in either order, it gives Ok and a key that is not on the curve. *)
Lemma C84_combine_with_pf : forall i k k0 x y, null_key i k -> key_at k0 (Aff x y) ->
  (exists k', pk_combine false [k0; k] = Some (Ok k') /\ off_curve k') /\ (exists k', pk_combine false [k; k0] = Some (Ok k') /\ off_curve k').
Proof.
  intros i k k0 x y K (X0 & Y0 & (XR & YR & O) & I0 & VX & VY). apply null_rep in K. destruct K as (X & Y & _).
  assert (DROP : forall q, j_add_ge false q k = j_add_ge false q (Af (af_x k) (af_y k) false)) by (intros q; reflexivity).
  set (b := Af (af_x k) (af_y k) false) in DROP. assert (BX : frep 6 (af_x b) f0) by exact X. assert (BY : frep 6 (af_y b) f0) by exact Y. assert (BI : af_inf b = false) by reflexivity. clearbody b.
  assert (FX : frep 6 (af_x k0) (toF x)) by (split; [exact X0|]; unfold fe; apply toF_eq; rewrite VX; symmetry; apply Z.mod_small, XR).
  assert (FY : frep 6 (af_y k0) (toF y)) by (split; [exact Y0|]; unfold fe; apply toF_eq; rewrite VY; symmetry; apply Z.mod_small, YR).
  assert (C : (toF y * toF y = toF x * toF x * toF x + toF 7)%F) by (rewrite <- !toF_mul, <- toF_add; apply toF_eq, O).
  assert (NY : toF y <> f0).
  { intros E. rewrite E in C. apply (cube_nonres (toF x)). change b7 with (toF 7). rewrite <- C. ring. }
  unfold pk_combine. cbn [combine_loop]. split.
  - destruct (wp_ex _ _ (add_ge_inf false k0 _ _ FX FY I0)) as (r & -> & RI & RX & RY & RZ). cbn [bind]. rewrite DROP.
    pose proof (add_ge_chord false r b _ _ _ _ _ RX RY RZ RI BX BY BI) as W. cbv zeta in W.
    destruct (wp_ex _ _ (W ltac:(intros E; apply NY; rewrite <- E; ring) f1_neq_f0)) as (r' & -> & RI' & RX' & RZ' & RY'). cbn [bind].
    apply (finish_off r' (toF x) (toF y) RI'); [eapply frep_eq; [exact RX' | ring] | eapply frep_eq; [exact RY' | ring] | eapply frep_eq; [exact RZ' | ring] | exact C | exact NY].
  - rewrite DROP. destruct (wp_ex _ _ (add_ge_inf false b _ _ BX BY BI)) as (r & -> & RI & RX & RY & RZ). cbn [bind].
    pose proof (add_ge_chord false r k0 _ _ _ _ _ RX RY RZ RI FX FY I0) as W. cbv zeta in W.
    destruct (wp_ex _ _ (W ltac:(intros E; apply NY; rewrite <- E; ring) f1_neq_f0)) as (r' & -> & RI' & RX' & RZ' & RY'). cbn [bind].
    apply (finish_off r' (toF x) (toF y) RI'); [eapply frep_eq; [exact RX' | ring] | eapply frep_eq; [exact RY' | ring] | eapply frep_eq; [exact RZ' | ring] | exact C | exact NY].
Qed.
Lemma C84_combine_with_example_pf : (exists k, null_key true k) /\ key_at AFFINE_G (Aff gx gy).
Proof. split; [exact null_ex | exact G_key]. Qed.
