(** Key arithmetic, Diffie-Hellman, and reachable keys. *)
From Coq Require Import Znumtheory Field Zdiv Permutation.
From Verif Require Import Word MField MScalar MGroup MEcmult MEcdsa MDer MApi WP FieldMul FieldNorm Spec Fp Bits FieldOps FieldCodec Denote Curve Group Chain Order Jac JacOps Table Ecmult Lift Gen Key Ctx ApiScalar ApiDer ApiPub ApiGroup Ecdsa ApiEcdsa.

Lemma key_on k P : key_at k P -> on_curve P.
Proof. intros H. destruct (key_exists _ _ H) as (A & -> & _). apply sp_on. Qed.
Lemma key_mono k P : aff_at 1 k P -> key_at k P.
Proof. intros H. destruct (aff_exists _ _ _ H) as (A & -> & HA). apply key_aok. eapply aok_mono; [exact HA | lia]. Qed.
Lemma jac_inf j P : jac_at j P -> (j_inf j = true <-> P = Inf).
Proof. intros H. destruct (jac_exists _ _ H) as (A & -> & HA). rewrite (jok_inf _ _ _ HA). symmetry. apply sp_inf. Qed.
Lemma set_ge_key dbg k P : key_at k P -> exists j, j_set_ge dbg k = Some j /\ jac_at j P.
Proof.
  intros H. destruct (key_exists _ _ H) as (A & -> & HA). destruct (wp_ex _ _ (j_set_ge_ok dbg k A HA)) as (j & -> & J & _). exists j. split; [reflexivity | apply jac_jok, J].
Qed.
Lemma smul_1 P : on_curve P -> smul 1 P = P.
Proof. intros O. destruct (sp_surj _ O) as [A <-]. rewrite smul_sp, emul_1 by lia. reflexivity. Qed.
Lemma smul_0 P : smul 0 P = Inf. Proof. reflexivity. Qed.
Lemma padd_inf_r P : padd P Inf = P. Proof. destruct P; reflexivity. Qed.
Lemma pt_dec (P : point) : P = Inf \/ P <> Inf. Proof. destruct P; [left; reflexivity | right; discriminate]. Qed.
Lemma smulG_nz d : 1 <= d < n -> smul d G <> Inf. Proof. intros D. rewrite smulG by lia. apply sp_nz, D. Qed.
Lemma smulG_mod a : 0 <= a -> smul (a mod n) G = smul a G.
Proof. intros A. pose proof n_pos as NP. pose proof (Z.mod_pos_bound a n ltac:(lia)). rewrite !smulG by lia. f_equal. apply emul_G_eq. apply Z.mod_mod. lia. Qed.
Lemma smulG_add a b : 0 <= a -> 0 <= b -> padd (smul a G) (smul b G) = smul (a + b) G.
Proof. intros A B. rewrite !smulG by lia. rewrite emul_add, sp_add. reflexivity. Qed.
Lemma smulG_mul a b : 0 <= a -> 0 <= b -> smul a (smul b G) = smul (a * b) G.
Proof. intros A B. rewrite !smulG by nia. rewrite smul_sp by lia. rewrite emul_mul. reflexivity. Qed.
Lemma key_same k k' P dbg : key_at k P -> key_at k' P -> P <> Inf -> pk_eq dbg k k' = Some true.
Proof.
  intros K K' N. destruct P as [|x y]; [contradiction|]. destruct (C07_equality_pf dbg _ _ _ _ _ _ K K') as (b & -> & Hb & _). f_equal. apply Hb. auto.
Qed.

(** * C34 *)
(** Adding a tweak (zero included) is point addition of t*G; if the sum is infinity the call is refused and the key unchanged. *)
Lemma C34_public_tweak_add_pf : forall dbg ctx k P t, verify_ctx ctx -> key_at k P -> P <> Inf -> 0 <= t < n ->
  (padd P (smul t G) = Inf -> pk_tweak_add_assign dbg ctx k (scalar_of t) = Some (k, Err TweakOutOfRange)) /\
  (padd P (smul t G) <> Inf -> exists k', pk_tweak_add_assign dbg ctx k (scalar_of t) = Some (k', Ok tt) /\ aff_at 1 k' (padd P (smul t G))).
Proof.
  intros dbg ctx k P t HC HK N T. unfold pk_tweak_add_assign. destruct (set_ge_key dbg k P HK) as (j & -> & J). cbn [bind]. change (s_from_int 1) with (scalar_of 1). assert (O : 0 <= 1 < n) by vmr.
  change (bind (Some (scalar_of 1)) ?f) with (f (scalar_of 1)). cbv beta.
  destruct (C51_ecmult_pf dbg ctx j P 1 t HC J N O T) as (r & -> & R). cbn [bind]. rewrite smul_1 in R by exact (key_on _ _ HK). pose proof (jac_inf _ _ R) as RI. split.
  - intros E0. rewrite (proj2 RI E0). reflexivity.
  - intros NE. destruct (j_inf r) eqn:IR; [elim NE; apply RI; reflexivity|]. destruct (C50_set_gej_pf dbg r _ R) as (a & -> & HA). exists a. split; [reflexivity | exact HA].
Qed.
Lemma C34_public_tweak_add_example_pf : (exists ctx, verify_ctx ctx) /\ key_at AFFINE_G G /\ G <> Inf /\ padd G (smul (n - 1) G) = Inf /\ padd G (smul 1 G) <> Inf.
Proof.
  split; [destruct (proj1 C51_ecmult_example_pf) as (c & _ & HC); exists c; exact HC|]. split; [exact G_key|]. split; [discriminate|]. pose proof n_pos as NP. assert (E1 : G = smul 1 G) by (rewrite smul_1 by exact G_on; reflexivity). split.
  - rewrite E1 at 1. rewrite smulG_add by lia. replace (1 + (n - 1)) with n by ring. rewrite <- smulG_mod by lia. rewrite Z.mod_same by lia. reflexivity.
  - rewrite E1 at 1. rewrite smulG_add by lia. apply smulG_nz. vmr.
Qed.
(** Tweaking the derived public key and deriving from the tweaked secret key agree, in the error case too. *)
Lemma C34_commutes_pf : forall dbg dbg' vctx gctx k d t, verify_ctx vctx -> gen_ctx gctx -> 1 <= d < n -> 1 <= t < n -> key_at k (smul d G) ->
  (pk_tweak_add_assign dbg vctx k (scalar_of t) = Some (k, Err TweakOutOfRange) /\ sk_tweak_add_assign dbg' (scalar_of d) (scalar_of t) = Some (scalar_of d, Err TweakOutOfRange)) \/
  exists k1 d1 k2, pk_tweak_add_assign dbg vctx k (scalar_of t) = Some (k1, Ok tt) /\ sk_tweak_add_assign dbg' (scalar_of d) (scalar_of t) = Some (d1, Ok tt) /\
    pk_from_secret_key dbg' gctx d1 = Some k2 /\ pk_eq dbg k1 k2 = Some true.
Proof.
  intros dbg dbg' vctx gctx k d t HV HG D T HK. pose proof n_pos as NP. destruct (C34_public_tweak_add_pf dbg vctx k (smul d G) t HV HK (smulG_nz d D) ltac:(lia)) as [HI HN].
  destruct (C32_secret_tweak_add_pf dbg' d t D T) as [-> HS]. rewrite smulG_add, <- smulG_mod in HI, HN by lia. destruct (Z.eqb_spec (d + t) n) as [E0|NE].
  - left. split; [|reflexivity]. apply HI. rewrite E0, Z.mod_same by lia. reflexivity.
  - right. specialize (HS NE). destruct (HN (smulG_nz _ HS)) as (k1 & H1 & K1). destruct (C21_from_secret_key_pf dbg' gctx _ HG HS) as (k2 & H2 & _ & K2 & N2).
    exists k1, (scalar_of ((d + t) mod n)), k2. split; [exact H1|]. split; [reflexivity|]. split; [exact H2|]. exact (key_same _ _ _ dbg (key_mono _ _ K1) K2 N2).
Qed.
Lemma C34_commutes_example_pf : (exists ctx, verify_ctx ctx) /\ (exists ctx, gen_ctx ctx) /\ 1 <= n - 1 < n /\ key_at AFFINE_G (smul 1 G).
Proof.
  split; [exact (proj1 C34_public_tweak_add_example_pf)|]. split; [destruct C53_ecmult_gen_example_pf as (c & _ & HC); exists c; exact HC|]. split; [vm_compute; split; [discriminate | reflexivity]|]. rewrite smul_1 by exact G_on. exact G_key.
Qed.

(** * C35 *)
(** Multiplying by a non-zero tweak is scalar multiplication and gives a finite point; zero is refused and the key unchanged. *)
Lemma C35_public_tweak_mul_pf : forall dbg ctx k P t, verify_ctx ctx -> key_at k P -> P <> Inf -> 0 <= t < n ->
  (t = 0 -> pk_tweak_mul_assign dbg ctx k (scalar_of t) = Some (k, Err TweakOutOfRange)) /\
  (t <> 0 -> exists k', pk_tweak_mul_assign dbg ctx k (scalar_of t) = Some (k', Ok tt) /\ aff_at 1 k' (smul t P) /\ smul t P <> Inf).
Proof.
  intros dbg ctx k P t HC HK N T. unfold pk_tweak_mul_assign. pose proof n_lt as NL. rewrite s_is_zero_eq by lia. split; [intros ->; reflexivity|]. intros NT. rewrite (proj2 (Z.eqb_neq _ _) NT).
  change (s_from_int 0) with (scalar_of 0). change (bind (Some (scalar_of 0)) ?f) with (f (scalar_of 0)). cbv beta. assert (O : 0 <= 0 < n) by vmr.
  destruct (set_ge_key dbg k P HK) as (j & -> & J). cbn [bind]. destruct (C51_ecmult_pf dbg ctx j P t 0 HC J N T O) as (r & -> & R). cbn [bind]. rewrite smul_0, padd_inf_r in R.
  destruct (C50_set_gej_pf dbg r _ R) as (a & -> & HA). exists a. split; [reflexivity|]. split; [exact HA|].
  destruct (key_log k P HK N) as (d & D & -> & _). rewrite <- smulG by lia. rewrite smulG_mul, <- smulG_mod by nia. apply smulG_nz. apply mul_mod_n_nz; lia.
Qed.
Lemma C35_public_tweak_mul_example_pf : (exists ctx, verify_ctx ctx) /\ key_at AFFINE_G G /\ G <> Inf /\ 0 <= n - 1 < n /\ n - 1 <> 0.
Proof.
  split; [exact (proj1 C34_public_tweak_add_example_pf)|]. split; [exact G_key|]. split; [discriminate|]. split; [vm_compute; split; [discriminate | reflexivity] | vm_compute; discriminate].
Qed.
Lemma C35_commutes_pf : forall dbg dbg' vctx gctx k d t, verify_ctx vctx -> gen_ctx gctx -> 1 <= d < n -> 1 <= t < n -> key_at k (smul d G) ->
  exists k1 d1 k2, pk_tweak_mul_assign dbg vctx k (scalar_of t) = Some (k1, Ok tt) /\ sk_tweak_mul_assign dbg' (scalar_of d) (scalar_of t) = Some (d1, Ok tt) /\
    pk_from_secret_key dbg' gctx d1 = Some k2 /\ pk_eq dbg k1 k2 = Some true.
Proof.
  intros dbg dbg' vctx gctx k d t HV HG D T HK. destruct (C35_public_tweak_mul_pf dbg vctx k (smul d G) t HV HK (smulG_nz d D) ltac:(lia)) as [_ HN].
  destruct (HN ltac:(lia)) as (k1 & H1 & K1 & N1). destruct (C33_secret_tweak_mul_pf dbg' d t D T) as [HS RS]. destruct (C21_from_secret_key_pf dbg' gctx _ HG RS) as (k2 & H2 & _ & K2 & N2).
  exists k1, (scalar_of ((d * t) mod n)), k2. split; [exact H1|]. split; [exact HS|]. split; [exact H2|]. apply (key_same _ _ (smul t (smul d G))); [exact (key_mono _ _ K1) | | exact N1].
  rewrite smulG_mul by lia. rewrite smulG_mod in K2 by nia. rewrite Z.mul_comm. exact K2.
Qed.
Lemma C35_commutes_example_pf : (exists ctx, verify_ctx ctx) /\ (exists ctx, gen_ctx ctx) /\ 1 <= n - 1 < n /\ key_at AFFINE_G (smul 1 G).
Proof. exact C34_commutes_example_pf. Qed.

(** * C36 *)
Definition fin (P : point) : Prop := P <> Inf.
Lemma padd_comm P Q : on_curve P -> on_curve Q -> padd P Q = padd Q P.
Proof. intros O1 O2. destruct (sp_surj _ O1) as [A <-], (sp_surj _ O2) as [B <-]. rewrite <- !sp_add, eadd_comm. reflexivity. Qed.
Lemma padd_assoc P Q R : on_curve P -> on_curve Q -> on_curve R -> padd P (padd Q R) = padd (padd P Q) R.
Proof. intros O1 O2 O3. destruct (sp_surj _ O1) as [A <-], (sp_surj _ O2) as [B <-], (sp_surj _ O3) as [C <-]. rewrite <- !sp_add, eadd_assoc. reflexivity. Qed.
Lemma psum_on l : Forall on_curve l -> on_curve (psum l).
Proof. induction 1 as [|P l O _ IH]; [exact I|]. cbn [psum fold_right]. apply padd_on; assumption. Qed.
Lemma psum_app l m : Forall on_curve l -> Forall on_curve m -> psum (l ++ m) = padd (psum l) (psum m).
Proof.
  intros L M. induction L as [|P l O L IH]; [reflexivity|]. cbn [app psum fold_right]. fold (psum (l ++ m)) (psum l). rewrite IH. apply padd_assoc; [exact O | apply psum_on, L | apply psum_on, M].
Qed.
Lemma psum_perm l m : Permutation l m -> Forall on_curve l -> psum l = psum m.
Proof.
  induction 1 as [|P l m _ IH|P Q l|l m q H1 IH1 _ IH2]; intros O; [reflexivity | | |].
  - apply Forall_cons_iff in O. cbn [psum fold_right]. fold (psum l) (psum m). rewrite IH by tauto. reflexivity.
  - apply Forall_cons_iff in O. destruct O as [OQ O]. apply Forall_cons_iff in O. destruct O as [OP O]. cbn [psum fold_right]. fold (psum l).
    rewrite (padd_assoc Q P), (padd_comm Q P), <- padd_assoc by (try apply psum_on; assumption). reflexivity.
  - rewrite IH1 by exact O. apply IH2. apply Forall_forall. intros x Hx. rewrite Forall_forall in O. apply O. eapply Permutation_in; [apply Permutation_sym, H1 | exact Hx].
Qed.
Lemma keys_on ks Ps : Forall2 key_at ks Ps -> Forall on_curve Ps.
Proof. induction 1 as [|k P ks Ps H _ IH]; constructor; [exact (key_on _ _ H) | exact IH]. Qed.
Lemma combine_loop_ok dbg ks Ps : Forall2 key_at ks Ps -> Forall fin Ps -> forall j P, jac_at j P -> exists r, combine_loop dbg j ks = Some r /\ jac_at r (padd P (psum Ps)).
Proof.
  induction 1 as [|k Q ks Ps K KS IH]; intros F j P J; cbn [combine_loop].
  - exists j. split; [reflexivity|]. cbn. rewrite padd_inf_r. exact J.
  - apply Forall_cons_iff in F. destruct F as [FQ F]. destruct (C49_add_ge_pf dbg j k P Q J K FQ) as (q & -> & JQ). cbn [bind]. destruct (IH F q _ JQ) as (r & -> & JR). exists r. split; [reflexivity|].
    cbn [psum fold_right]. fold (psum Ps). assert (OP : on_curve P) by (destruct (jac_exists _ _ J) as (A & -> & _); apply sp_on). rewrite padd_assoc; [exact JR | exact OP | exact (key_on _ _ K) | apply psum_on, (keys_on _ _ KS)].
Qed.
(** [combine] of a list of finite keys is their sum; refused iff the sum is infinity. *)
Lemma C36_combine_pf : forall dbg ks Ps, Forall2 key_at ks Ps -> Forall fin Ps ->
  (psum Ps = Inf -> pk_combine dbg ks = Some (Err InvalidPublicKey)) /\
  (psum Ps <> Inf -> exists k, pk_combine dbg ks = Some (Ok k) /\ aff_at 1 k (psum Ps)).
Proof.
  intros dbg ks Ps K F. unfold pk_combine. assert (J0 : jac_at j_set_infinity Inf) by exact (proj2 C49_double_example_pf).
  destruct (combine_loop_ok dbg ks Ps K F _ _ J0) as (r & -> & R). cbn [bind]. change (padd Inf (psum Ps)) with (psum Ps) in R. pose proof (jac_inf _ _ R) as RI. split.
  - intros E0. rewrite (proj2 RI E0). reflexivity.
  - intros NE. destruct (j_inf r) eqn:IR; [elim NE; apply RI; reflexivity|]. destruct (C50_set_gej_pf dbg r _ R) as (a & -> & HA). exists a. split; [reflexivity | exact HA].
Qed.
Ltac keys := repeat (apply Forall2_cons; [first [assumption | exact G_key]|]); apply Forall2_nil.
Ltac fins := cbn [app]; repeat (apply Forall_cons; [discriminate|]); apply Forall_nil.
Lemma neg_G_key : exists k, key_at k (pneg G).
Proof. destruct (C58_affine_neg_pf true 6 AFFINE_G G G_key ltac:(lia)) as (k & _ & K). exists k. exact K. Qed.
Lemma C36_combine_example_pf : (exists k, Forall2 key_at [AFFINE_G; k; AFFINE_G] [G; pneg G; G]) /\ Forall fin [G; pneg G; G] /\ psum [G; pneg G; G] = G /\ psum [G; pneg G] = Inf.
Proof.
  destruct neg_G_key as [k K]. split; [exists k; keys|]. split; [fins|]. split; vm_compute; reflexivity.
Qed.
(** Two outcomes of [combine] that cannot be told apart: both refused, or keys that compare equal. *)
Definition same_result (dbg : bool) (a b : option (result pubkey)) : Prop :=
  (a = Some (Err InvalidPublicKey) /\ b = Some (Err InvalidPublicKey)) \/ exists k k', a = Some (Ok k) /\ b = Some (Ok k') /\ pk_eq dbg k k' = Some true.
Lemma combine_same dbg ks Ps ks' Ps' : Forall2 key_at ks Ps -> Forall fin Ps -> Forall2 key_at ks' Ps' -> Forall fin Ps' -> psum Ps = psum Ps' ->
  same_result dbg (pk_combine dbg ks) (pk_combine dbg ks').
Proof.
  intros K F K' F' E0. destruct (C36_combine_pf dbg ks Ps K F) as [A1 A2], (C36_combine_pf dbg ks' Ps' K' F') as [B1 B2]. rewrite <- E0 in B1, B2. destruct (pt_dec (psum Ps)) as [I0|N0].
  - left. auto.
  - destruct (A2 N0) as (k & -> & HK), (B2 N0) as (k' & -> & HK'). right. exists k, k'. split; [reflexivity|]. split; [reflexivity|]. exact (key_same _ _ _ dbg (key_mono _ _ HK) (key_mono _ _ HK') N0).
Qed.
Lemma Forall2_perm {A B} (R : A -> B -> Prop) l l' : Permutation l l' -> forall m, Forall2 R l m -> exists m', Permutation m m' /\ Forall2 R l' m'.
Proof.
  induction 1 as [|x l l' _ IH|x y l|l l' l'' _ IH1 _ IH2]; intros m H.
  - inversion H. exists []. split; constructor.
  - inversion H as [|? b ? m0 H1 H2]; subst. destruct (IH _ H2) as (m' & P & F). exists (b :: m'). split; constructor; assumption.
  - inversion H as [|? b ? m0 H1 H2]; subst. inversion H2 as [|? c ? m1 H3 H4]; subst. exists (c :: b :: m1). split; [apply perm_swap | constructor; [|constructor]; assumption].
  - destruct (IH1 _ H) as (m1 & P1 & F1). destruct (IH2 _ F1) as (m2 & P2 & F2). exists m2. split; [eapply perm_trans; eassumption | exact F2].
Qed.
Lemma Forall_perm {A} (Q : A -> Prop) l l' : Permutation l l' -> Forall Q l -> Forall Q l'.
Proof. intros P F. apply Forall_forall. intros x Hx. rewrite Forall_forall in F. apply F. eapply Permutation_in; [apply Permutation_sym, P | exact Hx]. Qed.
(** The order of the keys does not matter. *)
Lemma C36_order_pf : forall dbg ks ks' Ps, Forall2 key_at ks Ps -> Forall fin Ps -> Permutation ks ks' -> same_result dbg (pk_combine dbg ks) (pk_combine dbg ks').
Proof.
  intros dbg ks ks' Ps K F P. destruct (Forall2_perm _ _ _ P _ K) as (Ps' & P' & K'). apply (combine_same dbg ks Ps ks' Ps'); [exact K | exact F | exact K' | exact (Forall_perm _ _ _ P' F)|].
  apply psum_perm; [exact P' | exact (keys_on _ _ K)].
Qed.
Lemma C36_order_example_pf : exists k, Forall2 key_at [AFFINE_G; k] [G; pneg G] /\ Forall fin [G; pneg G] /\ Permutation [AFFINE_G; k] [k; AFFINE_G].
Proof. destruct neg_G_key as [k K]. exists k. split; [keys|]. split; [fins | apply perm_swap]. Qed.
(** Grouping does not matter: a sublist may be replaced by its combination, or dropped when it combines to an error. *)
Lemma C36_grouping_pf : forall dbg ks1 ks2 ks3 Ps1 Ps2 Ps3, Forall2 key_at ks1 Ps1 -> Forall2 key_at ks2 Ps2 -> Forall2 key_at ks3 Ps3 -> Forall fin (Ps1 ++ Ps2 ++ Ps3) ->
  same_result dbg (pk_combine dbg (ks1 ++ ks2 ++ ks3)) (match pk_combine dbg ks2 with Some (Ok k) => pk_combine dbg (ks1 ++ k :: ks3) | _ => pk_combine dbg (ks1 ++ ks3) end).
Proof.
  intros dbg ks1 ks2 ks3 Ps1 Ps2 Ps3 K1 K2 K3 F. pose proof F as F'. apply Forall_app in F'. destruct F' as [F1 F']. apply Forall_app in F'. destruct F' as [F2 F3].
  pose proof (keys_on _ _ K1) as O1. pose proof (keys_on _ _ K2) as O2. pose proof (keys_on _ _ K3) as O3. assert (O23 : Forall on_curve (Ps2 ++ Ps3)) by (apply Forall_app; auto).
  destruct (C36_combine_pf dbg ks2 Ps2 K2 F2) as [A1 A2]. destruct (pt_dec (psum Ps2)) as [I0|N0].
  - rewrite (A1 I0). apply (combine_same dbg _ (Ps1 ++ Ps2 ++ Ps3) _ (Ps1 ++ Ps3)); [repeat apply Forall2_app; assumption | exact F | apply Forall2_app; assumption | apply Forall_app; auto|].
    rewrite !psum_app by assumption. rewrite I0. reflexivity.
  - destruct (A2 N0) as (k & -> & HK). apply (combine_same dbg _ (Ps1 ++ Ps2 ++ Ps3) _ (Ps1 ++ psum Ps2 :: Ps3)); [repeat apply Forall2_app; assumption | exact F | | |].
    + apply Forall2_app; [assumption | constructor; [exact (key_mono _ _ HK) | assumption]].
    + apply Forall_app. split; [exact F1 | constructor; [exact N0 | exact F3]].
    + assert (O3' : Forall on_curve (psum Ps2 :: Ps3)) by (constructor; [apply psum_on, O2 | exact O3]). rewrite !psum_app by assumption. reflexivity.
Qed.
Lemma C36_grouping_example_pf : exists k, Forall2 key_at [AFFINE_G] [G] /\ Forall2 key_at [AFFINE_G; k] [G; pneg G] /\ Forall2 key_at [] [] /\ Forall fin ([G] ++ [G; pneg G] ++ []).
Proof. destruct neg_G_key as [k K]. exists k. split; [keys|]. split; [keys|]. split; [keys | fins]. Qed.
(** A key and its negation, anywhere in the list, cancel. *)
Lemma C36_cancel_pf : forall dbg k k' P ks1 ks2 ks3 Ps1 Ps2 Ps3, key_at k P -> key_at k' (pneg P) -> P <> Inf ->
  Forall2 key_at ks1 Ps1 -> Forall2 key_at ks2 Ps2 -> Forall2 key_at ks3 Ps3 -> Forall fin (Ps1 ++ Ps2 ++ Ps3) ->
  same_result dbg (pk_combine dbg (ks1 ++ k :: ks2 ++ k' :: ks3)) (pk_combine dbg (ks1 ++ ks2 ++ ks3)).
Proof.
  intros dbg k k' P ks1 ks2 ks3 Ps1 Ps2 Ps3 K K' N K1 K2 K3 F. pose proof F as F'. apply Forall_app in F'. destruct F' as [F1 F']. apply Forall_app in F'. destruct F' as [F2 F3].
  pose proof (keys_on _ _ K1) as O1. pose proof (keys_on _ _ K2) as O2. pose proof (keys_on _ _ K3) as O3. pose proof (key_on _ _ K) as OP. pose proof (key_on _ _ K') as OP'.
  assert (N' : fin (pneg P)) by (destruct P; [contradiction | discriminate]).
  apply (combine_same dbg _ (Ps1 ++ P :: Ps2 ++ pneg P :: Ps3) _ (Ps1 ++ Ps2 ++ Ps3)).
  - apply Forall2_app; [assumption|]. constructor; [assumption|]. apply Forall2_app; [assumption|]. constructor; assumption.
  - apply Forall_app. split; [exact F1|]. constructor; [exact N|]. apply Forall_app. split; [exact F2|]. constructor; assumption.
  - repeat apply Forall2_app; assumption.
  - exact F.
  - rewrite <- (psum_perm (P :: pneg P :: Ps1 ++ Ps2 ++ Ps3)).
    + cbn [psum fold_right]. fold (psum (Ps1 ++ Ps2 ++ Ps3)). rewrite padd_assoc; [|exact OP | exact OP' | apply psum_on; repeat (apply Forall_app; split); assumption]. rewrite padd_neg_r by exact OP. reflexivity.
    + etransitivity; [|apply Permutation_middle]. constructor. rewrite app_assoc. etransitivity; [apply Permutation_middle|]. rewrite <- app_assoc. reflexivity.
    + constructor; [exact OP|]. constructor; [exact OP'|]. repeat (apply Forall_app; split); assumption.
Qed.
Lemma C36_cancel_example_pf : exists k, key_at AFFINE_G G /\ key_at k (pneg G) /\ G <> Inf /\ Forall2 key_at [AFFINE_G] [G] /\ Forall fin ([G] ++ [G] ++ [G]).
Proof. destruct neg_G_key as [k K]. exists k. split; [exact G_key|]. split; [exact K|]. split; [discriminate|]. split; [keys | fins]. Qed.

(** * C37, C38 *)
(** The shared secret is the digest of the compressed encoding of d*P. *)
Lemma C37_ecdh_pf : forall dbg D k P d, key_at k P -> P <> Inf -> 0 <= d < n ->
  (d = 0 -> shared_secret_new dbg D k (scalar_of d) = Some (Err InvalidSecretKey)) /\
  (d <> 0 -> exists x y, smul d P = Aff x y /\ shared_secret_new dbg D k (scalar_of d) = Some (Ok (D (sec1_compressed x y)))).
Proof.
  intros dbg D k P d HK N R. unfold shared_secret_new, ecdh_raw. pose proof n_lt as NL. rewrite s_is_zero_eq by lia. split; [intros ->; reflexivity|]. intros ND. rewrite (proj2 (Z.eqb_neq _ _) ND).
  assert (NZ : smul d P <> Inf). { destruct (key_log k P HK N) as (e & E0 & -> & _). rewrite <- smulG by lia. rewrite smulG_mul, <- smulG_mod by nia. apply smulG_nz, mul_mod_n_nz; lia. }
  destruct (C52_ecmult_const_pf dbg k P d HK N R) as (r & -> & J). cbn [bind]. destruct (C50_set_gej_pf dbg r _ J) as (a & -> & HA). cbn [bind]. destruct (smul d P) as [|x y]; [contradiction|].
  exists x, y. split; [reflexivity|]. destruct HA as (KX & KY & O & I & <- & <-). apply fok_frep in KX, KY.
  assert (VX : val (fe (af_x a)) = fv (af_x a) mod p) by apply val_toF. assert (VY : val (fe (af_y a)) = fv (af_y a) mod p) by apply val_toF.
  assert (FX : frep 31 (af_x a) (fe (af_x a))) by fr. assert (FY : frep 31 (af_y a) (fe (af_y a))) by fr.
  destruct (wp_ex _ _ (f_normalize_rep dbg _ _ FX)) as (px & -> & PX). cbn [bind]. destruct (wp_ex _ _ (f_normalize_rep dbg _ _ FY)) as (py & -> & PY). cbn [bind].
  destruct (wp_ex _ _ (f_b32_rep dbg px _ PX)) as (bx & -> & ->). cbn [bind]. destruct (wp_ex _ _ (f_is_odd_rep dbg py _ PY)) as (o & -> & ->). cbn [bind app].
  rewrite VX, VY. unfold sec1_compressed. set (y := fv (af_y a) mod p). rewrite odd_mod. pose proof (Z.mod_pos_bound y 2 ltac:(lia)). do 4 f_equal.
  destruct (Z.eqb_spec (y mod 2) 1) as [H1|H1]; [rewrite H1; reflexivity | replace (y mod 2) with 0 by lia; reflexivity].
Qed.
Lemma C37_ecdh_example_pf : key_at AFFINE_G G /\ G <> Inf /\ 0 <= n - 1 < n /\ n - 1 <> 0 /\ smul (n - 1) G = pneg G.
Proof.
  split; [exact G_key|]. split; [discriminate|]. split; [vm_compute; split; [discriminate | reflexivity]|]. split; [vm_compute; discriminate|].
  pose proof n_pos as NP. rewrite smulG by lia. rewrite <- sp_G, <- sp_opp. f_equal. rewrite <- (emul_1 eG) at 2. rewrite <- emul_opp. apply emul_G_eq. replace (n - 1) with (- (1) + 1 * n) by ring. apply Z.mod_add. lia.
Qed.
(** Both parties get the same secret, the digest of a*b*G. *)
Lemma C38_ecdh_symmetric_pf : forall dbg dbg' D a b ka kb, 1 <= a < n -> 1 <= b < n -> key_at ka (smul a G) -> key_at kb (smul b G) ->
  exists x y, smul (a * b) G = Aff x y /\ shared_secret_new dbg D ka (scalar_of b) = Some (Ok (D (sec1_compressed x y))) /\ shared_secret_new dbg' D kb (scalar_of a) = Some (Ok (D (sec1_compressed x y))).
Proof.
  intros dbg dbg' D a b ka kb A B KA KB. destruct (C37_ecdh_pf dbg D ka _ b KA (smulG_nz a A) ltac:(lia)) as [_ HA]. destruct (HA ltac:(lia)) as (x & y & E1 & H1).
  destruct (C37_ecdh_pf dbg' D kb _ a KB (smulG_nz b B) ltac:(lia)) as [_ HB]. destruct (HB ltac:(lia)) as (x' & y' & E2 & H2).
  rewrite smulG_mul in E1, E2 by lia. rewrite Z.mul_comm, E2 in E1. injection E1 as <- <-. exists x', y'. auto.
Qed.
Lemma C38_ecdh_symmetric_example_pf : exists ctx ka kb, gen_ctx ctx /\ pk_from_secret_key true ctx (scalar_of 1) = Some ka /\ pk_from_secret_key true ctx (scalar_of (n - 1)) = Some kb /\ key_at ka (smul 1 G) /\ key_at kb (smul (n - 1) G).
Proof.
  destruct C53_ecmult_gen_example_pf as (c & _ & HC). assert (A1 : 1 <= 1 < n) by vmr. assert (A2 : 1 <= n - 1 < n) by vmr.
  destruct (C21_from_secret_key_pf true c 1 HC A1) as (k1 & H1 & _ & K1 & _). destruct (C21_from_secret_key_pf true c (n - 1) HC A2) as (k2 & H2 & _ & K2 & _). exists c, k1, k2. exact (conj HC (conj H1 (conj H2 (conj K1 K2)))).
Qed.

(** * C40 *)
(** The values a program can obtain.  Signatures, messages and contexts are included because they flow back into key operations.
    Excluded: [SecretKey::clear] (its result is the invalid zero key), [TryFrom<Scalar>] (see C41) and [TryFrom<Affine>] (see C42), whose arguments are raw limbs. *)
Inductive value :=
| VSec (k : seckey) | VPub (k : pubkey) | VMsg (m : message) | VSig (g : signature) | VRid (r : recid) | VVerify (c : ecctx) | VGen (c : genctx).
(** Everything obtainable by a finite history of API calls, on any input bytes, in any build, with any RNG, DRBG and base64 engine. *)
Inductive reachable : value -> Prop :=
| r_verify_new dbg c : ecmult_context_new dbg = Some c -> reachable (VVerify c)
| r_gen_new dbg c : ecmult_gen_context_new dbg = Some c -> reachable (VGen c)
| r_sk_parse dbg b k : length b = 32%nat -> bytes b -> sk_parse dbg b = Some (Ok k) -> reachable (VSec k)
| r_sk_parse_slice dbg b k : bytes b -> sk_parse_slice dbg b = Some (Ok k) -> reachable (VSec k)
| r_sk_random dbg fuel rng i k : stream rng -> sk_random dbg fuel rng i = Done k -> reachable (VSec k)
| r_sk_default dbg k : sk_default dbg = Some k -> reachable (VSec k)
| r_sk_tweak_add dbg k t k' r : reachable (VSec k) -> reachable (VSec t) -> sk_tweak_add_assign dbg k t = Some (k', r) -> reachable (VSec k')
| r_sk_tweak_mul dbg k t k' r : reachable (VSec k) -> reachable (VSec t) -> sk_tweak_mul_assign dbg k t = Some (k', r) -> reachable (VSec k')
| r_sk_inv dbg k k' : reachable (VSec k) -> sk_inv dbg k = Some k' -> reachable (VSec k')
| r_pk_from dbg c k q : reachable (VGen c) -> reachable (VSec k) -> pk_from_secret_key dbg c k = Some q -> reachable (VPub q)
| r_pk_parse_slice dbg b f q : bytes b -> pk_parse_slice dbg b f = Some (Ok q) -> reachable (VPub q)
| r_pk_parse dbg b q : length b = 65%nat -> bytes b -> pk_parse dbg b = Some (Ok q) -> reachable (VPub q)
| r_pk_parse_compressed dbg b q : length b = 33%nat -> bytes b -> pk_parse_compressed dbg b = Some (Ok q) -> reachable (VPub q)
| r_pk_de dbg (dec : list Z -> option (list Z)) human b q : (forall s l, dec s = Some l -> bytes l) -> bytes b -> pk_de dbg dec human b = Some (inl q) -> reachable (VPub q)
| r_pk_tweak_add dbg c q t q' r : reachable (VVerify c) -> reachable (VPub q) -> reachable (VSec t) -> pk_tweak_add_assign dbg c q t = Some (q', r) -> reachable (VPub q')
| r_pk_tweak_mul dbg c q t q' r : reachable (VVerify c) -> reachable (VPub q) -> reachable (VSec t) -> pk_tweak_mul_assign dbg c q t = Some (q', r) -> reachable (VPub q')
| r_pk_combine dbg qs q : (forall x, In x qs -> reachable (VPub x)) -> pk_combine dbg qs = Some (Ok q) -> reachable (VPub q)
| r_pk_recover dbg c m g i q : reachable (VVerify c) -> reachable (VMsg m) -> reachable (VSig g) -> reachable (VRid i) -> recover dbg c m g i = Some (Ok q) -> reachable (VPub q)
| r_msg_parse dbg b m : length b = 32%nat -> bytes b -> msg_parse dbg b = Some m -> reachable (VMsg m)
| r_msg_parse_slice dbg b m : bytes b -> msg_parse_slice dbg b = Some (Ok m) -> reachable (VMsg m)
| r_rid_parse p i : 0 <= p < 256 -> rid_parse p = Ok i -> reachable (VRid i)
| r_rid_parse_rpc p i : 0 <= p < 256 -> rid_parse_rpc p = Ok i -> reachable (VRid i)
| r_sig_standard dbg b g : length b = 64%nat -> bytes b -> sig_parse_standard dbg b = Some (Ok g) -> reachable (VSig g)
| r_sig_overflowing dbg b g : length b = 64%nat -> bytes b -> sig_parse_overflowing dbg b = Some g -> reachable (VSig g)
| r_sig_der dbg b g : bytes b -> len b < 2 ^ 55 -> sig_parse_der dbg b = Some (Ok g) -> reachable (VSig g)
| r_sig_der_lax dbg b g : bytes b -> len b < 2 ^ 55 -> sig_parse_der_lax dbg b = Some (Ok g) -> reachable (VSig g)
| r_sig_normalize dbg g g' : reachable (VSig g) -> sig_normalize_s dbg g = Some g' -> reachable (VSig g')
| r_sign_sig dbg drbg fuel c m k g i : reachable (VGen c) -> reachable (VMsg m) -> reachable (VSec k) -> (forall s s', stream (drbg s s')) -> sign dbg drbg fuel c m k = Done (g, i) -> reachable (VSig g)
| r_sign_rid dbg drbg fuel c m k g i : reachable (VGen c) -> reachable (VMsg m) -> reachable (VSec k) -> (forall s s', stream (drbg s s')) -> sign dbg drbg fuel c m k = Done (g, i) -> reachable (VRid i).
(** What a value must be. *)
Definition valid (v : value) : Prop :=
  match v with
  | VSec k => exists d, 1 <= d < n /\ k = scalar_of d
  | VPub q => exists x y, key_at q (Aff x y)
  | VMsg m => exists z, 0 <= z < n /\ m = scalar_of z
  | VSig g => exists r s, 0 <= r < n /\ 0 <= s < n /\ g = Sig (scalar_of r) (scalar_of s)
  | VRid i => 0 <= i < 4
  | VVerify c => verify_ctx c
  | VGen c => gen_ctx c
  end.
Lemma valid_pub q P : key_at q P -> P <> Inf -> valid (VPub q).
Proof. intros K N. destruct P as [|x y]; [contradiction|]. exists x, y. exact K. Qed.
Lemma pub_valid q : valid (VPub q) -> exists P, key_at q P /\ P <> Inf.
Proof. intros (x & y & K). exists (Aff x y). split; [exact K | discriminate]. Qed.
Lemma valid_sec d : 1 <= d < n -> valid (VSec (scalar_of d)). Proof. intros D. exists d. auto. Qed.
Lemma valid_sig r s : 0 <= r < n -> 0 <= s < n -> valid (VSig (Sig (scalar_of r) (scalar_of s))). Proof. intros R S. exists r, s. auto. Qed.
Lemma sk_parse_valid dbg b k : length b = 32%nat -> bytes b -> sk_parse dbg b = Some (Ok k) -> valid (VSec k).
Proof.
  intros L B H. rewrite C01_seckey_parse_pf in H by assumption. destruct (Z.leb_spec 1 (be_val b)), (Z.ltb_spec (be_val b) n); cbn [andb] in H; try discriminate H.
  apply some_inv in H. injection H as <-. apply valid_sec. lia.
Qed.
Lemma pubs_valid qs : (forall x, In x qs -> valid (VPub x)) -> exists Ps, Forall2 key_at qs Ps /\ Forall fin Ps.
Proof.
  induction qs as [|q qs IH]; intros H; [exists []; split; constructor|]. destruct IH as (Ps & K & F); [intros x Hx; apply H; right; exact Hx|].
  destruct (pub_valid q (H q (or_introl eq_refl))) as (P & KP & N). exists (P :: Ps). split; constructor; assumption.
Qed.
Lemma split_64 (b : list Z) : length b = 64%nat -> exists u v, b = u ++ v /\ length u = 32%nat /\ length v = 32%nat.
Proof. intros L. exists (firstn 32 b), (skipn 32 b). rewrite firstn_skipn, firstn_length, skipn_length, L. split; [reflexivity|]. split; reflexivity. Qed.
Lemma C40_reachable_valid_pf : forall v, reachable v -> valid v.
Proof.
  pose proof n_pos as NP. induction 1 as [dbg c H|dbg c H|dbg b k L B H|dbg b k B H|dbg fuel rng i k S H|dbg k H|dbg k t k' r _ IK _ IT H|dbg k t k' r _ IK _ IT H|dbg k k' _ IK H
    |dbg c k q _ IC _ IK H|dbg b f q B H|dbg b q L B H|dbg b q L B H|dbg dec human b q DB B H|dbg c q t q' r _ IC _ IQ _ IT H|dbg c q t q' r _ IC _ IQ _ IT H|dbg qs q _ IQ H|dbg c m g i q _ IC _ IM _ IG _ II H
    |dbg b m L B H|dbg b m B H|p i R H|p i R H|dbg b g L B H|dbg b g L B H|dbg b g B L H|dbg b g B L H|dbg g g' _ IG H|dbg drbg fuel c m k g i _ IC _ IM _ IK S H|dbg drbg fuel c m k g i _ IC _ IM _ IK S H].
  - destruct (C54_contexts_pf dbg) as [(c' & H' & V) _]. rewrite H in H'. apply some_inv in H'. subst c'. exact V.
  - destruct (C54_contexts_pf dbg) as [_ (c' & H' & V)]. rewrite H in H'. apply some_inv in H'. subst c'. exact V.
  - exact (sk_parse_valid dbg b k L B H).
  - destruct (C01_seckey_parse_slice_pf dbg b B) as [S1 S2]. destruct (Nat.eq_dec (length b) 32) as [L|L]; [rewrite (proj1 (S2 L)) in H; exact (sk_parse_valid dbg b k L B H) | rewrite (S1 L) in H; discriminate H].
  - destruct (C39_random_valid_pf dbg rng i fuel S) as [K|(d & D & K)]; rewrite K in H; [discriminate H|]. injection H as <-. apply valid_sec, D.
  - rewrite C39_default_pf in H. apply some_inv in H. subst k. apply valid_sec. vmr.
  - destruct IK as (d & D & ->), IT as (e & E0 & ->). destruct (C32_secret_tweak_add_pf dbg d e D E0) as [K R]. rewrite K in H. destruct (Z.eqb_spec (d + e) n) as [EN|EN]; apply some_inv in H; injection H as <- <-; apply valid_sec; auto.
  - destruct IK as (d & D & ->), IT as (e & E0 & ->). destruct (C33_secret_tweak_mul_pf dbg d e D E0) as [K R]. rewrite K in H. apply some_inv in H; injection H as <- <-; apply valid_sec, R.
  - destruct IK as (d & D & ->). destruct (C33_secret_inv_pf dbg d D) as (e & K & R & _). rewrite K in H. apply some_inv in H. subst k'. apply valid_sec, R.
  - destruct IK as (d & D & ->). destruct (C21_from_secret_key_pf dbg c d IC D) as (q' & K & _ & HQ & N). rewrite H in K. apply some_inv in K. subst q'. exact (valid_pub _ _ HQ N).
  - destruct (C17_pubkey_total_pf dbg b f B) as (r & K & V). rewrite H in K. apply some_inv in K. subst r. exact (V q eq_refl).
  - destruct (C17_pubkey_total_pf dbg b None B) as (r & K & V). unfold pk_parse_slice in K. rewrite L in K. cbn [Nat.eqb pk_format] in K. change (pk_format 65 None) with (Some Full) in K. cbv iota in K. rewrite H in K. apply some_inv in K. subst r. exact (V q eq_refl).
  - destruct (C17_pubkey_total_pf dbg b None B) as (r & K & V). unfold pk_parse_slice in K. rewrite L in K. change (pk_format 33 None) with (Some Compressed) in K. cbv iota in K. rewrite H in K. apply some_inv in K. subst r. exact (V q eq_refl).
  - destruct (C43_deserialize_valid_pf dbg dec human b DB B) as (r & K & V). rewrite H in K. apply some_inv in K. subst r. exact (V q eq_refl).
  - destruct (pub_valid _ IQ) as (P & KP & N), IT as (e & E0 & ->). destruct (C34_public_tweak_add_pf dbg c q P e IC KP N ltac:(lia)) as [H1 H2]. destruct (pt_dec (padd P (smul e G))) as [Z0|N0].
    + rewrite (H1 Z0) in H. apply some_inv in H. injection H as <- <-. exact IQ.
    + destruct (H2 N0) as (q2 & K & V). rewrite H in K. apply some_inv in K. injection K as -> ->. exact (valid_pub _ _ (key_mono _ _ V) N0).
  - destruct (pub_valid _ IQ) as (P & KP & N), IT as (e & E0 & ->). destruct (C35_public_tweak_mul_pf dbg c q P e IC KP N ltac:(lia)) as [_ H2]. destruct (H2 ltac:(lia)) as (q2 & K & V & N0).
    rewrite H in K. apply some_inv in K. injection K as -> ->. exact (valid_pub _ _ (key_mono _ _ V) N0).
  - destruct (pubs_valid qs IQ) as (Ps & KS & F). destruct (C36_combine_pf dbg qs Ps KS F) as [H1 H2]. destruct (pt_dec (psum Ps)) as [Z0|N0]; [rewrite (H1 Z0) in H; discriminate H|].
    destruct (H2 N0) as (q2 & K & V). rewrite H in K. apply some_inv in K. injection K as ->. exact (valid_pub _ _ (key_mono _ _ V) N0).
  - destruct IM as (z & Z & ->), IG as (r & s & R & S & ->). exact (proj1 (C25_recovered_verifies_pf dbg dbg c c z r s i q IC IC R S Z II H)).
  - destruct (C10_message_parse_pf dbg b L B) as [K _]. rewrite H in K. apply some_inv in K. subst m. exists (be_val b mod n). split; [apply Z.mod_pos_bound; lia | reflexivity].
  - rewrite C10_message_slice_pf in H by exact B. destruct (length b =? 32)%nat; [|discriminate H]. apply some_inv in H. injection H as <-. exists (be_val b mod n). split; [apply Z.mod_pos_bound; lia | reflexivity].
  - unfold rid_parse in H. destruct (Z.ltb_spec p 4); [|discriminate H]. injection H as <-. cbn [valid]. lia.
  - unfold rid_parse_rpc, rid_parse in H. destruct (Z.leb_spec 27 p), (Z.ltb_spec p 31); cbn [andb] in H; try discriminate H. destruct (Z.ltb_spec (p - 27) 4); [|discriminate H]. injection H as <-. cbn [valid]. lia.
  - destruct (split_64 b L) as (u & v & -> & LU & LV). apply Forall_app in B. rewrite C08_sig_parse_standard_pf in H by tauto. destruct (Z.ltb_spec (be_val u) n), (Z.ltb_spec (be_val v) n); cbn [andb] in H; try discriminate H.
    apply some_inv in H. injection H as <-. pose proof (be_val_32 u LU (proj1 B)). pose proof (be_val_32 v LV (proj2 B)). apply valid_sig; lia.
  - destruct (split_64 b L) as (u & v & -> & LU & LV). apply Forall_app in B. rewrite C09_sig_parse_overflowing_pf in H by tauto. apply some_inv in H. subst g. apply valid_sig; apply Z.mod_pos_bound; lia.
  - destruct (C17_der_total_pf dbg b B L) as [[K|(r & s & R & S & K)] _]; rewrite K in H; [discriminate H|]. apply some_inv in H. injection H as <-. apply valid_sig; assumption.
  - destruct (C17_der_total_pf dbg b B L) as [_ [K|(r & s & R & S & K)]]; rewrite K in H; [discriminate H|]. apply some_inv in H. injection H as <-. apply valid_sig; assumption.
  - destruct IG as (r & s & R & S & ->). pose proof n_lt as NL. unfold sig_normalize_s in H. cbn [sig_r sig_s] in H. destruct (s_is_high (scalar_of s)); [|apply some_inv in H; subst g'; apply valid_sig; assumption].
    rewrite s_neg_eq in H by lia. apply some_inv in H. subst g'. apply valid_sig; [exact R | apply Z.mod_pos_bound; lia].
  - destruct IM as (z & Z & ->), IK as (d & D & ->). destruct (sign_done dbg drbg fuel c d z g i IC ltac:(lia) Z (S _ _) H) as (k & r & s & K & SF & -> & _).
    destruct (signature_for_ok d z k r s i ltac:(lia) Z K SF) as (R & S1 & S2 & _). apply valid_sig; lia.
  - destruct IM as (z & Z & ->), IK as (d & D & ->). destruct (sign_done dbg drbg fuel c d z g i IC ltac:(lia) Z (S _ _) H) as (k & r & s & K & SF & -> & _).
    destruct (signature_for_ok d z k r s i ltac:(lia) Z K SF) as (_ & _ & _ & ID & _). exact ID.
Qed.
(** A key obtained by deriving, tweaking, inverting and combining. *)
Lemma C40_reachable_valid_example_pf : exists k q q', sk_default true = Some k /\ reachable (VSec k) /\ reachable (VPub q) /\ pk_combine true [q; q] = Some (Ok q') /\ reachable (VPub q').
Proof.
  destruct (C54_contexts_pf true) as [_ (c & HC & VC)]. assert (D : 1 <= 1 < n) by vmr. destruct (C21_from_secret_key_pf true c 1 VC D) as (q & HQ & _ & KQ & NQ).
  assert (RK : reachable (VSec (scalar_of 1))) by (eapply (r_sk_default true); apply C39_default_pf). assert (RQ : reachable (VPub q)) by (eapply r_pk_from; [eapply r_gen_new; exact HC | exact RK | exact HQ]).
  destruct (C36_combine_pf true [q; q] [smul 1 G; smul 1 G]) as [_ H].
  - repeat (apply Forall2_cons; [exact KQ|]). apply Forall2_nil.
  - repeat (apply Forall_cons; [exact NQ|]). apply Forall_nil.
  - destruct H as (q' & HQ' & _).
    + cbn [psum fold_right]. rewrite padd_inf_r, smulG_add by lia. apply smulG_nz. vmr.
    + exists (scalar_of 1), q, q'. split; [apply C39_default_pf|]. split; [exact RK|]. split; [exact RQ|]. split; [exact HQ'|]. eapply r_pk_combine; [|exact HQ']. intros x Hx. destruct Hx as [<-|[<-|[]]]; exact RQ.
Qed.
(** No API call on reachable values panics, except [sign] in a debug build (see C31). *)
Lemma C40_no_panic_pf : forall dbg gc vc k t q q' qs m g i, reachable (VGen gc) -> reachable (VVerify vc) -> reachable (VSec k) -> reachable (VSec t) ->
  reachable (VPub q) -> reachable (VPub q') -> (forall x, In x qs -> reachable (VPub x)) -> reachable (VMsg m) -> reachable (VSig g) -> reachable (VRid i) ->
  pk_from_secret_key dbg gc k <> None /\ pk_serialize dbg q <> None /\ pk_serialize_compressed dbg q <> None /\ pk_eq dbg q q' <> None /\
  pk_tweak_add_assign dbg vc q t <> None /\ pk_tweak_mul_assign dbg vc q t <> None /\ pk_combine dbg qs <> None /\
  sk_tweak_add_assign dbg k t <> None /\ sk_tweak_mul_assign dbg k t <> None /\ sk_inv dbg k <> None /\ sig_normalize_s dbg g <> None /\
  verify dbg vc m g q <> None /\ recover dbg vc m g i <> None /\ (forall D, shared_secret_new dbg D q k <> None) /\
  (forall drbg fuel, (forall s s', stream (drbg s s')) -> sign false drbg fuel gc m k <> Panic).
Proof.
  intros dbg gc vc k t q q' qs m g i RGC RVC RK RT RQ RQ' RQS RM RG RI. apply C40_reachable_valid_pf in RGC, RVC, RK, RT, RQ, RQ', RM, RG, RI. cbn [valid] in RGC, RVC, RI.
  assert (VQS : forall x, In x qs -> valid (VPub x)) by (intros x Hx; apply C40_reachable_valid_pf, RQS, Hx). clear RQS. pose proof n_pos as NP. pose proof n_lt as NL.
  destruct RK as (d & D & ->), RT as (e & E0 & ->), RM as (z & Z & ->), RG as (r & s & R & S & ->). destruct (pubs_valid qs VQS) as (Ps & KS & F).
  destruct RQ as (x & y & KQ), RQ' as (x' & y' & KQ'). assert (NQ : Aff x y <> Inf) by discriminate.
  repeat apply conj.
  - destruct (C21_from_secret_key_pf dbg gc d RGC D) as (a & -> & _). discriminate.
  - destruct (C06_serialize_pf dbg q x y KQ) as [-> _]. discriminate.
  - destruct (C06_serialize_pf dbg q x y KQ) as [_ ->]. discriminate.
  - destruct (C07_equality_pf dbg _ _ _ _ _ _ KQ KQ') as (b & -> & _). discriminate.
  - destruct (C34_public_tweak_add_pf dbg vc q _ e RVC KQ NQ ltac:(lia)) as [H1 H2]. destruct (pt_dec (padd (Aff x y) (smul e G))) as [Z0|N0]; [rewrite (H1 Z0) | destruct (H2 N0) as (a & -> & _)]; discriminate.
  - destruct (C35_public_tweak_mul_pf dbg vc q _ e RVC KQ NQ ltac:(lia)) as [_ H2]. destruct (H2 ltac:(lia)) as (a & -> & _). discriminate.
  - destruct (C36_combine_pf dbg qs Ps KS F) as [H1 H2]. destruct (pt_dec (psum Ps)) as [Z0|N0]; [rewrite (H1 Z0) | destruct (H2 N0) as (a & -> & _)]; discriminate.
  - rewrite (proj1 (C32_secret_tweak_add_pf dbg d e D E0)). discriminate.
  - rewrite (proj1 (C33_secret_tweak_mul_pf dbg d e D E0)). discriminate.
  - destruct (C33_secret_inv_pf dbg d D) as (a & -> & _). discriminate.
  - unfold sig_normalize_s. cbn [sig_r sig_s]. destruct (s_is_high (scalar_of s)); [rewrite s_neg_eq by lia|]; discriminate.
  - destruct (C22_verify_pf dbg vc q _ z r s RVC KQ NQ R S Z) as (b & -> & _). discriminate.
  - destruct (C25_recover_exact_pf dbg vc z r s i RVC R S Z RI) as [(a & Q & -> & _)|[-> _]]; discriminate.
  - intros DG. destruct (C37_ecdh_pf dbg DG q _ d KQ NQ ltac:(lia)) as [_ H2]. destruct (H2 ltac:(lia)) as (a & b & _ & ->). discriminate.
  - intros drbg fuel HS. unfold sign. rewrite !s_b32_eq by lia. pose proof (HS (be_bytes 32 d) (be_bytes 32 z)) as HG. remember (drbg (be_bytes 32 d) (be_bytes 32 z)) as gen eqn:EG. clear EG.
    generalize O as j. induction fuel as [|f IH]; intros j; [discriminate|]. destruct (sign_loop_step false f gen j gc d z RGC HG ltac:(lia) Z) as [(K & _)|[(_ & _ & a & b & c & _ & ->)|(_ & _ & ->)]]; [discriminate K | discriminate | apply IH].
Qed.
Lemma C40_no_panic_example_pf : exists gc vc k q m g i, reachable (VGen gc) /\ reachable (VVerify vc) /\ reachable (VSec k) /\ reachable (VPub q) /\ reachable (VMsg m) /\ reachable (VSig g) /\ reachable (VRid i).
Proof.
  destruct (C54_contexts_pf true) as [(vc & HV & VV) (c & HC & VC)]. destruct C40_reachable_valid_example_pf as (k & q & _ & _ & RK & RQ & _). assert (B : bytes (be_bytes 32 1)) by apply be32_bytes.
  exists c, vc, k, q, (scalar_of 1), (Sig (scalar_of 1) (scalar_of 1)), 3. split; [eapply r_gen_new; exact HC|]. split; [eapply r_verify_new; exact HV|]. split; [exact RK|]. split; [exact RQ|].
  split; [|split].
  - apply (r_msg_parse true (be_bytes 32 1)); [reflexivity | exact B | vmr].
  - apply (r_sig_standard true (be_bytes 32 1 ++ be_bytes 32 1)); [reflexivity | apply Forall_app; auto | vmr].
  - apply (r_rid_parse 3); [lia | reflexivity].
Qed.
