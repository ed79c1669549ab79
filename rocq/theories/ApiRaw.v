(** Contexts made from a table the caller supplies, and which tables are right. *)
From Coq Require Import Znumtheory Field.
From Verif Require Import Word MField MScalar MGroup MEcmult MRaw MApi WP Spec Fp FieldStore Denote Curve Group Chain OrderCert Order Jac JacOps Lift Table Ecmult Gen Key Ctx Raw Ecdsa ApiScalar ApiPub ApiGroup ApiEcdsa ApiKeys ApiGen.

(** Tweaking the key [k] of the point P by [e] does what it should: P + e*G, or the error when that is the point at infinity. *)
Definition tweak_right (dbg : bool) (ctx : ecctx) (k : pubkey) (P : point) (e : Z) : Prop :=
  (padd P (smul e G) = Inf -> pk_tweak_add_assign dbg ctx k (scalar_of e) = Some (k, Err TweakOutOfRange)) /\
  (padd P (smul e G) <> Inf -> exists k', pk_tweak_add_assign dbg ctx k (scalar_of e) = Some (k', Ok tt) /\ aff_at 1 k' (padd P (smul e G))).
(** A table of the size the type prescribes, each entry some point of the curve. *)
Definition raw_table (t : list astorage) : Prop := Z.of_nat (length t) = 16384 /\ forall i s, nth_error t i = Some s -> exists Q, stored_at s Q.
(** The same for the table of the signing context: [rows] are the points it holds. *)
Definition raw_rows (prec : list (list astorage)) (rows : list (list point)) : Prop :=
  length prec = 64%nat /\ Forall2 (fun r l => length r = 16%nat /\ Forall2 stored_at r l) prec rows.
(** From row j the entry at the j-th hexadecimal digit of g, lowest first. *)
Fixpoint picks (rows : list (list point)) (j g : Z) : list point :=
  match rows with [] => [] | row :: t => nth (Z.to_nat ((g / 16 ^ j) mod 16)) row Inf :: picks t (j + 1) g end.

Lemma stored_ex s Q : stored_at s Q -> exists B, Q = sp B /\ asok s B.
Proof. intros H. assert (O : on_curve Q) by (destruct s; apply H). destruct (sp_surj _ O) as [B <-]. exists B. split; [reflexivity | apply stored_asok, H]. Qed.

Lemma aok_fun m u k A B : aok m u k A -> aok m u k B -> A = B.
Proof. intros (_ & _ & H1) (_ & _ & H2). destruct (af_inf k); [congruence|]. destruct H1 as [_ H1], H2 as [_ H2]. apply pt_inj. congruence. Qed.
Lemma jlok_fun j A B : jlok j A -> jlok j B -> A = B.
Proof. intros (_ & _ & _ & H1) (_ & _ & _ & H2). destruct (j_inf j); [congruence|]. destruct H1 as [_ H1], H2 as [_ H2]. apply pt_inj. congruence. Qed.
Lemma aff_fun m k P Q : aff_at m k P -> aff_at m k Q -> P = Q.
Proof. intros H1 H2. destruct (aff_exists _ _ _ H1) as (A & -> & A1), (aff_exists _ _ _ H2) as (B & -> & B1). f_equal. exact (aok_fun _ _ _ _ _ A1 B1). Qed.

(** * C88 *)
(** Whatever else the table holds: tweaking by 2i+1 adds the point at index i. *)
Lemma C88_tweak_entry_pf : forall dbg t i s Q k P, nth_error t i = Some s -> Z.of_nat i < 16384 -> stored_at s Q -> key_at k P -> P <> Inf ->
  (padd P Q = Inf -> pk_tweak_add_assign dbg (ecctx_new_from_raw t) k (scalar_of (2 * Z.of_nat i + 1)) = Some (k, Err TweakOutOfRange)) /\
  (padd P Q <> Inf -> exists k', pk_tweak_add_assign dbg (ecctx_new_from_raw t) k (scalar_of (2 * Z.of_nat i + 1)) = Some (k', Ok tt) /\ aff_at 1 k' (padd P Q)).
Proof.
  intros dbg t i s Q k P NI LI HS HK N. destruct (stored_ex _ _ HS) as (B & -> & AB). unfold pk_tweak_add_assign. destruct (set_ge_key dbg k P HK) as (j & -> & J). cbn [bind]. change (s_from_int 1) with (scalar_of 1).
  change (bind (Some (scalar_of 1)) ?f) with (f (scalar_of 1)). cbv beta. destruct (jac_exists _ _ J) as (A & -> & JA). assert (NA : A <> e0) by (intros ->; apply N; reflexivity).
  assert (LI' : (i < ECMULT_TABLE_SIZE_G)%nat) by (unfold ECMULT_TABLE_SIZE_G; lia).
  destruct (wp_ex _ _ (ecmult_entry dbg t i s B j A NI LI' AB JA NA)) as (r & ER & R). unfold ecctx_new_from_raw. rewrite ER. cbn [bind]. apply jac_jok in R. rewrite sp_add in R. pose proof (jac_inf _ _ R) as RI. split.
  - intros E0. rewrite (proj2 RI E0). reflexivity.
  - intros NE. destruct (j_inf r) eqn:IR; [elim NE; apply RI; reflexivity|]. destruct (C50_set_gej_pf dbg r _ R) as (a & -> & HA). exists a. split; [reflexivity | exact HA].
Qed.
Lemma C88_tweak_entry_example_pf : exists t s, nth_error t 1 = Some s /\ stored_at s (smul 3 G) /\ key_at AFFINE_G G /\ padd G (smul 3 G) <> Inf.
Proof.
  destruct (C54_contexts_pf true) as [([t] & _ & L & H) _]. destruct (nth_error t 1) as [s|] eqn:NS; [|apply nth_error_None in NS; lia]. exists t, s. split; [exact NS|]. split; [exact (H 1%nat s NS)|]. split; [exact G_key|].
  assert (E1 : G = smul 1 G) by (rewrite smul_1 by exact G_on; reflexivity). rewrite E1 at 1. rewrite smulG_add by lia. apply smulG_nz. vmr.
Qed.

(** If the odd tweaks below 2^15 of one single key come out right, the table is the right one. *)
Lemma C88_verify_detect_pf : forall dbg t k P, raw_table t -> key_at k P -> P <> Inf ->
  (forall e, 0 < e < 32768 -> e mod 2 = 1 -> tweak_right dbg (ecctx_new_from_raw t) k P e) -> verify_ctx (ecctx_new_from_raw t).
Proof.
  intros dbg t k P [L HT] HK N H. split; [exact L|]. intros i s NS. pose proof (nth_some_lt _ _ _ NS) as LI. destruct (HT i s NS) as (Q & HQ). set (e := 2 * Z.of_nat i + 1).
  assert (EO : e mod 2 = 1) by (unfold e; rewrite Z.add_comm, Z.mul_comm, Z.mod_add by lia; reflexivity).
  destruct (H e ltac:(unfold e; lia) EO) as [T1 T2]. destruct (C88_tweak_entry_pf dbg t i s Q k P NS ltac:(lia) HQ HK N) as [R1 R2]. fold e in R1, R2.
  assert (EQ : padd P Q = padd P (smul e G)).
  { destruct (pt_dec (padd P (smul e G))) as [Z0|N0], (pt_dec (padd P Q)) as [Z1|N1].
    - congruence.
    - destruct (R2 N1) as (k' & E1 & _). rewrite (T1 Z0) in E1. apply some_inv in E1. injection E1 as E1 E2. discriminate E2.
    - destruct (T2 N0) as (k' & E1 & _). rewrite (R1 Z1) in E1. apply some_inv in E1. injection E1 as E1 E2. discriminate E2.
    - destruct (R2 N1) as (k1 & E1 & A1), (T2 N0) as (k2 & E2 & A2). rewrite E1 in E2. apply some_inv in E2. injection E2 as ->.
      exact (aff_fun _ _ _ _ A1 A2). }
  destruct (key_exists _ _ HK) as (A & -> & _). destruct (stored_ex _ _ HQ) as (B & -> & AB). rewrite smulG in EQ |- * by (unfold e; lia). rewrite <- !sp_add in EQ. apply sp_inj, eadd_cancel_l in EQ. rewrite <- EQ. exact HQ.
Qed.
Lemma C88_verify_detect_example_pf : exists t, raw_table t /\ key_at AFFINE_G G /\ G <> Inf /\ forall e, 0 < e < 32768 -> e mod 2 = 1 -> tweak_right true (ecctx_new_from_raw t) AFFINE_G G e.
Proof.
  destruct (C54_contexts_pf true) as [([t] & _ & V) _]. exists t. split; [split; [apply V|]; intros i s NS; eexists; apply V, NS|]. split; [exact G_key|]. split; [discriminate|].
  intros e E0 _. assert (NB : 32768 < n) by vmr. exact (C34_public_tweak_add_pf true (Ctx t) AFFINE_G G e V G_key ltac:(discriminate) ltac:(lia)).
Qed.
(** So a table of curve points is the right one exactly when tweaking is right for all keys and all tweaks. *)
Lemma C88_verify_table_pf : forall dbg t, raw_table t ->
  (verify_ctx (ecctx_new_from_raw t) <-> forall k P e, key_at k P -> P <> Inf -> 0 <= e < n -> tweak_right dbg (ecctx_new_from_raw t) k P e).
Proof.
  intros dbg t HT. split.
  - intros V k P e HK N E0. exact (C34_public_tweak_add_pf dbg _ k P e V HK N E0).
  - intros H. assert (NB : 32768 < n) by vmr. apply (C88_verify_detect_pf dbg t AFFINE_G G HT G_key ltac:(discriminate)). intros e E0 _. apply H; [exact G_key | discriminate | lia].
Qed.
Lemma C88_verify_table_example_pf : exists t, raw_table t /\ verify_ctx (ecctx_new_from_raw t).
Proof. destruct (C54_contexts_pf true) as [([t] & _ & V) _]. exists t. split; [|exact V]. split; [apply V|]. intros i s NS. eexists. apply V, NS. Qed.

Lemma raw_rows_ex prec rows : raw_rows prec rows -> exists es, rows = map (map sp) es /\ Forall2 (Forall2 asok) prec es /\ Forall (fun r => length r = 16%nat) es /\ length es = 64%nat.
Proof.
  intros [L H]. revert L. generalize 64%nat as m. induction H as [|r l prec rows [LR HR] _ IH]; intros m L.
  - exists []. split; [reflexivity|]. split; [constructor|]. split; [constructor | exact L].
  - destruct m as [|m]; [discriminate L|]. injection L as L. destruct (IH m L) as (es & -> & H1 & H2 & H3).
    assert (X : exists e, l = map sp e /\ Forall2 asok r e). { clear LR. induction HR as [|s Q r l HS _ (e & -> & HE)]; [exists []; split; [reflexivity | constructor]|]. destruct (stored_ex _ _ HS) as (B & -> & AB). exists (B :: e). split; [reflexivity | constructor; assumption]. }
    destruct X as (e & -> & HE). exists (e :: es). split; [reflexivity|]. split; [constructor; assumption|]. split; [constructor; [rewrite <- (Forall2_len _ _ _ HE); exact LR | exact H2] | cbn [length]; congruence].
Qed.
Lemma picks_sp es g : Forall (fun r => length r = 16%nat) es -> forall j, picks (map (map sp) es) j g = map sp (epicks es j g).
Proof.
  induction 1 as [|r es L _ IH]; intros j; [reflexivity|]. cbn [map picks epicks]. rewrite IH. f_equal. change Inf with (sp e0). apply map_nth.
Qed.
(** The result of multiplying the generator with any table, blinding and initial point: the initial point plus one entry of each row. *)
Lemma C88_gen_value_pf : forall dbg prec rows b ini P k, raw_rows prec rows -> 0 <= b < n -> jac_loose ini P -> 0 <= k < n ->
  exists r, ecmult_gen dbg (GCtx prec (scalar_of b) ini) (scalar_of k) = Some r /\ jac_at r (padd P (psum (picks rows 0 ((k + b) mod n)))).
Proof.
  intros dbg prec rows b ini P k HR HB HI HK. destruct (raw_rows_ex _ _ HR) as (es & -> & H1 & H2 & H3). pose proof HI as (_ & _ & _ & OI & _). destruct (sp_surj _ OI) as [A <-]. apply jac_loose_jlok in HI.
  destruct (wp_ex _ _ (ecmult_gen_value dbg prec es b ini A k H1 H2 H3 HI HB HK)) as (r & -> & R). exists r. split; [reflexivity|]. rewrite picks_sp, <- sp_sum, <- sp_add by exact H2. apply jac_jok, R.
Qed.
Lemma gen_raw c : gen_ctx c -> exists prec rows b ini P, c = GCtx prec (scalar_of b) ini /\ raw_rows prec rows /\ 0 <= b < n /\ jac_loose ini P.
Proof.
  intros H. apply gen_ctx_ok in H. destruct c as [prec blind ini], H as (b & I & bs & -> & HB & HI & LB & HP & _). exists prec, (map (map sp) (grows bs 0)), b, ini, (sp I). split; [reflexivity|].
  split; [|split; [exact HB | apply jac_loose_jlok, HI]]. pose proof (Forall2_len _ _ _ HP) as LP. rewrite grows_len in LP. split; [congruence|]. pose proof (grows_len16 bs 0) as L16. clear LP LB.
  induction HP as [|r l prec' rows HR HP IH]; [constructor|]. inversion L16 as [|? ? L1 L2]; subst. cbn [map]. constructor; [|apply IH, L2]. pose proof (Forall2_len _ _ _ HR) as LR. split; [congruence|].
  clear - HR. induction HR as [|s B r l HS _ IH]; [constructor|]. cbn [map]. constructor; [apply stored_asok, HS | exact IH].
Qed.
Lemma C88_gen_value_example_pf : exists prec rows b ini P, raw_rows prec rows /\ 0 <= b < n /\ jac_loose ini P.
Proof. destruct C53_ecmult_gen_example_pf as (c & _ & HC). destruct (gen_raw c HC) as (prec & rows & b & ini & P & _ & H). eauto 8. Qed.

(** A table of curve points, with its blinding and initial point, is right exactly when every secret key gets its public key. *)
Lemma C88_gen_table_pf : forall dbg prec rows b ini P, raw_rows prec rows -> 0 <= b < n -> jac_loose ini P ->
  (gen_ctx (GCtx prec (scalar_of b) ini) <-> forall d, 1 <= d < n -> exists k, pk_from_secret_key dbg (GCtx prec (scalar_of b) ini) (scalar_of d) = Some k /\ key_at k (smul d G)).
Proof.
  intros dbg prec rows b ini P HR HB HI. split.
  - intros V d D. destruct (C21_from_secret_key_pf dbg _ d V D) as (k & E1 & _ & K & _). eauto.
  - intros H. destruct (raw_rows_ex _ _ HR) as (es & -> & H1 & H2 & H3). pose proof HI as (_ & _ & _ & OI & _). destruct (sp_surj _ OI) as [A <-]. apply jac_loose_jlok in HI.
    assert (F : forall g, 0 <= g < n -> g <> b -> eadd A (esum (epicks es 0 g)) = emul (g - b) eG).
    { intros g G0 NE. pose proof (Z.mod_pos_bound (g - b) n ltac:(lia)) as DR. assert (DN : (g - b) mod n <> 0).
      { intros E0. apply Z.mod_divide in E0; [|lia]. destruct E0 as [c E0]. assert (c = 0) by nia. lia. }
      destruct (H ((g - b) mod n) ltac:(lia)) as (k & E1 & K). unfold pk_from_secret_key in E1.
      destruct (wp_ex _ _ (ecmult_gen_value dbg prec es b ini A ((g - b) mod n) H1 H2 H3 HI HB ltac:(lia))) as (r & ER & R). rewrite ER in E1. cbn [bind] in E1.
      destruct (wp_ex _ _ (af_set_gej_ok dbg r _ R)) as (k' & E2 & KA & _). rewrite E1 in E2. apply some_inv in E2. subst k'. rewrite smulG in K by lia. apply key_aok in K.
      assert (KB : aok 6 f1 k (eadd A (esum (epicks es 0 (((g - b) mod n + b) mod n))))) by (eapply aok_mono; [exact KA | lia]).
      rewrite Z.add_mod_idemp_l in KB by lia. rewrite Z.sub_add, Z.mod_small in KB by lia. rewrite <- (emul_mod_G (g - b)). exact (aok_fun _ _ _ _ _ KB K). }
    apply gen_ctx_ok. exists b, A, (map (fun r => nth 0 r e0) es). split; [reflexivity|]. split; [exact HB|]. split; [exact HI|]. split; [rewrite map_length; exact H3|].
    split; [rewrite <- (rows_grows es b A H3 H2 HB F); exact H1 | exact (offsets_sum es b A H3 H2 HB F)].
Qed.
Lemma C88_gen_table_example_pf : exists prec rows b ini P, raw_rows prec rows /\ 0 <= b < n /\ jac_loose ini P /\ gen_ctx (GCtx prec (scalar_of b) ini).
Proof. destruct C53_ecmult_gen_example_pf as (c & _ & HC). destruct (gen_raw c HC) as (prec & rows & b & ini & P & -> & H1 & H2 & H3). exists prec, rows, b, ini, P. auto. Qed.

(** Taking the table out of a context and making a context of it: the same verification context; ... *)
Lemma C88_raw_verify_pf : forall c, ecctx_new_from_raw (ecctx_inspect_raw c) = c.
Proof. intros [t]. reflexivity. Qed.
(** ... and a right signing context exactly when the offsets of the rows cancel, that is when the old initial point was minus the old blinding times G. *)
Lemma C88_raw_gen_pf : forall prec b ini P, gen_ctx (GCtx prec (scalar_of b) ini) -> 0 <= b < n -> jac_loose ini P ->
  (gen_ctx (genctx_new_from_raw (genctx_inspect_raw (GCtx prec (scalar_of b) ini))) <-> P = pneg (smul b G)).
Proof.
  intros prec b ini P HC HB HI. unfold genctx_new_from_raw, genctx_inspect_raw. pose proof HI as (_ & _ & _ & OI & _). destruct (sp_surj _ OI) as [A <-]. apply jac_loose_jlok in HI.
  apply gen_ctx_ok in HC. destruct HC as (b' & I' & bs & EB & HB' & HI' & LB & HP & SUM). pose proof n_lt as NL; apply scalar_of_inj in EB; [|lia|lia]. subst b'. assert (A = I') by exact (jlok_fun _ _ _ HI HI'). subst I'.
  rewrite smulG, <- sp_opp by lia. destruct C54_gen_initial_pf as (c & EC & HCR & IC). split.
  - intros V. apply gen_ctx_ok in V. destruct V as (b2 & I2 & bs2 & EB2 & HB2 & HI2 & LB2 & HP2 & SUM2). rewrite EC in EB2. apply scalar_of_inj in EB2; [|lia|lia]. subst b2.
    rewrite smulG, <- sp_opp in IC by lia. apply jac_loose_jlok in IC. pose proof (jlok_fun _ _ _ IC HI2) as E2. rewrite <- E2 in SUM2.
    assert (BS : bs2 = bs).
    { clear - HP HP2. revert HP HP2. generalize 0 as j. revert prec bs2. induction bs as [|a bs IH]; intros prec [|a2 bs2] j H1 H2; [reflexivity | inversion H1; subst; inversion H2 | inversion H2; subst; inversion H1 |].
      destruct prec as [|r prec]; [inversion H1|]. apply Forall2_inv in H1, H2. destruct H1 as [R1 H1], H2 as [R2 H2]. f_equal; [|exact (IH prec bs2 (j + 1) H1 H2)].
      change (gpts ?X ?Y 16 0) with (eadd X (emul 0 Y) :: gpts X Y 15 1) in R1, R2. destruct r as [|s r]; [inversion R1|]. apply Forall2_inv in R1, R2. destruct R1 as [R1 _], R2 as [R2 _].
      rewrite emul_0, eadd_0_r in R1, R2. apply stored_asok in R1, R2. apply sp_inj. destruct s as [x y]. destruct R1 as (_ & _ & _ & ->), R2 as (_ & _ & _ & ->). reflexivity. }
    subst bs2. rewrite <- (eadd_0_r (eopp (emul c eG))) in SUM2 at 2. apply eadd_cancel_l in SUM2. rewrite SUM2, eadd_0_r in SUM. rewrite SUM. reflexivity.
  - intros EP. apply sp_inj in EP. subst A. rewrite <- (eadd_0_r (eopp (emul b eG))) in SUM at 2. apply eadd_cancel_l in SUM. apply gen_ctx_ok. exists c, (eopp (emul c eG)), bs.
    split; [exact EC|]. split; [exact HCR|]. split; [apply jac_loose_jlok; rewrite sp_opp, <- smulG by lia; exact IC|]. split; [exact LB|]. split; [exact HP|]. rewrite SUM, eadd_0_r. reflexivity.
Qed.
Lemma C88_raw_gen_example_pf : exists prec b ini P, gen_ctx (GCtx prec (scalar_of b) ini) /\ 0 <= b < n /\ jac_loose ini P /\ P = pneg (smul b G).
Proof.
  destruct C54_gen_initial_pf as (c & EC & HCR & IC). destruct (C54_contexts_pf true) as [_ (g & EG & HG)]. destruct (gen_prec_only true g EG) as (prec & ->). exists prec, c, GEN_INITIAL, (pneg (smul c G)). rewrite <- EC. auto.
Qed.
Lemma stored_point P : on_curve P -> P <> Inf -> exists s, stored_at s P.
Proof.
  intros O N. destruct (jac_of_point P O) as (j & J). assert (S1 : 2 * Z.of_nat 1 < n - 2) by vmr. destruct (C54_odd_multiples_pf true 1 j P J N S1 ltac:(discriminate)) as (t & _ & L & H).
  destruct t as [|s t]; [discriminate L|]. exists s. pose proof (H 0%nat s eq_refl) as K. change (2 * Z.of_nat 0 + 1) with 1 in K. rewrite smul_1 in K by exact O. exact K.
Qed.
Lemma b0_dec (A : E) : A = eG \/ A <> eG.
Proof.
  destruct (classicE (eadd A (eopp eG))) as [H|H]; [left | right; intros ->; apply H, eadd_opp_r].
  rewrite eadd_comm in H. apply eopp_unique in H. rewrite eopp_opp in H. exact H.
Qed.
Lemma row_ex m : 1 <= m -> forall k i, 0 <= i -> m + i + Z.of_nat k <= n -> exists r, Forall2 asok r (gpts (emul m eG) (emul (16 ^ 0) eG) k i).
Proof.
  intros M. induction k as [|k IH]; intros i I L; [exists []; constructor|]. destruct (IH (i + 1) ltac:(lia) ltac:(lia)) as (r & HR). cbn [gpts].
  assert (EQ : eadd (emul m eG) (emul i (emul (16 ^ 0) eG)) = emul (m + i) eG) by (rewrite Z.pow_0_r, emul_1, emul_add; reflexivity). rewrite EQ.
  destruct (stored_point (sp (emul (m + i) eG)) (sp_on _) (sp_nz (m + i) ltac:(lia))) as (s & HS). exists (s :: r). constructor; [apply stored_asok, HS | exact HR].
Qed.
(** There are right contexts whose table does not survive this: the constructor forgets the blinding and the initial point. *)
Lemma C88_raw_gen_refuted_pf : exists c, gen_ctx c /\ ~ gen_ctx (genctx_new_from_raw (genctx_inspect_raw c)).
Proof.
  destruct C88_raw_gen_example_pf as (prec & b & ini & P & HC & HB & HI & EP). pose proof (proj2 (C88_raw_gen_pf prec b ini P HC HB HI) EP) as V. unfold genctx_new_from_raw, genctx_inspect_raw in V. clear HI EP P HC HB ini b.
  apply gen_ctx_ok in V. destruct V as (b & I & bs & EB & HB & HI & LB & HP & SUM).
  destruct C54_gen_initial_pf as (b' & EC & HB' & IC). rewrite EC in EB. pose proof n_lt as NL. apply scalar_of_inj in EB; [|lia|lia]. subst b'. rewrite smulG, <- sp_opp in IC by lia. apply jac_loose_jlok in IC.
  rewrite (jlok_fun _ _ _ HI IC) in SUM. rewrite <- (eadd_0_r (eopp (emul b eG))) in SUM at 2. apply eadd_cancel_l in SUM.
  destruct bs as [|b0 bs]; [discriminate LB|]. destruct prec as [|r0 prec]; [inversion HP|]. cbn [grows] in HP. apply Forall2_inv in HP. destruct HP as [_ HP].
  assert (CH : exists m, 1 <= m <= 2 /\ emul m eG <> b0).
  { destruct (b0_dec b0) as [E1|N1]; [exists 2; split; [lia|]; rewrite E1; intros K; rewrite <- (emul_1 eG) in K at 2; apply emul_G_eq in K; vm_compute in K; discriminate K | exists 1; split; [lia|]; rewrite emul_1; congruence]. }
  destruct CH as (m & M & NB). assert (NB2 : 100 < n) by vmr. destruct (row_ex m ltac:(lia) 16 0 ltac:(lia) ltac:(lia)) as (r & HR).
  set (A := eopp (esum (emul m eG :: bs))). destruct (jac_of_point (sp A) (sp_on A)) as (j & J). assert (JL : jac_loose j (sp A)).
  { pose proof J as (X & Y & Z & O & MM). split; [left; exact X|]. split; [left; exact Y|]. split; [exact Z|]. split; [exact O | exact MM]. }
  assert (HV : gen_ctx (GCtx (r :: prec) (scalar_of 0) j)).
  { apply gen_ctx_ok. exists 0, A, (emul m eG :: bs). split; [reflexivity|]. split; [lia|]. split; [apply jac_loose_jlok, JL|]. split; [exact LB|]. split; [cbn [grows]; constructor; assumption|].
    unfold A. rewrite eadd_opp_l, emul_0. apply eopp_unique. apply eadd_0_l. }
  exists (GCtx (r :: prec) (scalar_of 0) j). split; [exact HV|]. intros K. apply (C88_raw_gen_pf _ 0 j (sp A) HV ltac:(lia) JL) in K. rewrite smulG, <- sp_opp, emul_0 in K by lia. apply sp_inj in K. unfold A in K.
  apply (f_equal eopp) in K. rewrite !eopp_opp in K. apply NB. cbn [esum] in K, SUM. rewrite <- SUM, (eadd_comm (emul m eG)), (eadd_comm b0) in K. exact (eadd_cancel_l _ _ _ K).
Qed.
(** The equation of SEC 1 with B in the place of the generator. *)
Definition valid_for (B Q : point) (z r s : Z) : Prop :=
  1 <= r < n /\ 1 <= s < n /\
  let w := inv_mod n s in
  match padd (smul ((z * w) mod n) B) (smul ((r * w) mod n) Q) with Inf => False | Aff x _ => x mod n = r end.
Lemma table_odds t B : Z.of_nat (length t) = 16384 -> (forall i s, nth_error t i = Some s -> stored_at s (smul (2 * Z.of_nat i + 1) (sp B))) -> Forall2 asok t (odds B ECMULT_TABLE_SIZE_G 1).
Proof.
  intros L H. assert (SZ : Z.of_nat ECMULT_TABLE_SIZE_G = 16384) by (unfold ECMULT_TABLE_SIZE_G; apply Z2Nat.id; lia).
  apply Forall2_of_nth; [rewrite odds_len; lia|]. intros i s A NS NA. pose proof (nth_some_lt _ _ _ NS).
  rewrite odds_nth in NA by lia. apply Some_inv in NA; rewrite <- NA. apply stored_asok. rewrite sp_mul by lia. replace (1 + 2 * Z.of_nat i) with (2 * Z.of_nat i + 1) by ring. apply H, NS.
Qed.
(** With the odd multiples of another point B as table, [verify] checks the equation with B in the place of the generator; ... *)
Lemma C88_other_generator_pf : forall dbg t B k Q z r s, Z.of_nat (length t) = 16384 -> on_curve B ->
  (forall i s, nth_error t i = Some s -> stored_at s (smul (2 * Z.of_nat i + 1) B)) -> key_at k Q -> Q <> Inf -> 0 <= r < n -> 0 <= s < n -> 0 <= z < n ->
  exists b, verify dbg (ecctx_new_from_raw t) (scalar_of z) (Sig (scalar_of r) (scalar_of s)) k = Some b /\ (b = true <-> valid_for B Q z r s).
Proof.
  intros dbg t B k Q z r s L O HT HK N R S Z. destruct (sp_surj _ O) as [D <-]. destruct (key_exists _ _ HK) as (A & -> & HA). assert (NA : A <> e0) by (intros ->; apply N; reflexivity).
  pose proof n_lt as NL. pose proof n_pos as NP. pose proof pnx as (PN & _ & P2).
  destruct (wp_ex _ _ (verify_raw_at dbg t D k A r s z (table_odds t D L HT) HA NA ltac:(lia) ltac:(lia) ltac:(lia))) as (b & E1 & HB). exists b. split; [exact E1|]. rewrite HB. clear E1 HB.
  unfold valid_for. cbv zeta. assert (M1 : 0 <= (z * inv_mod n s) mod n < n) by (apply Z.mod_pos_bound; lia). assert (M2 : 0 <= (r * inv_mod n s) mod n < n) by (apply Z.mod_pos_bound; lia).
  rewrite <- !sp_mul, <- sp_add by lia. rewrite eadd_comm, (Z.mul_comm z), (Z.mul_comm r). fold (vpoint_at D A z r s). rewrite <- xmod_sp.
  assert (X : xis (vpoint_at D A z r s) r <-> xmod (vpoint_at D A z r s) r).
  { unfold xis, xmod. split; intros (x & y & P & H); exists x, y; (split; [exact P|]); pose proof (val_range x); revert H; rewrite x_cases by lia; tauto. }
  rewrite X. split; [intros (H1 & H2 & H); split; [lia|]; split; [lia | exact H] | intros (H1 & H2 & H); split; [lia|]; split; [lia | exact H]].
Qed.
Lemma table_ex m : 1 <= m -> forall k i, 0 <= i -> m * (2 * (i + Z.of_nat k) + 1) < n -> exists t, length t = k /\ forall q s, nth_error t q = Some s -> stored_at s (smul (2 * (i + Z.of_nat q) + 1) (smul m G)).
Proof.
  intros M. induction k as [|k IH]; intros i I L; [exists []; split; [reflexivity | intros [|q] s H; discriminate H]|]. destruct (IH (i + 1) ltac:(lia)) as (t & LT & HT); [replace (i + 1 + Z.of_nat k) with (i + Z.of_nat (Datatypes.S k)) by lia; exact L|].
  assert (LI : 1 <= (2 * i + 1) * m < n) by nia.
  assert (EQ : smul (2 * i + 1) (smul m G) = sp (emul ((2 * i + 1) * m) eG)) by (rewrite smulG_mul by lia; apply smulG; lia).
  destruct (stored_point (sp (emul ((2 * i + 1) * m) eG)) (sp_on _) (sp_nz _ LI)) as (s & HS). exists (s :: t). split; [cbn [length]; congruence|].
  intros [|q] s' H; cbn [nth_error] in H.
  - apply Some_inv in H. subst s'. change (Z.of_nat 0) with 0. rewrite Z.add_0_r, EQ. exact HS.
  - replace (i + Z.of_nat (Datatypes.S q)) with (i + 1 + Z.of_nat q) by lia. apply HT, H.
Qed.
Lemma C88_other_generator_example_pf : exists t, Z.of_nat (length t) = 16384 /\ on_curve (smul 2 G) /\ (forall i s, nth_error t i = Some s -> stored_at s (smul (2 * Z.of_nat i + 1) (smul 2 G))) /\
  valid_for (smul 2 G) G 0 gx gx /\ ~ valid_for (smul 2 G) G 0 1 1.
Proof.
  assert (NB : 1000000 < n) by vmr. destruct (table_ex 2 ltac:(lia) (Z.to_nat 16384) 0 ltac:(lia) ltac:(lia)) as (t & L & H). exists t. split; [rewrite L; reflexivity|]. split; [rewrite smulG by lia; apply sp_on|]. split; [intros i s NS; exact (H i s NS)|].
  destruct C22_verify_example_pf as (_ & _ & _ & V1 & V2). assert (ZZ : forall w B, smul ((0 * w) mod n) B = Inf) by (intros w B; rewrite Z.mul_0_l, Z.mod_0_l by lia; reflexivity).
  unfold valid_for, ecdsa_valid in *. cbv zeta in *. rewrite ZZ in V1, V2. rewrite !ZZ. split; [exact V1 | exact V2].
Qed.
(** ... so with the odd multiples of c*G, it treats the hash z as the hash c*z. *)
Lemma C88_scaled_table_pf : forall dbg t c k Q z r s, Z.of_nat (length t) = 16384 -> 1 <= c < n ->
  (forall i s, nth_error t i = Some s -> stored_at s (smul (2 * Z.of_nat i + 1) (smul c G))) -> key_at k Q -> Q <> Inf -> 0 <= r < n -> 0 <= s < n -> 0 <= z < n ->
  exists b, verify dbg (ecctx_new_from_raw t) (scalar_of z) (Sig (scalar_of r) (scalar_of s)) k = Some b /\ (b = true <-> ecdsa_valid Q ((c * z) mod n) r s).
Proof.
  intros dbg t c k Q z r s L C HT HK N R S Z. assert (O : on_curve (smul c G)) by (rewrite smulG by lia; apply sp_on).
  destruct (C88_other_generator_pf dbg t (smul c G) k Q z r s L O HT HK N R S Z) as (b & E1 & HB). exists b. split; [exact E1|]. rewrite HB. unfold valid_for, ecdsa_valid. cbv zeta. pose proof n_pos as NP.
  assert (M1 : 0 <= (z * inv_mod n s) mod n < n) by (apply Z.mod_pos_bound; lia). rewrite smulG_mul by lia.
  assert (EQ : smul ((z * inv_mod n s) mod n * c) G = smul ((c * z) mod n * inv_mod n s mod n) G).
  { rewrite <- smulG_mod by nia. f_equal. rewrite Z.mul_mod_idemp_l by lia. rewrite Z.mul_mod_idemp_l by lia. f_equal. ring. }
  rewrite EQ. reflexivity.
Qed.
(** A signature of the hash 2z then passes for the hash z. *)
Lemma C88_scaled_table_example_pf : exists t, Z.of_nat (length t) = 16384 /\ 1 <= 2 < n /\ forall i s, nth_error t i = Some s -> stored_at s (smul (2 * Z.of_nat i + 1) (smul 2 G)).
Proof. assert (NB : 2 < n) by vmr. destruct C88_other_generator_example_pf as (t & L & _ & H & _). exists t. split; [exact L|]. split; [lia | exact H]. Qed.
