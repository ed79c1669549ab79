(** Signing, verification and recovery. *)
From Coq Require Import Znumtheory Field Zdiv.
From Verif Require Import Word MField MScalar MGroup MEcmult MEcdsa MApi WP FieldMul FieldNorm Spec Fp Bits FieldOps FieldCodec Denote Curve Group Chain Order Jac JacOps Table Ecmult Lift Gen Key Ctx ApiScalar ApiPub ApiGroup Ecdsa.

Lemma key_log k Q : key_at k Q -> Q <> Inf -> exists d, 1 <= d < n /\ Q = sp (emul d eG) /\ aok 6 f1 k (emul d eG).
Proof.
  intros H N. destruct (key_exists _ _ H) as (A & -> & HA). assert (NA : A <> e0) by (intros ->; apply N; reflexivity).
  destruct (log_nz A NA) as (d & D & ->). exists d. auto.
Qed.
Lemma smulG d : 0 <= d -> smul d G = sp (emul d eG). Proof. apply smul_G. Qed.
Lemma sp_nz d : 1 <= d < n -> sp (emul d eG) <> Inf. Proof. intros D E0. apply sp_inf in E0. exact (emul_nz d D E0). Qed.

(** * C21 *)
(** Every secret key (any correct context, either build) gives the key d*G. *)
Lemma C21_from_secret_key_pf : forall dbg ctx d, gen_ctx ctx -> 1 <= d < n ->
  exists k, pk_from_secret_key dbg ctx (scalar_of d) = Some k /\ aff_at 1 k (smul d G) /\ key_at k (smul d G) /\ smul d G <> Inf.
Proof.
  intros dbg ctx d HC D. apply gen_ctx_ok in HC. unfold pk_from_secret_key. destruct (wp_ex _ _ (ecmult_gen_ok dbg ctx d HC ltac:(lia))) as (j & -> & J). cbn [bind].
  destruct (wp_ex _ _ (af_set_gej_ok dbg j _ J)) as (k & -> & KA & _). exists k. split; [reflexivity|]. rewrite smulG by lia. split; [apply aff_aok, KA|].
  split; [apply key_aok; eapply aok_mono; [exact KA | lia] | apply sp_nz, D].
Qed.
Lemma C21_from_secret_key_example_pf : (exists ctx, ecmult_gen_context_new true = Some ctx /\ gen_ctx ctx) /\ 1 <= n - 1 < n.
Proof. split; [exact C53_ecmult_gen_example_pf | vm_compute; split; [discriminate | reflexivity]]. Qed.
(** Derivation is injective: keys derived (in any context and build) compare equal iff the secrets are equal. *)
Lemma C21_injective_pf : forall dbg1 dbg2 dbg3 ctx1 ctx2 d1 d2 k1 k2, gen_ctx ctx1 -> gen_ctx ctx2 -> 1 <= d1 < n -> 1 <= d2 < n ->
  pk_from_secret_key dbg1 ctx1 (scalar_of d1) = Some k1 -> pk_from_secret_key dbg2 ctx2 (scalar_of d2) = Some k2 ->
  exists b, pk_eq dbg3 k1 k2 = Some b /\ (b = true <-> d1 = d2).
Proof.
  intros dbg1 dbg2 dbg3 ctx1 ctx2 d1 d2 k1 k2 C1 C2 D1 D2 H1 H2.
  destruct (C21_from_secret_key_pf dbg1 _ _ C1 D1) as (k1' & H1' & _ & K1 & N1). destruct (C21_from_secret_key_pf dbg2 _ _ C2 D2) as (k2' & H2' & _ & K2 & N2).
  rewrite H1 in H1'. rewrite H2 in H2'. apply some_inv in H1', H2'. subst k1' k2'.
  destruct (smul d1 G) as [|x1 y1] eqn:E1; [contradiction|]. destruct (smul d2 G) as [|x2 y2] eqn:E2; [contradiction|].
  destruct (C07_equality_pf dbg3 _ _ _ _ _ _ K1 K2) as (b & HB & Hb & _). exists b. split; [exact HB|]. rewrite Hb. split.
  - intros [-> ->]. rewrite <- E2 in E1. rewrite !smulG in E1 by lia. apply sp_inj, (proj1 (emul_G_eq _ _)) in E1. rewrite !Z.mod_small in E1 by lia. exact E1.
  - intros ->. rewrite E1 in E2. injection E2 as -> ->. auto.
Qed.
Lemma C21_injective_example_pf : exists ctx k1 k2, gen_ctx ctx /\ pk_from_secret_key false ctx (scalar_of 1) = Some k1 /\ pk_from_secret_key false ctx (scalar_of (n - 1)) = Some k2.
Proof.
  destruct C53_ecmult_gen_example_pf as (c & _ & HC). assert (A1 : 1 <= 1 < n) by vmr. assert (A2 : 1 <= n - 1 < n) by vmr.
  destruct (C21_from_secret_key_pf false c 1 HC A1) as (k1 & H1 & _). destruct (C21_from_secret_key_pf false c (n - 1) HC A2) as (k2 & H2 & _). exists c, k1, k2. auto.
Qed.

(** * C22 *)
(** [verify] returns (never panics), and returns true iff the signature is valid in the sense of SEC 1. *)
Lemma C22_verify_pf : forall dbg ctx k Q z r s, verify_ctx ctx -> key_at k Q -> Q <> Inf -> 0 <= r < n -> 0 <= s < n -> 0 <= z < n ->
  exists b, verify dbg ctx (scalar_of z) (Sig (scalar_of r) (scalar_of s)) k = Some b /\ (b = true <-> ecdsa_valid Q z r s).
Proof.
  intros dbg ctx k Q z r s HC HK N R S Z. apply verify_ctx_ok in HC. destruct (key_exists _ _ HK) as (A & -> & HA). assert (NA : A <> e0) by (intros ->; apply N; reflexivity).
  exact (wp_ex _ _ (verify_raw_ok dbg ctx k A r s z HC HA NA R S Z)).
Qed.
(** Both verdicts occur: (gx mod n, gx mod n) is a signature of 0 under G, (1, 1) is not. *)
Lemma C22_verify_example_pf : (exists ctx, ecmult_context_new true = Some ctx /\ verify_ctx ctx) /\ key_at AFFINE_G G /\ G <> Inf /\
  ecdsa_valid G 0 gx gx /\ ~ ecdsa_valid G 0 1 1.
Proof.
  split; [exact (proj1 C51_ecmult_example_pf)|]. split; [exact G_key|]. split; [discriminate|]. split.
  2:{ rewrite <- sp_G, <- (emul_1 eG). intros V. apply (proj1 (valid_log 1 0 1 1)) in V. destruct V as (_ & _ & k & K & (x & y & P & X) & C). change (0 + 1 * 1) with 1 in C. rewrite Z.mul_1_r in C.
      assert (E0 : k = 1) by (apply eqn_small; [lia | vmr | exact C]). subst k. rewrite emul_1 in P. change (pt eG) with (FAff (toF gx) (toF gy)) in P. apply FAff_inj in P. destruct P as [<- _]. revert X. vm_compute. discriminate. }
  rewrite <- sp_G, <- (emul_1 eG). assert (R : 1 <= gx < n) by vmr. apply valid_log. split; [exact R|]. split; [exact R|]. exists 1. split; [vmr|]. split.
  - exists (toF gx), (toF gy). rewrite emul_1. split; [reflexivity|]. rewrite val_small by vmr. vmr.
  - unfold eqn, Zdiv.eqm. f_equal.
Qed.
Lemma verify_true dbg ctx k Q z r s : verify_ctx ctx -> key_at k Q -> Q <> Inf -> 0 <= r < n -> 0 <= s < n -> 0 <= z < n ->
  (verify dbg ctx (scalar_of z) (Sig (scalar_of r) (scalar_of s)) k = Some true <-> ecdsa_valid Q z r s).
Proof.
  intros HC HK N R S Z. destruct (C22_verify_pf dbg ctx k Q z r s HC HK N R S Z) as (b & -> & HB). rewrite <- HB. split; [intros E0; injection E0 as ->; reflexivity | intros ->; reflexivity].
Qed.

(** * C27 *)
(** Negating s, and hence [normalize_s], never changes the verdict. *)
Lemma C27_malleability_pf : forall dbg ctx k Q z r s, verify_ctx ctx -> key_at k Q -> Q <> Inf -> 0 <= r < n -> 1 <= s < n -> 0 <= z < n ->
  verify dbg ctx (scalar_of z) (Sig (scalar_of r) (scalar_of s)) k = verify dbg ctx (scalar_of z) (Sig (scalar_of r) (scalar_of (n - s))) k /\
  exists g, sig_normalize_s dbg (Sig (scalar_of r) (scalar_of s)) = Some g /\
    verify dbg ctx (scalar_of z) g k = verify dbg ctx (scalar_of z) (Sig (scalar_of r) (scalar_of s)) k.
Proof.
  intros dbg ctx k Q z r s HC HK N R S Z. pose proof n_lt as NL.
  assert (EQ : verify dbg ctx (scalar_of z) (Sig (scalar_of r) (scalar_of s)) k = verify dbg ctx (scalar_of z) (Sig (scalar_of r) (scalar_of (n - s))) k).
  { destruct (C22_verify_pf dbg ctx k Q z r s HC HK N R ltac:(lia) Z) as (b & -> & HB). destruct (C22_verify_pf dbg ctx k Q z r (n - s) HC HK N R ltac:(lia) Z) as (b' & -> & HB').
    assert (V : ecdsa_valid Q z r s <-> ecdsa_valid Q z r (n - s)).
    { destruct (key_log _ _ HK N) as (d & D & -> & _). rewrite !valid_log.
      assert (K : forall s, 1 <= s < n -> (exists k, 1 <= k < n /\ xmod (emul k eG) r /\ eqn (k * s) (z + r * d)) -> exists k, 1 <= k < n /\ xmod (emul k eG) r /\ eqn (k * (n - s)) (z + r * d)).
      { intros s' S' (t & T & X & C). exists (n - t). split; [lia|]. split.
        - rewrite emul_sub, emul_n, eadd_0_l. apply xmod_opp, X.
        - rewrite <- C. replace ((n - t) * (n - s')) with (t * s' + (n - t - s') * n) by ring. apply Z.mod_add. lia. }
      split; intros (R1 & S1 & H); (split; [exact R1|]; split; [lia|]).
      - apply K; [lia | exact H].
      - replace s with (n - (n - s)) by ring. apply K; [lia | exact H]. }
    f_equal. rewrite V in HB. rewrite <- HB' in HB. destruct b, b'; try reflexivity; destruct HB; [symmetry|]; auto. }
  split; [exact EQ|]. unfold sig_normalize_s. cbn [sig_s sig_r]. rewrite s_is_high_eq by lia. destruct (Z.leb_spec ((n - 1) / 2) s).
  - rewrite s_neg_eq, neg_mod_n by lia. cbn [bind]. eexists. split; [reflexivity|]. symmetry. exact EQ.
  - eexists. split; reflexivity.
Qed.
Lemma C27_malleability_example_pf : exists ctx, verify_ctx ctx /\ key_at AFFINE_G G /\ ecdsa_valid G 0 gx gx /\ ecdsa_valid G 0 gx (n - gx) /\ gx <> n - gx.
Proof.
  destruct C22_verify_example_pf as ((ctx & _ & HC) & HK & N & V & _). exists ctx. split; [exact HC|]. split; [exact HK|]. split; [exact V|]. split; [|vmr].
  assert (R : 0 <= gx < n) by vmr. assert (Z0 : 0 <= 0 < n) by vmr. assert (R1 : 1 <= gx < n) by vmr. assert (RN : 0 <= n - gx < n) by vmr.
  destruct (C27_malleability_pf true ctx _ _ 0 gx gx HC HK N R R1 Z0) as [EQ _]. apply (verify_true true ctx _ _ 0 gx gx HC HK N R R Z0) in V. rewrite EQ in V.
  apply (verify_true true ctx _ _ 0 gx (n - gx) HC HK N R RN Z0) in V. exact V.
Qed.

(** * C25, C26 *)
(** The key designated by (r, s, id) for the integer z: R has x = r + n*(id/2) and parity id mod 2, and Q = (s*R - z*G)/r is not infinity (SEC 1, 4.1.6). *)
Definition recovers (z r s id : Z) (Q : point) : Prop := 1 <= r < n /\ 1 <= s < n /\ Q <> Inf /\
  exists x y, on_curve (Aff x y) /\ x = r + n * (id / 2) /\ y mod 2 = id mod 2 /\
    let ri := inv_mod n r in Q = padd (smul ((s * ri) mod n) (Aff x y)) (pneg (smul ((z * ri) mod n) G)).
Lemma recovers_log z r s id Q : 0 <= id < 4 -> (recovers z r s id Q <-> 1 <= r < n /\ 1 <= s < n /\ Q <> Inf /\ exists A, rpoint r id A /\ Q = sp (qpoint r s z A)).
Proof.
  intros ID. pose proof n_pos as NP.
  assert (QE : forall A, padd (smul ((s * inv_mod n r) mod n) (sp A)) (pneg (smul ((z * inv_mod n r) mod n) G)) = sp (qpoint r s z A)).
  { intros A. rewrite smulG by (apply Z.mod_pos_bound; lia). rewrite <- sp_mul by (apply Z.mod_pos_bound; lia). rewrite <- sp_opp, <- sp_add. unfold qpoint.
    rewrite (Z.mul_comm s), (Z.mul_comm z). rewrite !emul_mod, emul_opp, emul_mod. reflexivity. }
  unfold recovers. split; intros (R & S & N & H); (split; [exact R|]; split; [exact S|]; split; [exact N|]).
  - destruct H as (x & y & O & X & Y & HQ). cbv zeta in HQ. destruct (sp_surj _ O) as [A HA]. rewrite <- HA, QE in HQ. exists A. split; [|exact HQ].
    unfold sp in HA. destruct (pt A) as [|u v] eqn:P; [discriminate HA|]. cbn [spt] in HA. injection HA as HX HY. exists u, v. split; [exact P|]. rewrite HX, HY. auto.
  - destruct H as (A & (u & v & P & X & Y) & HQ). exists (val u), (val v). assert (EA : sp A = Aff (val u) (val v)) by (unfold sp; rewrite P; reflexivity).
    split; [rewrite <- EA; apply sp_on|]. split; [exact X|]. split; [exact Y|]. cbv zeta. rewrite <- EA, QE. exact HQ.
Qed.
(** [recover] never panics for a parsed id; it returns the designated key, or [InvalidSignature] iff there is none. *)
Lemma C25_recover_exact_pf : forall dbg ctx z r s id, verify_ctx ctx -> 0 <= r < n -> 0 <= s < n -> 0 <= z < n -> 0 <= id < 4 ->
  (exists k Q, recover dbg ctx (scalar_of z) (Sig (scalar_of r) (scalar_of s)) id = Some (Ok k) /\ key_at k Q /\ recovers z r s id Q) \/
  (recover dbg ctx (scalar_of z) (Sig (scalar_of r) (scalar_of s)) id = Some (Err InvalidSignature) /\ forall Q, ~ recovers z r s id Q).
Proof.
  intros dbg ctx z r s id HC R S Z ID. apply verify_ctx_ok in HC. destruct (wp_ex _ _ (recover_raw_ok dbg ctx r s id z HC R S ID Z)) as ([k|e] & HR & H).
  - left. destruct H as (R1 & S1 & I & A & RP & NQ & KA). exists k, (sp (qpoint r s z A)). split; [exact HR|]. split; [apply key_aok, KA|]. apply recovers_log; [exact ID|].
    split; [lia|]. split; [lia|]. split; [intros E0; apply sp_inf in E0; contradiction|]. exists A. auto.
  - right. destruct H as [-> H]. split; [exact HR|]. intros Q HQ. apply recovers_log in HQ; [|exact ID]. destruct HQ as (R1 & S1 & NQ & A & RP & ->). apply H. split; [lia|]. split; [lia|].
    exists A. split; [exact RP|]. intros E0. apply NQ. rewrite E0. reflexivity.
Qed.
Lemma recovers_fun z r s id Q Q' : 0 <= id < 4 -> recovers z r s id Q -> recovers z r s id Q' -> Q = Q'.
Proof.
  intros ID H H'. apply recovers_log in H; [|exact ID]. apply recovers_log in H'; [|exact ID]. destruct H as (_ & _ & _ & A & RA & ->), H' as (_ & _ & _ & B & RB & ->).
  rewrite (lifts_fun _ _ _ _ (rpoint_lifts _ _ _ RA) (rpoint_lifts _ _ _ RB)). reflexivity.
Qed.
(** Validity and recovery are the same relation: Q verifies (r, s) iff exactly one id designates Q. *)
Lemma valid_recovers d z r s : ecdsa_valid (sp (emul d eG)) z r s -> 1 <= d < n -> exists id, 0 <= id < 4 /\ recovers z r s id (sp (emul d eG)).
Proof.
  intros H D. apply valid_log in H. destruct H as (R & S & k & K & X & C). apply xmod_rpoint in X; [|lia]. destruct X as (id & ID & RP). exists id. split; [exact ID|].
  apply recovers_log; [exact ID|]. split; [exact R|]. split; [exact S|]. split; [apply sp_nz, D|]. exists (emul k eG). split; [exact RP|]. f_equal. symmetry. apply qpoint_log; [exact R | exact C].
Qed.
Lemma recovers_valid z r s id Q : 0 <= id < 4 -> recovers z r s id Q -> ecdsa_valid Q z r s.
Proof.
  intros ID H. apply recovers_log in H; [|exact ID]. destruct H as (R & S & NQ & A & RP & ->). destruct (log (qpoint r s z A)) as (d & D & ED). rewrite ED.
  assert (NA : A <> e0) by (intros ->; destruct RP as (? & ? & K & _); discriminate K). destruct (log_nz A NA) as (k & K & ->).
  apply qpoint_log in ED; [|exact R]. apply valid_log. split; [exact R|]. split; [exact S|]. exists k. split; [exact K|]. split; [|exact ED]. apply (rpoint_xmod r id); [lia | exact ID | exact RP].
Qed.
Lemma recovers_id z r s i j Q : 0 <= i < 4 -> 0 <= j < 4 -> recovers z r s i Q -> recovers z r s j Q -> i = j.
Proof.
  intros HI HJ H H'. apply recovers_log in H; [|exact HI]. apply recovers_log in H'; [|exact HJ]. destruct H as (R & S & NQ & A & RA & HA), H' as (_ & _ & _ & B & RB & HB).
  rewrite HA in HB. apply sp_inj in HB. destruct (log A) as (a & Ha & ->), (log B) as (b & Hb & ->). destruct (log (qpoint r s z (emul a eG))) as (d & D & ED). rewrite ED in HB. symmetry in HB.
  apply qpoint_log in ED; [|exact R]. apply qpoint_log in HB; [|exact R]. assert (AB : a = b).
  { apply eqn_small; [exact Ha | exact Hb|]. apply (eqn_cancel s); [exact S|]. rewrite !(Z.mul_comm s). rewrite ED, HB. reflexivity. }
  subst b. exact (rpoint_id _ _ _ _ HI HJ RA RB).
Qed.
(** A recovered key is a valid public key that verifies the signature. *)
Lemma C25_recovered_verifies_pf : forall dbg dbg' ctx ctx' z r s id k, verify_ctx ctx -> verify_ctx ctx' -> 0 <= r < n -> 0 <= s < n -> 0 <= z < n -> 0 <= id < 4 ->
  recover dbg ctx (scalar_of z) (Sig (scalar_of r) (scalar_of s)) id = Some (Ok k) ->
  (exists x y, key_at k (Aff x y)) /\ verify dbg' ctx' (scalar_of z) (Sig (scalar_of r) (scalar_of s)) k = Some true.
Proof.
  intros dbg dbg' ctx ctx' z r s id k HC HC' R S Z ID H. destruct (C25_recover_exact_pf dbg ctx z r s id HC R S Z ID) as [(k' & Q & H' & HK & HQ)|[H' _]]; rewrite H in H'; [|discriminate H'].
  apply some_inv in H'. injection H' as <-. pose proof HQ as (_ & _ & N & _). split; [destruct Q as [|x y]; [contradiction | exists x, y; exact HK]|].
  apply (verify_true dbg' ctx' k Q); try assumption. exact (recovers_valid _ _ _ _ _ ID HQ).
Qed.
Lemma G_valid_ex : exists id, 0 <= id < 4 /\ recovers 0 gx gx id G.
Proof.
  destruct C22_verify_example_pf as (_ & _ & _ & V & _). rewrite <- sp_G, <- (emul_1 eG) in *. apply valid_recovers; [exact V | vmr].
Qed.
Lemma C25_recovered_verifies_example_pf : exists ctx id k, verify_ctx ctx /\ 0 <= id < 4 /\ recover true ctx (scalar_of 0) (Sig (scalar_of gx) (scalar_of gx)) id = Some (Ok k).
Proof.
  destruct G_valid_ex as (id & ID & HR). destruct C22_verify_example_pf as ((ctx & _ & HC) & _). assert (R : 0 <= gx < n) by vmr. assert (Z0 : 0 <= 0 < n) by vmr.
  destruct (C25_recover_exact_pf true ctx 0 gx gx id HC R R Z0 ID) as [(k & Q & HK & _)|[_ K]]; [|elim (K _ HR)]. exists ctx, id, k. auto.
Qed.
(** A valid signature is recovered to the verifying key by exactly one id. *)
Lemma C26_recovery_complete_pf : forall dbg dbg' ctx ctx' z r s k Q, verify_ctx ctx -> verify_ctx ctx' -> 0 <= r < n -> 0 <= s < n -> 0 <= z < n -> key_at k Q -> Q <> Inf ->
  verify dbg ctx (scalar_of z) (Sig (scalar_of r) (scalar_of s)) k = Some true ->
  exists id, 0 <= id < 4 /\ (exists k', recover dbg' ctx' (scalar_of z) (Sig (scalar_of r) (scalar_of s)) id = Some (Ok k') /\ key_at k' Q) /\
    forall j kj, 0 <= j < 4 -> recover dbg' ctx' (scalar_of z) (Sig (scalar_of r) (scalar_of s)) j = Some (Ok kj) -> key_at kj Q -> j = id.
Proof.
  intros dbg dbg' ctx ctx' z r s k Q HC HC' R S Z HK N H. apply (verify_true dbg ctx k Q) in H; try assumption. destruct (key_log _ _ HK N) as (d & D & -> & _).
  destruct (valid_recovers _ _ _ _ H D) as (id & ID & HR). exists id. split; [exact ID|]. split.
  - destruct (C25_recover_exact_pf dbg' ctx' z r s id HC' R S Z ID) as [(k' & Q' & H' & HK' & HQ')|[_ K]]; [|elim (K _ HR)]. exists k'. split; [exact H'|].
    rewrite (recovers_fun _ _ _ _ _ _ ID HR HQ'). exact HK'.
  - intros j kj HJ H' HK'. destruct (C25_recover_exact_pf dbg' ctx' z r s j HC' R S Z HJ) as [(k' & Q' & H'' & HK'' & HQ')|[H'' _]]; rewrite H' in H''; [|discriminate H''].
    apply some_inv in H''. injection H'' as <-. rewrite (key_fun _ _ _ HK' HK'') in HR. exact (recovers_id _ _ _ _ _ _ HJ ID HQ' HR).
Qed.
Lemma C26_recovery_complete_example_pf : exists ctx, verify_ctx ctx /\ verify true ctx (scalar_of 0) (Sig (scalar_of gx) (scalar_of gx)) AFFINE_G = Some true.
Proof.
  destruct C22_verify_example_pf as ((ctx & _ & HC) & HK & N & V & _). exists ctx. split; [exact HC|]. assert (R : 0 <= gx < n) by vmr. assert (Z0 : 0 <= 0 < n) by vmr.
  apply (verify_true true ctx _ _ 0 gx gx HC HK N R R Z0). exact V.
Qed.
Lemma C25_recover_exact_example_pf : (exists id, 0 <= id < 4 /\ recovers 0 gx gx id G) /\ (forall Q, ~ recovers 0 0 1 0 Q).
Proof. split; [exact G_valid_ex|]. intros Q (H & _). lia. Qed.

(** * Signing *)
(** The signature of z with key d and nonce k: r = x(kG) mod n, s = (z + r*d)/k, replaced by n - s from (n-1)/2 on; the id designates the nonce point belonging to s. *)
Definition signature_for (d z k r s id : Z) : Prop := exists x y, smul k G = Aff x y /\ r = x mod n /\
  let s0 := (inv_mod n k * (z + r * d)) mod n in s0 <> 0 /\
  ((s0 < (n - 1) / 2 /\ s = s0 /\ id = 2 * (x / n) + y mod 2) \/ ((n - 1) / 2 <= s0 /\ s = n - s0 /\ id = 2 * (x / n) + (1 - y mod 2))).
(** A nonce is usable when it is in [1, n-1] and z + r*d is not 0 modulo n. *)
Definition usable (d z k : Z) : Prop := 1 <= k < n /\ exists x y, smul k G = Aff x y /\ (z + x mod n * d) mod n <> 0.
(** The nonce is in range and its point has x >= n. *)
Definition wraps (k : Z) : Prop := 1 <= k < n /\ exists x y, smul k G = Aff x y /\ n <= x.
Lemma nonce_pt k : 1 <= k < n -> exists X Y, pt (emul k eG) = FAff X Y /\ smul k G = Aff (val X) (val Y).
Proof.
  intros K. destruct (pt (emul k eG)) as [|X Y] eqn:P; [elim (emul_nz k K); apply pt_inj; exact P|]. exists X, Y. split; [reflexivity|].
  rewrite smulG by lia. unfold sp. rewrite P. reflexivity.
Qed.
Lemma x_div_n X : val X / n = if n <=? val X then 1 else 0.
Proof.
  pose proof (val_range X). pose proof pnx. pose proof n_pos. destruct (Z.leb_spec n (val X)); [|apply Z.div_small; lia]. symmetry. apply (Z.div_unique _ _ 1 (val X - n)); lia.
Qed.
Lemma even_id (o : bool) y : let id := (if o then 2 else 0) + y mod 2 in (if Z.even id then id + 1 else id - 1) = 2 * (if o then 1 else 0) + (1 - y mod 2).
Proof. cbv zeta. rewrite Zmod_odd. destruct o, (Z.odd y); reflexivity. Qed.
Lemma s0_zero k a : 1 <= k < n -> ((inv_mod n k * a) mod n = 0 <-> a mod n = 0).
Proof.
  intros K. pose proof n_pos as NP. pose proof (inv_move k 0 a K) as M. unfold eqn, Zdiv.eqm in M. rewrite Z.mul_0_l, Z.mod_0_l in M by lia. split; intros H; [symmetry; apply M | symmetry; apply M]; auto.
Qed.
Lemma sign_val_for d z k X Y : 1 <= k < n -> smul k G = Aff (val X) (val Y) ->
  match sign_val (val X) (val Y) d z k with
  | Ok (r, s, id) => usable d z k /\ signature_for d z k r s id
  | Err e => e = InvalidMessage /\ ~ usable d z k
  end.
Proof.
  intros K HP. unfold sign_val. cbv zeta. rewrite (Z.add_comm _ z). set (s0 := (inv_mod n k * (z + val X mod n * d)) mod n).
  destruct (Z.eqb_spec s0 0) as [E0|NE].
  - split; [reflexivity|]. intros (_ & x & y & HP' & NZ). rewrite HP in HP'. injection HP' as <- <-. apply NZ. apply (s0_zero k); [exact K | exact E0].
  - assert (U : usable d z k). { split; [exact K|]. exists (val X), (val Y). split; [exact HP|]. intros E0. apply NE. apply s0_zero; [exact K | exact E0]. }
    destruct (Z.leb_spec ((n - 1) / 2) s0) as [HI|LO]; (split; [exact U|]; exists (val X), (val Y); split; [exact HP|]; split; [reflexivity|]; cbv zeta; fold s0; split; [exact NE|]; rewrite x_div_n).
    + right. split; [exact HI|]. split; [reflexivity|]. rewrite even_id. reflexivity.
    + left. split; [exact LO|]. split; [reflexivity|]. destruct (n <=? val X); reflexivity.
Qed.
(** one attempt with one nonce, in either build *)
Lemma sign_raw_cases dbg ctx d z k : gen_ctx ctx -> 0 <= d < n -> 0 <= z < n -> 1 <= k < n ->
  (dbg = true /\ wraps k /\ sign_raw dbg ctx (scalar_of d) (scalar_of z) (scalar_of k) = None) \/
  ((dbg = false \/ ~ wraps k) /\ usable d z k /\ exists r s id, signature_for d z k r s id /\ sign_raw dbg ctx (scalar_of d) (scalar_of z) (scalar_of k) = Some (Ok (scalar_of r, scalar_of s, id))) \/
  ((dbg = false \/ ~ wraps k) /\ ~ usable d z k /\ sign_raw dbg ctx (scalar_of d) (scalar_of z) (scalar_of k) = Some (Err InvalidMessage)).
Proof.
  intros HC D Z K. apply gen_ctx_ok in HC. destruct (nonce_pt k K) as (X & Y & P & HP). rewrite (sign_raw_ok dbg ctx d z k X Y HC D Z K P).
  assert (W : wraps k <-> n <= val X). { split; [intros (_ & x & y & E0 & H); rewrite HP in E0; injection E0 as <- <-; exact H | intros H; split; [exact K|]; exists (val X), (val Y); auto]. }
  destruct (dbg && (n <=? val X)) eqn:B.
  - left. apply andb_prop in B. destruct B as [-> B]. apply Z.leb_le in B. split; [reflexivity|]. split; [apply W, B | reflexivity].
  - right. assert (NW : dbg = false \/ ~ wraps k). { destruct dbg; [right | left; reflexivity]. cbn [andb] in B. apply Z.leb_gt in B. rewrite W. lia. }
    pose proof (sign_val_for d z k X Y K HP) as SV. destruct (sign_val (val X) (val Y) d z k) as [[[r s] id]|e].
    + left. destruct SV as [U SF]. split; [exact NW|]. split; [exact U|]. exists r, s, id. split; [exact SF | reflexivity].
    + right. destruct SV as [-> NU]. split; [exact NW|]. split; [exact NU | reflexivity].
Qed.
(** Signatures in terms of logarithms *)
Lemma signature_for_ok d z k r s id : 0 <= d < n -> 0 <= z < n -> 1 <= k < n -> signature_for d z k r s id ->
  0 <= r < n /\ 1 <= s <= (n + 1) / 2 /\ s < n /\ 0 <= id < 4 /\ exists k', 1 <= k' < n /\ (k' = k \/ k' = n - k) /\ eqn (k' * s) (z + r * d) /\ rpoint r id (emul k' eG).
Proof.
  intros D Z K (x & y & HP & -> & NE & H). destruct (nonce_pt k K) as (X & Y & P & HP'). rewrite HP in HP'. injection HP' as -> ->.
  assert (SV : sign_val (val X) (val Y) d z k = Ok (val X mod n, s, id)).
  { unfold sign_val. cbv zeta in *. rewrite (Z.add_comm _ z). set (s0 := (inv_mod n k * (z + val X mod n * d)) mod n) in *. rewrite (proj2 (Z.eqb_neq _ _)) by exact NE. rewrite x_div_n in H.
    destruct H as [(LO & -> & ->)|(HI & -> & ->)].
    - rewrite (proj2 (Z.leb_gt _ _)) by exact LO. destruct (n <=? val X); reflexivity.
    - rewrite (proj2 (Z.leb_le _ _)) by exact HI. rewrite even_id. reflexivity. }
  destruct (sign_val_ok d z k X Y _ _ _ D Z K P SV) as (R & _ & S & ID & k' & H1 & H2 & H3 & H4). split; [exact R|]. split; [exact S|].
  split; [assert ((n + 1) / 2 < n) by vmr; lia|]. split; [exact ID|]. exists k'. auto.
Qed.
(** * C31 *)
(** A debug build panics exactly on nonces whose point has x >= n; on the others both builds agree. *)
Lemma C31_debug_release_pf : forall ctx d z k, gen_ctx ctx -> 0 <= d < n -> 0 <= z < n -> 1 <= k < n ->
  (sign_raw true ctx (scalar_of d) (scalar_of z) (scalar_of k) = None <-> wraps k) /\
  (~ wraps k -> sign_raw true ctx (scalar_of d) (scalar_of z) (scalar_of k) = sign_raw false ctx (scalar_of d) (scalar_of z) (scalar_of k)) /\
  sign_raw false ctx (scalar_of d) (scalar_of z) (scalar_of k) <> None.
Proof.
  intros ctx d z k HC D Z K. pose proof HC as HC'. apply gen_ctx_ok in HC'. destruct (nonce_pt k K) as (X & Y & P & HP).
  rewrite !(sign_raw_ok _ ctx d z k X Y HC' D Z K P). cbn [andb].
  assert (W : wraps k <-> n <= val X). { split; [intros (_ & x & y & E0 & H); rewrite HP in E0; injection E0 as <- <-; exact H | intros H; split; [exact K|]; exists (val X), (val Y); auto]. }
  rewrite W. destruct (Z.leb_spec n (val X)); (split; [split; [|] | split]); try discriminate; try reflexivity; try lia; auto.
Qed.
(** Such nonces exist: one with x = n (r would be 0) and one with x = n + 2. *)
Definition yw0 : Z := 69186903114498750860896505739646488798970448350379198433587849548453839594014.
Definition yw2 : Z := 24738801717713540165859037596706942650182884013760002261031960508407254471123.
Lemma point_nonce x y : on_curve (Aff x y) -> exists k, 1 <= k < n /\ smul k G = Aff x y.
Proof.
  intros O. destruct (proj1 C56_cyclic_pf _ O) as (k & Hk & HP & _). exists k. split; [|symmetry; exact HP]. assert (k <> 0); [|lia]. intros ->. discriminate HP.
Qed.
Lemma C31_wrapping_nonces_exist_pf : (exists k y, 1 <= k < n /\ smul k G = Aff n y) /\ (exists k x y, 1 <= k < n /\ smul k G = Aff x y /\ n < x /\ wraps k).
Proof.
  split.
  - destruct (point_nonce n yw0) as (k & K & H); [split; [vmr|]; split; [vmr|]; vm_compute; reflexivity|]. exists k, yw0. auto.
  - destruct (point_nonce (n + 2) yw2) as (k & K & H); [split; [vmr|]; split; [vmr|]; vm_compute; reflexivity|]. exists k, (n + 2), yw2. split; [exact K|]. split; [exact H|]. split; [lia|].
    split; [exact K|]. exists (n + 2), yw2. split; [exact H | lia].
Qed.
(** So "both builds agree on every nonce" is false. *)
Lemma C31_builds_agree_refuted_pf : exists ctx d z k, gen_ctx ctx /\ 1 <= d < n /\ 0 <= z < n /\ 1 <= k < n /\ sign_raw true ctx (scalar_of d) (scalar_of z) (scalar_of k) = None /\
  sign_raw false ctx (scalar_of d) (scalar_of z) (scalar_of k) <> None.
Proof.
  destruct C53_ecmult_gen_example_pf as (ctx & _ & HC). destruct C31_wrapping_nonces_exist_pf as (_ & k & x & y & K & _ & _ & W).
  assert (D : 1 <= 1 < n) by vmr. assert (D0 : 0 <= 1 < n) by vmr. assert (Z0 : 0 <= 1 < n) by vmr.
  destruct (C31_debug_release_pf ctx 1 1 k HC D0 Z0 K) as (H1 & _ & H3). exists ctx, 1, 1, k. split; [exact HC|]. split; [exact D|]. split; [exact Z0|]. split; [exact K|]. split; [apply H1, W | exact H3].
Qed.

(** * C29, C30 *)
(** A DRBG stream: 32-byte blocks. *)
Definition stream (gen : nat -> list Z) : Prop := forall i, length (gen i) = 32%nat /\ bytes (gen i).
Definition nonce (gen : nat -> list Z) (i : nat) : Z := be_val (gen i).
Lemma nonce_range gen i : stream gen -> 0 <= nonce gen i < 2 ^ 256.
Proof. intros H. destruct (H i) as [L B]. apply be_val_32; assumption. Qed.
Lemma sign_loop_step dbg f gen i ctx d z : gen_ctx ctx -> stream gen -> 0 <= d < n -> 0 <= z < n ->
  (dbg = true /\ wraps (nonce gen i) /\ sign_loop dbg (S f) gen i ctx (scalar_of d) (scalar_of z) = Panic) \/
  ((dbg = false \/ ~ wraps (nonce gen i)) /\ usable d z (nonce gen i) /\ exists r s id, signature_for d z (nonce gen i) r s id /\
     sign_loop dbg (S f) gen i ctx (scalar_of d) (scalar_of z) = Done (Sig (scalar_of r) (scalar_of s), id)) \/
  ((dbg = false \/ ~ wraps (nonce gen i)) /\ ~ usable d z (nonce gen i) /\
     sign_loop dbg (S f) gen i ctx (scalar_of d) (scalar_of z) = sign_loop dbg f gen (S i) ctx (scalar_of d) (scalar_of z)).
Proof.
  intros HC HS D Z. cbn [sign_loop]. destruct (HS i) as [L B]. pose proof (nonce_range gen i HS) as NR. rewrite s_set_b32_eq by assumption. fold (nonce gen i).
  set (v := nonce gen i) in *. pose proof n_pos as NP. pose proof n_lt as NL. rewrite s_is_zero_eq by (pose proof (Z.mod_pos_bound v n ltac:(lia)); lia).
  destruct (Z.leb_spec n v) as [GE|LT]; cbn [negb andb].
  { right. right. split; [right; intros (K & _); lia|]. split; [intros (K & _); lia | reflexivity]. }
  rewrite Z.mod_small by lia. destruct (Z.eqb_spec v 0) as [E0|NZ]; cbn [negb].
  { right. right. split; [right; intros (K & _); lia|]. split; [intros (K & _); lia | reflexivity]. }
  destruct (sign_raw_cases dbg ctx d z v HC D Z ltac:(lia)) as [(-> & W & ->)|[(NW & U & r & s & id & SF & ->)|(NW & NU & ->)]].
  - left. auto.
  - right. left. split; [exact NW|]. split; [exact U|]. exists r, s, id. auto.
  - right. right. auto.
Qed.
Lemma sign_loop_done dbg gen ctx d z : gen_ctx ctx -> stream gen -> 0 <= d < n -> 0 <= z < n -> forall f i g id,
  sign_loop dbg f gen i ctx (scalar_of d) (scalar_of z) = Done (g, id) -> exists j r s, (i <= j < i + f)%nat /\ (forall l, (i <= l < j)%nat -> ~ usable d z (nonce gen l)) /\
    usable d z (nonce gen j) /\ signature_for d z (nonce gen j) r s id /\ g = Sig (scalar_of r) (scalar_of s) /\ (dbg = true -> forall l, (i <= l <= j)%nat -> ~ wraps (nonce gen l)).
Proof.
  intros HC HS D Z. induction f as [|f IH]; intros i g id H; [discriminate H|].
  destruct (sign_loop_step dbg f gen i ctx d z HC HS D Z) as [(_ & _ & K)|[(NW & U & r & s & id' & SF & K)|(NW & NU & K)]]; rewrite K in H.
  - discriminate H.
  - injection H as <- <-. exists i, r, s. split; [lia|]. split; [intros l Hl; lia|]. split; [exact U|]. split; [exact SF|]. split; [reflexivity|].
    intros -> l Hl. replace l with i by lia. destruct NW as [NW|NW]; [discriminate NW | exact NW].
  - destruct (IH (S i) g id H) as (j & r & s & HJ & HU & U & SF & HG & HW). exists j, r, s. split; [lia|]. split; [|split; [exact U|]; split; [exact SF|]; split; [exact HG|]].
    + intros l Hl. destruct (Nat.eq_dec l i) as [->|N]; [exact NU | apply HU; lia].
    + intros Ht l Hl. destruct (Nat.eq_dec l i) as [->|N]; [destruct NW as [NW|NW]; [congruence | exact NW] | apply HW; [exact Ht | lia]].
Qed.
Lemma sign_loop_first dbg gen ctx d z : gen_ctx ctx -> stream gen -> 0 <= d < n -> 0 <= z < n -> forall f i j, (i <= j < i + f)%nat ->
  (forall l, (i <= l < j)%nat -> ~ usable d z (nonce gen l)) -> usable d z (nonce gen j) -> (dbg = false \/ forall l, (i <= l <= j)%nat -> ~ wraps (nonce gen l)) ->
  exists r s id, signature_for d z (nonce gen j) r s id /\ sign_loop dbg f gen i ctx (scalar_of d) (scalar_of z) = Done (Sig (scalar_of r) (scalar_of s), id).
Proof.
  intros HC HS D Z. induction f as [|f IH]; intros i j HJ NU U NW; [lia|].
  destruct (sign_loop_step dbg f gen i ctx d z HC HS D Z) as [(-> & W & _)|[(_ & U' & r & s & id' & SF & K)|(_ & NU' & K)]].
  - destruct NW as [NW|NW]; [discriminate NW|]. elim (NW i ltac:(lia) W).
  - assert (i = j) as <-. { destruct (Nat.eq_dec i j) as [|N]; [assumption|]. elim (NU i ltac:(lia) U'). } exists r, s, id'. auto.
  - assert (i <> j) by (intros ->; contradiction). rewrite K. apply IH; [lia | intros l Hl; apply NU; lia | exact U |].
    destruct NW as [NW|NW]; [left; exact NW | right; intros l Hl; apply NW; lia].
Qed.
Lemma sign_loop_stops dbg gen ctx d z : gen_ctx ctx -> stream gen -> 0 <= d < n -> 0 <= z < n -> forall f i j, (i <= j < i + f)%nat -> usable d z (nonce gen j) ->
  (exists g, sign_loop dbg f gen i ctx (scalar_of d) (scalar_of z) = Done g) \/ (dbg = true /\ sign_loop dbg f gen i ctx (scalar_of d) (scalar_of z) = Panic).
Proof.
  intros HC HS D Z. induction f as [|f IH]; intros i j HJ U; [lia|].
  destruct (sign_loop_step dbg f gen i ctx d z HC HS D Z) as [(-> & W & K)|[(_ & U' & r & s & id' & SF & K)|(_ & NU' & K)]]; rewrite K.
  - right. auto.
  - left. eexists. reflexivity.
  - assert (i <> j) by (intros ->; contradiction). apply (IH (S i) j); [lia | exact U].
Qed.
Lemma sign_loop_none dbg gen ctx d z : gen_ctx ctx -> stream gen -> 0 <= d < n -> 0 <= z < n -> (forall k, ~ usable d z k) -> forall f i,
  sign_loop dbg f gen i ctx (scalar_of d) (scalar_of z) = Running \/ (dbg = true /\ sign_loop dbg f gen i ctx (scalar_of d) (scalar_of z) = Panic).
Proof.
  intros HC HS D Z NU. induction f as [|f IH]; intros i; [left; reflexivity|].
  destruct (sign_loop_step dbg f gen i ctx d z HC HS D Z) as [(-> & W & K)|[(_ & U' & _)|(_ & NU' & K)]]; [right; auto | elim (NU _ U') | rewrite K; apply IH].
Qed.
(** [sign] returns the signature made with the first usable block of the DRBG seeded with the key and the message. *)
Lemma C29_first_usable_pf : forall dbg drbg fuel ctx d z j, gen_ctx ctx -> 0 <= d < n -> 0 <= z < n -> let gen := drbg (be_bytes 32 d) (be_bytes 32 z) in stream gen ->
  (j < fuel)%nat -> (forall l, (l < j)%nat -> ~ usable d z (nonce gen l)) -> usable d z (nonce gen j) -> (dbg = false \/ forall l, (l <= j)%nat -> ~ wraps (nonce gen l)) ->
  exists r s id, signature_for d z (nonce gen j) r s id /\ sign dbg drbg fuel ctx (scalar_of z) (scalar_of d) = Done (Sig (scalar_of r) (scalar_of s), id).
Proof.
  intros dbg drbg fuel ctx d z j HC D Z gen HS HJ NU U NW. pose proof n_lt as NL. unfold sign. rewrite !s_b32_eq by lia. fold gen.
  apply (sign_loop_first dbg gen ctx d z HC HS D Z fuel 0 j); [lia | intros l Hl; apply NU; lia | exact U |]. destruct NW as [NW|NW]; [left; exact NW | right; intros l Hl; apply NW; lia].
Qed.
Lemma usable_1 : usable 1 1 1.
Proof.
  split; [vmr|]. exists gx, gy. split; [|vm_compute; discriminate]. rewrite smulG, emul_1, sp_G by lia. reflexivity.
Qed.
Lemma wraps_1 : ~ wraps 1.
Proof. intros (_ & x & y & H & L). rewrite smulG, emul_1, sp_G in H by lia. injection H as <- <-. revert L. vm_compute. intros L. apply L. reflexivity. Qed.
Definition one_stream : nat -> list Z := fun i => if Nat.eqb i 1 then be_bytes 32 1 else be_bytes 32 0.
Lemma one_stream_ok : stream one_stream.
Proof. intros i. unfold one_stream. destruct (Nat.eqb i 1); apply be32_bytes. Qed.
Lemma one_stream_at : nonce one_stream 1 = 1 /\ forall l, (l < 1)%nat -> nonce one_stream l = 0.
Proof. split; [vm_compute; reflexivity|]. intros l Hl. replace l with O by lia. vm_compute. reflexivity. Qed.
(** A stream whose first block is unusable and second is the nonce 1. *)
Lemma C29_first_usable_example_pf : exists gen, stream gen /\ ~ usable 1 1 (nonce gen 0) /\ usable 1 1 (nonce gen 1) /\ ~ wraps (nonce gen 0) /\ ~ wraps (nonce gen 1) /\ exists ctx, gen_ctx ctx.
Proof.
  exists one_stream. destruct one_stream_at as [E1 E0]. rewrite E1, (E0 O) by lia. split; [exact one_stream_ok|]. split; [intros (H & _); lia|]. split; [exact usable_1|].
  split; [intros (H & _); lia|]. split; [exact wraps_1|]. destruct C53_ecmult_gen_example_pf as (c & _ & HC). exists c. exact HC.
Qed.
(** Conversely every signature returned comes from the first usable block; in debug builds no block up to it has x >= n. *)
Lemma C29_only_first_usable_pf : forall dbg drbg fuel ctx d z g id, gen_ctx ctx -> 0 <= d < n -> 0 <= z < n -> let gen := drbg (be_bytes 32 d) (be_bytes 32 z) in stream gen ->
  sign dbg drbg fuel ctx (scalar_of z) (scalar_of d) = Done (g, id) ->
  exists j r s, (j < fuel)%nat /\ (forall l, (l < j)%nat -> ~ usable d z (nonce gen l)) /\ usable d z (nonce gen j) /\ signature_for d z (nonce gen j) r s id /\
    g = Sig (scalar_of r) (scalar_of s) /\ (dbg = true -> forall l, (l <= j)%nat -> ~ wraps (nonce gen l)).
Proof.
  intros dbg drbg fuel ctx d z g id HC D Z gen HS H. pose proof n_lt as NL. unfold sign in H. rewrite !s_b32_eq in H by lia. fold gen in H.
  destruct (sign_loop_done dbg gen ctx d z HC HS D Z fuel 0 g id H) as (j & r & s & HJ & NU & U & SF & HG & NW). exists j, r, s.
  split; [lia|]. split; [intros l Hl; apply NU; lia|]. split; [exact U|]. split; [exact SF|]. split; [exact HG|]. intros Ht l Hl. apply NW; [exact Ht | lia].
Qed.
Lemma sign_ex dbg : exists drbg ctx g id, gen_ctx ctx /\ stream (drbg (be_bytes 32 1) (be_bytes 32 1)) /\ sign dbg drbg 2 ctx (scalar_of 1) (scalar_of 1) = Done (g, id).
Proof.
  destruct C53_ecmult_gen_example_pf as (c & _ & HC). destruct one_stream_at as [E1 E0]. assert (D : 0 <= 1 < n) by vmr.
  destruct (C29_first_usable_pf dbg (fun _ _ => one_stream) 2 c 1 1 1 HC D D one_stream_ok) as (r & s & id & _ & H).
  - lia.
  - intros l Hl. rewrite (E0 l Hl). intros (K & _). lia.
  - rewrite E1. exact usable_1.
  - right. intros l Hl. destruct (Nat.eq_dec l 1) as [->|N]; [rewrite E1; exact wraps_1|]. rewrite (E0 l) by lia. intros (K & _). lia.
  - exists (fun _ _ => one_stream), c, (Sig (scalar_of r) (scalar_of s)), id. split; [exact HC|]. split; [exact one_stream_ok | exact H].
Qed.
Lemma C29_only_first_usable_example_pf : exists drbg ctx g id, gen_ctx ctx /\ stream (drbg (be_bytes 32 1) (be_bytes 32 1)) /\ sign true drbg 2 ctx (scalar_of 1) (scalar_of 1) = Done (g, id).
Proof. exact (sign_ex true). Qed.
(** The outcome depends on the DRBG only through its stream for the seed (key, message), and not on the (correct) context or its blinding. *)
Lemma C29_deterministic_pf : forall dbg drbg drbg' fuel ctx ctx' d z, gen_ctx ctx -> gen_ctx ctx' -> 0 <= d < n -> 0 <= z < n -> stream (drbg (be_bytes 32 d) (be_bytes 32 z)) ->
  (forall i, drbg (be_bytes 32 d) (be_bytes 32 z) i = drbg' (be_bytes 32 d) (be_bytes 32 z) i) ->
  sign dbg drbg fuel ctx (scalar_of z) (scalar_of d) = sign dbg drbg' fuel ctx' (scalar_of z) (scalar_of d).
Proof.
  intros dbg drbg drbg' fuel ctx ctx' d z HC HC' D Z HS HE. pose proof n_lt as NL. unfold sign. rewrite !s_b32_eq by lia.
  apply gen_ctx_ok in HC, HC'. remember (drbg (be_bytes 32 d) (be_bytes 32 z)) as st eqn:E1. remember (drbg' (be_bytes 32 d) (be_bytes 32 z)) as st' eqn:E2. clear E1 E2 drbg drbg'.
  generalize O as i. induction fuel as [|f IH]; intros i; [reflexivity|]. cbn [sign_loop]. rewrite <- HE. destruct (HS i) as [L B].
  pose proof (be_val_32 _ L B) as NR. rewrite s_set_b32_eq by assumption. set (v := be_val (st i)) in *. pose proof n_pos as NP.
  rewrite s_is_zero_eq by (pose proof (Z.mod_pos_bound v n ltac:(lia)); lia). destruct (Z.leb_spec n v) as [GE|LT]; cbn [negb andb]; [apply IH|]. rewrite Z.mod_small by lia.
  destruct (Z.eqb_spec v 0) as [E0|NZ]; cbn [negb]; [apply IH|]. assert (K : 1 <= v < n) by lia. destruct (nonce_pt v K) as (X & Y & P & HP).
  rewrite (sign_raw_ok dbg ctx d z v X Y HC D Z K P), (sign_raw_ok dbg ctx' d z v X Y HC' D Z K P). rewrite IH. reflexivity.
Qed.
Lemma C29_deterministic_example_pf : exists drbg ctx g id, gen_ctx ctx /\ stream (drbg (be_bytes 32 1) (be_bytes 32 1)) /\ sign false drbg 2 ctx (scalar_of 1) (scalar_of 1) = Done (g, id).
Proof. exact (sign_ex false). Qed.
(** If the stream contains a usable nonce then [sign] returns in a release build; a debug build returns or panics. *)
Lemma C30_terminates_pf : forall dbg drbg fuel ctx d z j, gen_ctx ctx -> 0 <= d < n -> 0 <= z < n -> let gen := drbg (be_bytes 32 d) (be_bytes 32 z) in stream gen ->
  usable d z (nonce gen j) -> (j < fuel)%nat ->
  (exists g id, sign dbg drbg fuel ctx (scalar_of z) (scalar_of d) = Done (g, id)) \/ (dbg = true /\ sign dbg drbg fuel ctx (scalar_of z) (scalar_of d) = Panic).
Proof.
  intros dbg drbg fuel ctx d z j HC D Z gen HS U HJ. pose proof n_lt as NL. unfold sign. rewrite !s_b32_eq by lia. fold gen.
  destruct (sign_loop_stops dbg gen ctx d z HC HS D Z fuel 0 j ltac:(lia) U) as [([g id] & H)|H]; [left; exists g, id; exact H | right; exact H].
Qed.
Lemma C30_terminates_example_pf : stream one_stream /\ usable 1 1 (nonce one_stream 1).
Proof. split; [exact one_stream_ok|]. rewrite (proj1 one_stream_at). exact usable_1. Qed.
Definition G2x : Z := 89565891926547004231252920425935692360644145829622209833684329913297188986597.
Lemma smul2G : exists y, smul 2 G = Aff G2x y. Proof. eexists. vm_compute. reflexivity. Qed.
(** Usable nonces exist for every key and message, except for the zero key with the zero message. *)
Lemma C30_usable_exists_pf : forall d z, 0 <= d < n -> 0 <= z < n -> (exists k, usable d z k) <-> ~ (d = 0 /\ z = 0).
Proof.
  intros d z D Z. pose proof n_pos as NP. split.
  - intros (k & _ & x & y & _ & H) [-> ->]. apply H. rewrite Z.mul_0_r. apply Z.mod_0_l. lia.
  - intros N. destruct smul2G as [y2 E2]. assert (E1 : smul 1 G = Aff gx gy) by (rewrite smulG, emul_1, sp_G by lia; reflexivity).
    destruct (Z.eq_dec ((z + gx mod n * d) mod n) 0) as [H1|H1]; [|exists 1; split; [vmr | exists gx, gy; auto]].
    destruct (Z.eq_dec ((z + G2x mod n * d) mod n) 0) as [H2|H2]; [|exists 2; split; [vmr | exists G2x, y2; auto]].
    exfalso. apply N. assert (R1 : gx mod n = gx) by vmr. assert (R2 : G2x mod n = G2x) by vmr. rewrite R1 in H1. rewrite R2 in H2.
    assert (K1 : eqn (z + gx * d) 0) by (unfold eqn, Zdiv.eqm; rewrite H1; symmetry; apply Z.mod_0_l; lia). assert (K2 : eqn (z + G2x * d) 0) by (unfold eqn, Zdiv.eqm; rewrite H2; symmetry; apply Z.mod_0_l; lia).
    assert (DD : d = 0).
    { apply eqn_small; [exact D | lia|]. apply (eqn_mul_0 (G2x - gx)); [vmr|]. replace ((G2x - gx) * d) with ((z + G2x * d) - (z + gx * d)) by ring. rewrite K1, K2. reflexivity. }
    split; [exact DD|]. subst d. apply eqn_small; [exact Z | lia|]. rewrite Z.mul_0_r, Z.add_0_r in K1. exact K1.
Qed.
Lemma C30_usable_exists_example_pf : (exists k, usable 0 1 k) /\ forall k, ~ usable 0 0 k.
Proof.
  split; [apply C30_usable_exists_pf; [vmr | vmr | lia]|]. intros k H. assert (Z0 : 0 <= 0 < n) by vmr. elim (proj1 (C30_usable_exists_pf 0 0 Z0 Z0)); [exists k; exact H | auto].
Qed.
(** Signing the zero message with a cleared key never returns, whatever the DRBG. *)
Lemma C30_zero_key_diverges_pf : forall drbg ctx k, gen_ctx ctx -> stream (drbg (be_bytes 32 0) (be_bytes 32 0)) ->
  (forall fuel, sign false drbg fuel ctx (scalar_of 0) (sk_clear k) = Running) /\ (forall fuel g, sign true drbg fuel ctx (scalar_of 0) (sk_clear k) <> Done g).
Proof.
  intros drbg ctx k HC HS. change (sk_clear k) with (scalar_of 0). assert (Z0 : 0 <= 0 < n) by vmr. destruct C30_usable_exists_example_pf as [_ NU]. pose proof n_lt as NL.
  split; intros fuel; [|intros g]; unfold sign; rewrite !s_b32_eq by lia.
  - destruct (sign_loop_none false _ ctx 0 0 HC HS Z0 Z0 NU fuel 0) as [H|[H _]]; [exact H | discriminate H].
  - destruct (sign_loop_none true _ ctx 0 0 HC HS Z0 Z0 NU fuel 0) as [H|[_ H]]; rewrite H; discriminate.
Qed.
Lemma C30_zero_key_diverges_example_pf : (exists ctx, gen_ctx ctx) /\ stream (fun _ => be_bytes 32 1).
Proof. split; [destruct C53_ecmult_gen_example_pf as (c & _ & HC); exists c; exact HC | intros i; apply be32_bytes]. Qed.

(** * C23, C24, C28 *)
Lemma sign_done dbg drbg fuel ctx d z g id : gen_ctx ctx -> 0 <= d < n -> 0 <= z < n -> stream (drbg (be_bytes 32 d) (be_bytes 32 z)) ->
  sign dbg drbg fuel ctx (scalar_of z) (scalar_of d) = Done (g, id) -> exists k r s, 1 <= k < n /\ signature_for d z k r s id /\ g = Sig (scalar_of r) (scalar_of s) /\ (dbg = true -> ~ wraps k).
Proof.
  intros HC D Z HS H. destruct (C29_only_first_usable_pf dbg drbg fuel ctx d z g id HC D Z HS H) as (j & r & s & _ & _ & U & SF & HG & NW). eexists. exists r, s.
  split; [apply U|]. split; [exact SF|]. split; [exact HG|]. intros Ht. apply NW; [exact Ht | lia].
Qed.
Lemma signature_valid d z k r s id : 1 <= d < n -> 0 <= z < n -> 1 <= k < n -> signature_for d z k r s id -> r <> 0 ->
  ecdsa_valid (smul d G) z r s /\ recovers z r s id (smul d G).
Proof.
  intros D Z K SF NR. destruct (signature_for_ok d z k r s id ltac:(lia) Z K SF) as (R & S & SN & ID & k' & K' & _ & C & RP). rewrite smulG by lia.
  assert (HR : recovers z r s id (sp (emul d eG))).
  { apply recovers_log; [exact ID|]. split; [lia|]. split; [lia|]. split; [apply sp_nz, D|]. exists (emul k' eG). split; [exact RP|]. f_equal. symmetry. apply qpoint_log; [lia | exact C]. }
  split; [exact (recovers_valid _ _ _ _ _ ID HR) | exact HR].
Qed.
(** A signature with non-zero r verifies under any key denoting d*G (in any build and context) and recovers to it with the returned id. *)
Lemma C23_sign_verify_pf : forall dbg dbg' drbg fuel gctx vctx d z g id k, gen_ctx gctx -> verify_ctx vctx -> 1 <= d < n -> 0 <= z < n -> stream (drbg (be_bytes 32 d) (be_bytes 32 z)) ->
  sign dbg drbg fuel gctx (scalar_of z) (scalar_of d) = Done (g, id) -> s_is_zero (sig_r g) = false -> key_at k (smul d G) ->
  verify dbg' vctx (scalar_of z) g k = Some true.
Proof.
  intros dbg dbg' drbg fuel gctx vctx d z g id k HG HV D Z HS H NR HK. destruct (sign_done dbg drbg fuel gctx d z g id HG ltac:(lia) Z HS H) as (t & r & s & T & SF & -> & _).
  destruct (signature_for_ok d z t r s id ltac:(lia) Z T SF) as (R & S & SN & _). cbn [sig_r] in NR. rewrite s_is_zero_eq in NR by (pose proof n_lt; lia). apply Z.eqb_neq in NR.
  apply (verify_true dbg' vctx k (smul d G)); try assumption; try lia; [rewrite smulG by lia; apply sp_nz, D|]. exact (proj1 (signature_valid d z t r s id D Z T SF NR)).
Qed.
Lemma sign_ex_nz dbg : exists drbg ctx g id, gen_ctx ctx /\ stream (drbg (be_bytes 32 1) (be_bytes 32 1)) /\ sign dbg drbg 2 ctx (scalar_of 1) (scalar_of 1) = Done (g, id) /\ s_is_zero (sig_r g) = false.
Proof.
  destruct (sign_ex dbg) as (drbg & ctx & g & id & HC & HS & H). exists (fun _ _ => one_stream), ctx. destruct one_stream_at as [E1 E0]. assert (D : 0 <= 1 < n) by vmr.
  destruct (C29_first_usable_pf dbg (fun _ _ => one_stream) 2 ctx 1 1 1 HC D D one_stream_ok) as (r & s & id' & SF & HH).
  - lia.
  - intros l Hl. rewrite (E0 l Hl). intros (K & _). lia.
  - rewrite E1. exact usable_1.
  - right. intros l Hl. destruct (Nat.eq_dec l 1) as [->|N]; [rewrite E1; exact wraps_1|]. rewrite (E0 l) by lia. intros (K & _). lia.
  - exists (Sig (scalar_of r) (scalar_of s)), id'. split; [exact HC|]. split; [exact one_stream_ok|]. split; [exact HH|]. cbv beta in SF. rewrite E1 in SF.
    destruct SF as (x & y & HP & -> & _). rewrite smulG, emul_1, sp_G in HP by lia. injection HP as <- <-. vm_compute. reflexivity.
Qed.
Lemma C23_sign_verify_example_pf : exists drbg ctx g id, gen_ctx ctx /\ stream (drbg (be_bytes 32 1) (be_bytes 32 1)) /\ sign true drbg 2 ctx (scalar_of 1) (scalar_of 1) = Done (g, id) /\ s_is_zero (sig_r g) = false.
Proof. exact (sign_ex_nz true). Qed.
(** r = 0 is returned only by a release build and only from a nonce whose point has x = n. *)
Lemma C23_r_zero_pf : forall dbg drbg fuel ctx d z g id, gen_ctx ctx -> 0 <= d < n -> 0 <= z < n -> let gen := drbg (be_bytes 32 d) (be_bytes 32 z) in stream gen ->
  sign dbg drbg fuel ctx (scalar_of z) (scalar_of d) = Done (g, id) -> s_is_zero (sig_r g) = true ->
  dbg = false /\ exists j y, (j < fuel)%nat /\ smul (nonce gen j) G = Aff n y.
Proof.
  intros dbg drbg fuel ctx d z g id HC D Z gen HS H ZR. destruct (C29_only_first_usable_pf dbg drbg fuel ctx d z g id HC D Z HS H) as (j & r & s & HJ & _ & U & SF & -> & NW). fold gen in U, SF, NW.
  destruct U as (K & _). destruct (signature_for_ok d z _ r s id D Z K SF) as (R & _). cbn [sig_r] in ZR. rewrite s_is_zero_eq in ZR by (pose proof n_lt; lia). apply Z.eqb_eq in ZR. subst r.
  destruct SF as (x & y & HP & XR & _). destruct (nonce_pt _ K) as (X & Y & P & HP'). rewrite HP in HP'. injection HP' as -> ->.
  pose proof (x_neq0 _ _ _ P) as NX. pose proof (val_range X) as RX. symmetry in XR. apply x_cases in XR; [|exact RX | lia]. destruct XR as [XR|XR]; [contradiction|]. cbn in XR.
  split; [|exists j, (val Y); split; [exact HJ | rewrite HP, XR; reflexivity]]. destruct dbg; [|reflexivity]. elim (NW eq_refl j ltac:(lia)). split; [exact K|]. exists (val X), (val Y). split; [exact HP | lia].
Qed.
(** Recovery with the returned id gives a key denoting d*G, equal to the signer's key. *)
Lemma C24_sign_recover_pf : forall dbg dbg' drbg fuel gctx vctx d z g id, gen_ctx gctx -> verify_ctx vctx -> 1 <= d < n -> 0 <= z < n -> stream (drbg (be_bytes 32 d) (be_bytes 32 z)) ->
  sign dbg drbg fuel gctx (scalar_of z) (scalar_of d) = Done (g, id) -> s_is_zero (sig_r g) = false ->
  0 <= id < 4 /\ exists k, recover dbg' vctx (scalar_of z) g id = Some (Ok k) /\ key_at k (smul d G) /\
    forall gctx' dbg'' k', gen_ctx gctx' -> pk_from_secret_key dbg'' gctx' (scalar_of d) = Some k' -> pk_eq dbg' k k' = Some true.
Proof.
  intros dbg dbg' drbg fuel gctx vctx d z g id HG HV D Z HS H NR. destruct (sign_done dbg drbg fuel gctx d z g id HG ltac:(lia) Z HS H) as (t & r & s & T & SF & -> & _).
  destruct (signature_for_ok d z t r s id ltac:(lia) Z T SF) as (R & S & SN & ID & _). cbn [sig_r] in NR. rewrite s_is_zero_eq in NR by (pose proof n_lt; lia). apply Z.eqb_neq in NR.
  destruct (signature_valid d z t r s id D Z T SF NR) as [_ HR]. split; [exact ID|].
  destruct (C25_recover_exact_pf dbg' vctx z r s id HV R ltac:(lia) Z ID) as [(k & Q & H' & HK & HQ)|[_ K]]; [|elim (K _ HR)]. rewrite <- (recovers_fun _ _ _ _ _ _ ID HR HQ) in HK.
  exists k. split; [exact H'|]. split; [exact HK|]. intros gctx' dbg'' k' HG' HP. destruct (C21_from_secret_key_pf dbg'' gctx' d HG' D) as (k2 & HP2 & _ & HK2 & N2). rewrite HP in HP2. apply some_inv in HP2. subst k2.
  destruct (smul d G) as [|x y]; [contradiction|]. destruct (C07_equality_pf dbg' _ _ _ _ _ _ HK HK2) as (b & -> & Hb & _). f_equal. apply Hb. auto.
Qed.
Lemma C24_sign_recover_example_pf : exists drbg ctx g id, gen_ctx ctx /\ stream (drbg (be_bytes 32 1) (be_bytes 32 1)) /\ sign false drbg 2 ctx (scalar_of 1) (scalar_of 1) = Done (g, id) /\ s_is_zero (sig_r g) = false.
Proof. exact (sign_ex_nz false). Qed.
(** s is between 1 and (n+1)/2, and r is below n. *)
Lemma C28_low_s_pf : forall dbg drbg fuel ctx d z g id, gen_ctx ctx -> 0 <= d < n -> 0 <= z < n -> stream (drbg (be_bytes 32 d) (be_bytes 32 z)) ->
  sign dbg drbg fuel ctx (scalar_of z) (scalar_of d) = Done (g, id) ->
  exists r s, g = Sig (scalar_of r) (scalar_of s) /\ 0 <= r < n /\ 1 <= s <= (n + 1) / 2 /\ 0 <= id < 4 /\ (dbg = true -> 1 <= r /\ id < 2).
Proof.
  intros dbg drbg fuel ctx d z g id HC D Z HS H. destruct (sign_done dbg drbg fuel ctx d z g id HC D Z HS H) as (t & r & s & T & SF & -> & NW).
  destruct (signature_for_ok d z t r s id D Z T SF) as (R & S & SN & ID & _). exists r, s. split; [reflexivity|]. split; [exact R|]. split; [exact S|]. split; [exact ID|]. intros Ht.
  destruct SF as (x & y & HP & XR & _ & HI). destruct (nonce_pt _ T) as (X & Y & P & HP'). rewrite HP in HP'. injection HP' as -> ->. pose proof (x_neq0 _ _ _ P) as NX. pose proof (val_range X) as RX.
  assert (LX : val X < n). { destruct (Z.lt_ge_cases (val X) n) as [|GE]; [assumption|]. elim (NW Ht). split; [exact T|]. exists (val X), (val Y). auto. }
  rewrite Z.mod_small in XR by lia. rewrite (Z.div_small (val X)) in HI by lia. pose proof (Z.mod_pos_bound (val Y) 2 ltac:(lia)). split; [lia|]. destruct HI as [(_ & _ & ->)|(_ & _ & ->)]; lia.
Qed.
Lemma C28_low_s_example_pf : exists drbg ctx g id, gen_ctx ctx /\ stream (drbg (be_bytes 32 1) (be_bytes 32 1)) /\ sign true drbg 2 ctx (scalar_of 1) (scalar_of 1) = Done (g, id).
Proof. exact (sign_ex true). Qed.
(** "Always low": false, s = (n+1)/2 is produced. *)
Lemma C28_low_s_refuted_pf : exists dbg drbg fuel ctx d z g id, gen_ctx ctx /\ 1 <= d < n /\ 0 <= z < n /\ stream (drbg (be_bytes 32 d) (be_bytes 32 z)) /\
  sign dbg drbg fuel ctx (scalar_of z) (scalar_of d) = Done (g, id) /\ sig_s g = scalar_of ((n + 1) / 2) /\ (n - 1) / 2 < (n + 1) / 2.
Proof.
  destruct C53_ecmult_gen_example_pf as (c & _ & HC). pose (d := ((n - 1) / 2 * inv_mod n gx) mod n). assert (D : 1 <= d < n) by vmr. assert (Z0 : 0 <= 0 < n) by vmr.
  destruct one_stream_at as [E1 E0]. assert (EG : smul 1 G = Aff gx gy) by (rewrite smulG, emul_1, sp_G by lia; reflexivity).
  destruct (C29_first_usable_pf true (fun _ _ => one_stream) 2 c d 0 1 HC ltac:(lia) Z0 one_stream_ok) as (r & s & id & SF & H).
  - lia.
  - intros l Hl. rewrite (E0 l Hl). intros (K & _). lia.
  - rewrite E1. split; [vmr|]. exists gx, gy. split; [exact EG | vm_compute; discriminate].
  - right. intros l Hl. destruct (Nat.eq_dec l 1) as [->|N]; [rewrite E1; exact wraps_1|]. rewrite (E0 l) by lia. intros (K & _). lia.
  - exists true, (fun _ _ => one_stream), 2%nat, c, d, 0, (Sig (scalar_of r) (scalar_of s)), id. split; [exact HC|]. split; [exact D|]. split; [exact Z0|]. split; [exact one_stream_ok|]. split; [exact H|].
    split; [|vmr]. cbn [sig_s]. f_equal. cbv beta in SF. rewrite E1 in SF. destruct SF as (x & y & HP & -> & HS). rewrite EG in HP. injection HP as <- <-. cbv zeta in HS.
    assert (S0 : (inv_mod n 1 * (0 + gx mod n * d)) mod n = (n - 1) / 2) by vmr. rewrite S0 in HS. destruct HS as (_ & [(K & _)|(_ & -> & _)]); [lia | vmr].
Qed.
(** "r is never 0": false in release builds. *)
Lemma C28_nonzero_r_refuted_pf : exists drbg fuel ctx d z g id, gen_ctx ctx /\ 1 <= d < n /\ 0 <= z < n /\ stream (drbg (be_bytes 32 d) (be_bytes 32 z)) /\
  sign false drbg fuel ctx (scalar_of z) (scalar_of d) = Done (g, id) /\ sig_r g = scalar_of 0.
Proof.
  destruct C53_ecmult_gen_example_pf as (c & _ & HC). destruct C31_wrapping_nonces_exist_pf as ((k & y & K & HP) & _). pose proof n_lt as NL. assert (D : 0 <= 1 < n) by vmr. assert (D1 : 1 <= 1 < n) by vmr.
  pose (st := fun i : nat => be_bytes 32 k). assert (HS : stream st) by (intros i; apply be32_bytes). assert (N0 : nonce st 0 = k) by (apply be32_val; lia).
  destruct (C29_first_usable_pf false (fun _ _ => st) 1 c 1 1 0 HC D D HS) as (r & s & id & SF & H).
  - lia.
  - intros l Hl. lia.
  - rewrite N0. split; [exact K|]. exists n, y. split; [exact HP|]. vm_compute. discriminate.
  - left. reflexivity.
  - exists (fun _ _ => st), 1%nat, c, 1, 1, (Sig (scalar_of r) (scalar_of s)), id. split; [exact HC|]. split; [exact D1|]. split; [exact D|]. split; [exact HS|]. split; [exact H|].
    cbn [sig_r]. f_equal. cbv beta in SF. rewrite N0 in SF. destruct SF as (x & y' & HP' & -> & _). rewrite HP in HP'. injection HP' as <- <-. vmr.
Qed.

(** * C57 *)
Lemma message_binding : forall d z1 z2 r s, 1 <= d < n -> 0 <= z1 < n -> 0 <= z2 < n -> ecdsa_valid (smul d G) z1 r s -> ecdsa_valid (smul d G) z2 r s ->
  z1 = z2 \/ (z1 + z2 + 2 * r * d) mod n = 0 \/ (r + n < p /\ exists y y', on_curve (Aff r y) /\ on_curve (Aff (r + n) y')).
Proof.
  intros d z1 z2 r s D Z1 Z2 V1 V2. rewrite smulG in V1, V2 by lia. apply valid_log in V1, V2. destruct V1 as (R & S & a & A & XA & CA), V2 as (_ & _ & b & B & XB & CB). pose proof n_pos as NP.
  destruct XA as (xa & ya & PA & MA), XB as (xb & yb & PB & MB). pose proof (val_range xa) as RA. pose proof (val_range xb) as RB.
  apply x_cases in MA; [|exact RA | lia]. apply x_cases in MB; [|exact RB | lia].
  assert (ON : forall k x y, pt (emul k eG) = FAff x y -> on_curve (Aff (val x) (val y))) by (intros k x y P; pose proof (sp_on (emul k eG)) as O; unfold sp in O; rewrite P in O; exact O).
  assert (SAME : xa = xb -> z1 = z2 \/ (z1 + z2 + 2 * r * d) mod n = 0).
  { intros <-. pose proof (pt_on (emul a eG)) as OA. pose proof (pt_on (emul b eG)) as OB. rewrite PA in OA. rewrite PB in OB. destruct (same_x _ _ _ OA OB) as [E0|E0].
    - subst yb. assert (AB : a = b). { apply eqn_small; [lia | lia|]. apply emulG_eqn. apply pt_inj. congruence. } subst b. left. apply eqn_small; [exact Z1 | exact Z2|].
      replace z1 with ((z1 + r * d) - r * d) by ring. rewrite <- CA, CB. unfold eqn, Zdiv.eqm. f_equal. ring.
    - right. assert (AB : emul (a + b) eG = e0).
      { rewrite emul_add. replace (emul b eG) with (eopp (emul a eG)); [apply eadd_opp_r|]. apply pt_inj. unfold eopp. cbn [pt mkE proj1_sig]. change (proj1_sig ?A) with (pt A). rewrite PA, PB. cbn [fneg]. f_equal.
        replace yb with ((ya + yb) - ya)%F by ring. rewrite E0. ring. }
      apply (proj1 (emul_G_0 _)) in AB. assert (AB' : eqn (a + b) 0) by (unfold eqn, Zdiv.eqm; rewrite AB; symmetry; apply Z.mod_0_l; lia).
      assert (K : eqn (z1 + z2 + 2 * r * d) 0). { replace (z1 + z2 + 2 * r * d) with ((z1 + r * d) + (z2 + r * d)) by ring. rewrite <- CA, <- CB. replace (a * s + b * s) with ((a + b) * s) by ring. rewrite AB'. reflexivity. }
      unfold eqn, Zdiv.eqm in K. rewrite Z.mod_0_l in K by lia. exact K. }
  destruct MA as [EA|EA], MB as [EB|EB].
  - destruct SAME as [H|H]; [apply val_inj; congruence | auto | auto].
  - right. right. split; [lia|]. exists (val ya), (val yb). rewrite <- EB. rewrite <- EA at 1. split; eapply ON; eassumption.
  - right. right. split; [lia|]. exists (val yb), (val ya). rewrite <- EA. rewrite <- EB at 1. split; eapply ON; eassumption.
  - destruct SAME as [H|H]; [apply val_inj; congruence | auto | auto].
Qed.
(** A signature that [verify] accepts for two messages under one key d*G: the messages are equal, or z1 + z2 = -2*r*d (opposite nonce points), or both r and r + n are x coordinates on the curve. *)
Lemma C57_message_binding_pf : forall dbg ctx k d z1 z2 r s, verify_ctx ctx -> 1 <= d < n -> key_at k (smul d G) -> 0 <= r < n -> 0 <= s < n -> 0 <= z1 < n -> 0 <= z2 < n ->
  verify dbg ctx (scalar_of z1) (Sig (scalar_of r) (scalar_of s)) k = Some true -> verify dbg ctx (scalar_of z2) (Sig (scalar_of r) (scalar_of s)) k = Some true ->
  z1 = z2 \/ (z1 + z2 + 2 * r * d) mod n = 0 \/ (r + n < p /\ exists y y', on_curve (Aff r y) /\ on_curve (Aff (r + n) y')).
Proof.
  intros dbg ctx k d z1 z2 r s HC D HK R S Z1 Z2 V1 V2. assert (N : smul d G <> Inf) by (rewrite smulG by lia; apply sp_nz, D).
  apply (verify_true dbg ctx k (smul d G)) in V1; try assumption. apply (verify_true dbg ctx k (smul d G)) in V2; try assumption. exact (message_binding d z1 z2 r s D Z1 Z2 V1 V2).
Qed.
Lemma C57_message_binding_example_pf : exists ctx, verify_ctx ctx /\ 1 <= 1 < n /\ key_at AFFINE_G (smul 1 G) /\ verify true ctx (scalar_of 0) (Sig (scalar_of gx) (scalar_of gx)) AFFINE_G = Some true.
Proof.
  destruct C22_verify_example_pf as ((ctx & _ & HC) & HK & N & V & _). assert (R : 0 <= gx < n) by vmr. assert (Z0 : 0 <= 0 < n) by vmr.
  exists ctx. split; [exact HC|]. split; [vmr|]. rewrite smulG, emul_1, sp_G by lia. split; [exact HK|]. apply (verify_true true ctx AFFINE_G G); assumption.
Qed.
Lemma key_binding : forall z r s Q1 Q2, on_curve Q1 -> on_curve Q2 -> Q1 <> Inf -> Q2 <> Inf -> ecdsa_valid Q1 z r s -> ecdsa_valid Q2 z r s ->
  exists i j, 0 <= i < 4 /\ 0 <= j < 4 /\ recovers z r s i Q1 /\ recovers z r s j Q2 /\ (Q1 = Q2 <-> i = j).
Proof.
  assert (LG : forall Q, on_curve Q -> Q <> Inf -> exists d, 1 <= d < n /\ Q = sp (emul d eG)).
  { intros Q O N. destruct (sp_surj _ O) as [A <-]. assert (NA : A <> e0) by (intros ->; apply N; reflexivity). destruct (log_nz A NA) as (d & D & ->). exists d. auto. }
  intros z r s Q1 Q2 O1 O2 N1 N2 V1 V2. destruct (LG _ O1 N1) as (d1 & D1 & ->), (LG _ O2 N2) as (d2 & D2 & ->).
  destruct (valid_recovers _ _ _ _ V1 D1) as (i & HI & RI), (valid_recovers _ _ _ _ V2 D2) as (j & HJ & RJ). exists i, j. split; [exact HI|]. split; [exact HJ|]. split; [exact RI|]. split; [exact RJ|]. split.
  - intros E0. rewrite <- E0 in RJ. exact (recovers_id _ _ _ _ _ _ HI HJ RI RJ).
  - intros <-. exact (recovers_fun _ _ _ _ _ _ HI RI RJ).
Qed.
(** A signature that [verify] accepts for one message under two keys: [recover] returns them for two ids, equal iff the keys are; so at most four keys accept a signature. *)
Lemma C57_key_binding_pf : forall dbg ctx k1 k2 Q1 Q2 z r s, verify_ctx ctx -> key_at k1 Q1 -> key_at k2 Q2 -> Q1 <> Inf -> Q2 <> Inf -> 0 <= r < n -> 0 <= s < n -> 0 <= z < n ->
  verify dbg ctx (scalar_of z) (Sig (scalar_of r) (scalar_of s)) k1 = Some true -> verify dbg ctx (scalar_of z) (Sig (scalar_of r) (scalar_of s)) k2 = Some true ->
  exists i j, 0 <= i < 4 /\ 0 <= j < 4 /\ (Q1 = Q2 <-> i = j) /\ (exists k, recover dbg ctx (scalar_of z) (Sig (scalar_of r) (scalar_of s)) i = Some (Ok k) /\ key_at k Q1) /\
    exists k, recover dbg ctx (scalar_of z) (Sig (scalar_of r) (scalar_of s)) j = Some (Ok k) /\ key_at k Q2.
Proof.
  intros dbg ctx k1 k2 Q1 Q2 z r s HC K1 K2 N1 N2 R S Z V1 V2. apply (verify_true dbg ctx k1 Q1) in V1; try assumption. apply (verify_true dbg ctx k2 Q2) in V2; try assumption.
  assert (O : forall k Q, key_at k Q -> on_curve Q) by (intros k Q H; destruct (key_exists _ _ H) as (A & -> & _); apply sp_on).
  destruct (key_binding z r s Q1 Q2 (O _ _ K1) (O _ _ K2) N1 N2 V1 V2) as (i & j & HI & HJ & RI & RJ & E0). exists i, j. split; [exact HI|]. split; [exact HJ|]. split; [exact E0|].
  assert (REC : forall l Q, 0 <= l < 4 -> recovers z r s l Q -> exists k, recover dbg ctx (scalar_of z) (Sig (scalar_of r) (scalar_of s)) l = Some (Ok k) /\ key_at k Q).
  { intros l Q HL HR. destruct (C25_recover_exact_pf dbg ctx z r s l HC R S Z HL) as [(k & Q' & H' & HK & HQ)|[_ K]]; [|elim (K _ HR)]. rewrite <- (recovers_fun _ _ _ _ _ _ HL HR HQ) in HK. exists k. auto. }
  split; apply REC; assumption.
Qed.
Lemma C57_key_binding_example_pf : exists ctx, verify_ctx ctx /\ key_at AFFINE_G G /\ G <> Inf /\ verify true ctx (scalar_of 0) (Sig (scalar_of gx) (scalar_of gx)) AFFINE_G = Some true.
Proof.
  destruct C22_verify_example_pf as ((ctx & _ & HC) & HK & N & V & _). assert (R : 0 <= gx < n) by vmr. assert (Z0 : 0 <= 0 < n) by vmr.
  exists ctx. split; [exact HC|]. split; [exact HK|]. split; [exact N|]. apply (verify_true true ctx AFFINE_G G); assumption.
Qed.
