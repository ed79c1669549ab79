(** The curve group, point operations, conversions, recodings and scalar multiplications, in terms of the specification. *)
From Coq Require Import Znumtheory Field.
From Verif Require Import Word MField MScalar MGroup MEcmult WP FieldMul FieldNorm Spec Fp Bits FieldOps FieldCodec FieldStore Denote Curve Group Chain Order Jac JacOps Table Wnaf WnafC Ecmult Lift Gen Key Ctx ApiScalar ApiPub.

Lemma G_key : key_at AFFINE_G G. Proof. exact AFFINE_G_key. Qed.
Lemma G_neq_inf : G <> Inf. Proof. discriminate. Qed.
Lemma J_ex : exists j, jac_at j G. Proof. destruct (jac_of_key true _ _ G_key) as (j & _ & J). exists j. exact J. Qed.
Lemma smul_sp k A : 0 <= k -> smul k (sp A) = sp (emul k A). Proof. intros. symmetry. apply sp_mul. assumption. Qed.

(** * C56 *)
Lemma C56_primes_pf : prime p /\ prime n.
Proof. exact (conj prime_p prime_n). Qed.
(** The curve points with the chord-tangent law form an abelian group. *)
Lemma C56_abelian_group_pf : on_curve Inf /\ on_curve G /\
  (forall P, on_curve P -> on_curve (pneg P) /\ padd Inf P = P /\ padd P Inf = P /\ padd P (pneg P) = Inf) /\
  (forall P Q, on_curve P -> on_curve Q -> on_curve (padd P Q) /\ padd P Q = padd Q P) /\
  (forall P Q R, on_curve P -> on_curve Q -> on_curve R -> padd P (padd Q R) = padd (padd P Q) R).
Proof.
  split; [exact I|]. split; [exact G_on|]. split; [|split].
  - intros P HP. destruct (sp_surj _ HP) as [A <-]. rewrite <- sp_opp, <- sp_0, <- !sp_add, eadd_opp_r, eadd_0_l, eadd_0_r. split; [apply sp_on|]. tauto.
  - intros P Q HP HQ. destruct (sp_surj _ HP) as [A <-], (sp_surj _ HQ) as [B <-]. rewrite <- !sp_add. split; [apply sp_on | rewrite eadd_comm; reflexivity].
  - intros P Q R HP HQ HR. destruct (sp_surj _ HP) as [A <-], (sp_surj _ HQ) as [B <-], (sp_surj _ HR) as [C <-]. rewrite <- !sp_add, eadd_assoc. reflexivity.
Qed.
Lemma padd_neg_r P : on_curve P -> padd P (pneg P) = Inf. Proof. intros H. apply (proj1 (proj2 (proj2 C56_abelian_group_pf))), H. Qed.
Lemma padd_on P Q : on_curve P -> on_curve Q -> on_curve (padd P Q). Proof. intros H K. exact (proj1 (proj1 (proj2 (proj2 (proj2 C56_abelian_group_pf))) P Q H K)). Qed.
(** It is cyclic of order n, generated by G: k -> k*G is a bijection from [0, n) to the points, and n*P is the neutral element. *)
Lemma C56_cyclic_pf : (forall P, on_curve P -> exists k, 0 <= k < n /\ P = smul k G /\ forall j, 0 <= j < n -> P = smul j G -> j = k) /\
  (forall k, 0 <= k -> on_curve (smul k G)) /\ (forall P, on_curve P -> smul n P = Inf) /\ G <> Inf.
Proof.
  nlt. split; [|split; [|split]].
  - intros P HP. destruct (sp_surj _ HP) as [A <-]. destruct (cyclic A) as [k ->]. exists (k mod n). pose proof (Z.mod_pos_bound k n ltac:(lia)).
    split; [assumption|]. rewrite smul_G, emul_mod_G by lia. split; [reflexivity|]. intros j Hj HJ. rewrite smul_G in HJ by lia. apply sp_inj in HJ.
    apply emul_G_eq in HJ. rewrite HJ. symmetry. apply Z.mod_small. assumption.
  - intros k Hk. rewrite smul_G by assumption. apply sp_on.
  - intros P HP. destruct (sp_surj _ HP) as [A <-]. rewrite smul_sp, emul_n by lia. reflexivity.
  - discriminate.
Qed.
Lemma C56_cyclic_example_pf : on_curve G /\ smul 1 G = G /\ smul 2 G <> G /\ padd G G <> Inf.
Proof.
  split; [exact G_on|]. rewrite !smul_G, <- sp_G, emul_1 by lia. split; [reflexivity|]. nlt. assert (2 < n) by (vm_compute; reflexivity). split.
  - intros H2. apply sp_inj in H2. rewrite <- (emul_1 eG) in H2 at 2. apply emul_G_eq in H2. rewrite !Z.mod_small in H2 by lia. lia.
  - rewrite <- sp_add, <- sp_0. intros H2. apply sp_inj in H2. rewrite <- (emul_1 eG), <- emul_add in H2. apply emul_G_0 in H2. rewrite Z.mod_small in H2 by lia. discriminate.
Qed.
(** Multiplication by integers is a module action modulo n. *)
Lemma C56_scalar_action_pf : forall P a b, on_curve P -> 0 <= a -> 0 <= b ->
  smul (a + b) P = padd (smul a P) (smul b P) /\ smul (a * b) P = smul a (smul b P) /\ smul (a mod n) P = smul a P /\
  (P <> Inf -> (smul a P = smul b P <-> a mod n = b mod n)).
Proof.
  intros P a b HP A0 B0. nlt. destruct (sp_surj _ HP) as [A <-]. pose proof (Z.mod_pos_bound a n ltac:(lia)).
  rewrite !smul_sp by nia. rewrite emul_add, sp_add, emul_mul, emul_mod. split; [reflexivity|]. split; [reflexivity|]. split; [reflexivity|].
  intros N. assert (NA : A <> e0) by (intros ->; apply N; reflexivity). split; [intros HE; apply sp_inj in HE; exact (emul_inj _ _ _ NA HE)|].
  intros HE. rewrite <- (emul_mod a), <- (emul_mod b), HE. reflexivity.
Qed.
Lemma C56_scalar_action_example_pf : on_curve G /\ G <> Inf /\ smul 0 G = Inf.
Proof. split; [exact G_on|]. split; [discriminate | reflexivity]. Qed.

(** * C49 *)
Lemma C49_double_pf : forall dbg j P, jac_at j P -> exists r, j_double dbg j = Some r /\ jac_at r (padd P P).
Proof.
  intros dbg j P H. destruct (jac_exists _ _ H) as (A & -> & HA). destruct (wp_ex _ _ (j_double_ok dbg f1 j A HA)) as (r & -> & H1 & _).
  exists r. split; [reflexivity|]. rewrite <- sp_add. apply jac_jok, H1.
Qed.
Lemma C49_double_example_pf : (exists j, jac_at j G) /\ jac_at j_set_infinity Inf.
Proof. split; [exact J_ex|]. rewrite <- sp_0. apply jac_jok. apply jok_default. reflexivity. Qed.
Lemma C49_add_pf : forall dbg a b P Q, jac_at a P -> jac_at b Q -> exists r, j_add dbg a b = Some r /\ jac_at r (padd P Q).
Proof.
  intros dbg a b P Q HP HQ. destruct (jac_exists _ _ HP) as (A & -> & HA). destruct (jac_exists _ _ HQ) as (B & -> & HB).
  destruct (wp_ex _ _ (j_add_ok dbg a b A B HA HB)) as (r & -> & H1). exists r. split; [reflexivity|]. rewrite <- sp_add. apply jac_jok, H1.
Qed.
(** The hypotheses cover every special case: equal points, opposite points, infinity. *)
Lemma C49_add_example_pf : (exists a b, jac_at a G /\ jac_at b G /\ padd G G <> Inf) /\ (exists a b, jac_at a G /\ jac_at b (pneg G) /\ padd G (pneg G) = Inf) /\
  (exists a b, jac_at a Inf /\ jac_at b G).
Proof.
  destruct J_ex as [j J]. destruct (C58_jacobian_neg_pf true j G J) as (j' & _ & J'). split; [|split].
  - exists j, j. split; [exact J|]. split; [exact J | apply C56_cyclic_example_pf].
  - exists j, j'. split; [exact J|]. split; [exact J'|]. apply padd_neg_r. exact G_on.
  - exists j_set_infinity, j. split; [apply C49_double_example_pf | exact J].
Qed.
Lemma C49_add_ge_var_pf : forall dbg a b P Q, jac_at a P -> key_at b Q -> exists r, j_add_ge_v dbg a b = Some r /\ jac_at r (padd P Q).
Proof.
  intros dbg a b P Q HP HQ. destruct (jac_exists _ _ HP) as (A & -> & HA). destruct (key_exists _ _ HQ) as (B & -> & HB).
  destruct (wp_ex _ _ (j_add_ge_v_ok dbg f1 a b A B HA HB)) as (r & -> & H1). exists r. split; [reflexivity|]. rewrite <- sp_add. apply jac_jok, H1.
Qed.
Lemma C49_add_ge_var_example_pf : exists a b, jac_at a G /\ key_at b G.
Proof. destruct J_ex as [j J]. exists j, AFFINE_G. split; [exact J | exact G_key]. Qed.
(** The branch-free addition: complete except that the affine operand must not be infinity. *)
Lemma C49_add_ge_pf : forall dbg a b P Q, jac_at a P -> key_at b Q -> Q <> Inf -> exists r, j_add_ge dbg a b = Some r /\ jac_at r (padd P Q).
Proof.
  intros dbg a b P Q HP HQ N. destruct (jac_exists _ _ HP) as (A & -> & HA). pose proof (key_inf _ _ HQ) as KI. destruct (key_exists _ _ HQ) as (B & -> & HB).
  assert (IB : af_inf b = false) by (destruct (af_inf b); [elim N; apply KI; reflexivity | reflexivity]).
  destruct (wp_ex _ _ (j_add_ge_ok dbg f1 a b A B (jok_w dbg _ _ _ HA) HB IB)) as (r & -> & H1). exists r. split; [reflexivity|]. rewrite <- sp_add. apply jac_jok, H1.
Qed.
Lemma C49_add_ge_example_pf : exists a b, jac_at a (pneg G) /\ key_at b G /\ G <> Inf.
Proof. destruct J_ex as [j J]. destruct (C58_jacobian_neg_pf true j G J) as (j' & _ & J'). exists j', AFFINE_G. split; [exact J'|]. split; [exact G_key | discriminate]. Qed.
(** With an infinite affine operand it panics in debug builds and is wrong in release builds. *)
Definition JG : jac := Ja (af_x AFFINE_G) (af_y AFFINE_G) FE1 false.
Definition AINF : affine := Af f_default f_default true.
Lemma JG_set dbg : j_set_ge dbg AFFINE_G = Some JG. Proof. destruct dbg; vm_compute; reflexivity. Qed.
Lemma JG_at : jac_at JG G. Proof. destruct (jac_of_key false _ _ G_key) as (j & EJ & J). rewrite JG_set in EJ. apply some_inv in EJ. subst j. exact J. Qed.
Lemma AINF_at : key_at AINF Inf.
Proof. pose proof (fcrep_ok _ _ 6 fcrep_default ltac:(lia)) as D. split; [exact D|]. split; [exact D|]. split; [exact Logic.I | reflexivity]. Qed.
Definition bad_x (o : option jac) : bool := match o with Some r => negb (fv (j_x r) mod p =? (gx * fv (j_z r) ^ 2) mod p) | None => false end.
Lemma add_inf_bad : bad_x (j_add_ge false JG AINF) = true. Proof. vm_compute. reflexivity. Qed.
Lemma add_inf_panics : j_add_ge true JG AINF = None. Proof. vm_compute. reflexivity. Qed.
Lemma bad_x_inv o : bad_x o = true -> exists r, o = Some r /\ ~ jac_at r G.
Proof.
  destruct o as [r|]; [|discriminate]. cbn [bad_x]. intros H. exists r. split; [reflexivity|]. intros (_ & _ & _ & _ & K).
  destruct K as (_ & _ & K & _). rewrite K, Z.eqb_refl in H. discriminate H.
Qed.
Lemma C49_add_ge_infinity_refuted_pf : exists a b, jac_at a G /\ key_at b Inf /\ j_add_ge true a b = None /\ exists r, j_add_ge false a b = Some r /\ ~ jac_at r (padd G Inf).
Proof.
  exists JG, AINF. exact (conj JG_at (conj AINF_at (conj add_inf_panics (bad_x_inv _ add_inf_bad)))).
Qed.
(** [a] denotes [P] on the isomorphic curve scaled by [u]: the true z coordinate is z*u. *)
Definition jac_scaled (u : Z) (j : jac) (P : point) : Prop :=
  fok 6 (j_x j) /\ fok 6 (j_y j) /\ fok 6 (j_z j) /\ on_curve P /\
  match P with
  | Inf => j_inf j = true
  | Aff x y => let z := fv (j_z j) * u in j_inf j = false /\ z mod p <> 0 /\ fv (j_x j) mod p = (x * z ^ 2) mod p /\ fv (j_y j) mod p = (y * z ^ 3) mod p
  end.
Lemma jac_scaled_jok u j A : jac_scaled u j (sp A) <-> jok (toF u) j A.
Proof.
  unfold jac_scaled, jok, sp. pose proof (sp_on A) as O. unfold sp in O.
  assert (ZE : toF (fv (j_z j) * u) = (fe (j_z j) * toF u)%F) by apply toF_mul. split.
  - intros (X & Y & Z & _ & H). split; [exact X|]. split; [exact Y|]. split; [exact Z|]. destruct (pt A) as [|x y] eqn:P; cbn [spt] in H.
    + rewrite H. apply pt_inj. exact P.
    + cbv zeta in H. destruct H as (-> & NZ & HX & HY). rewrite <- ZE. set (z := fv (j_z j) * u) in *.
      assert (NF : toF z <> f0). { intros E0. apply NZ. rewrite <- val_toF, E0. reflexivity. }
      assert (EX : fe (j_x j) = (x * (toF z * toF z))%F) by (unfold fe; rewrite <- (toF_val x), <- !toF_mul; apply toF_eq; rewrite HX; f_equal; ring).
      assert (EY : fe (j_y j) = (y * (toF z * toF z * toF z))%F) by (unfold fe; rewrite <- (toF_val y), <- !toF_mul; apply toF_eq; rewrite HY; f_equal; ring).
      split; [exact NF|]. rewrite P, EX, EY. f_equal; field; exact NF.
  - intros (X & Y & Z & H). split; [exact X|]. split; [exact Y|]. split; [exact Z|]. split; [exact O|]. destruct (j_inf j).
    + subst A. reflexivity.
    + rewrite <- ZE in H. destruct H as [NF P]. rewrite P. cbn [spt]. cbv zeta. set (z := fv (j_z j) * u) in *.
      set (x := (fe (j_x j) / _)%F). set (y := (fe (j_y j) / _)%F).
      split; [reflexivity|]. split; [intros E0; apply NF; rewrite <- toF_mod, E0; reflexivity|]. split.
      * apply toF_eq. rewrite toF_mul, toF_val, Z.pow_2_r, toF_mul. change (toF (fv ?f)) with (fe f). unfold x. field. exact NF.
      * apply toF_eq. replace (z ^ 3) with (z * z * z) by ring.
        rewrite toF_mul, toF_val, !toF_mul. change (toF (fv ?f)) with (fe f). unfold y. field. exact NF.
Qed.
(** Adding an affine point given the inverse of its (virtual) z coordinate. *)
Lemma C49_add_zinv_var_pf : forall dbg a b zinv P Q, fok 6 zinv -> fv zinv mod p <> 0 -> jac_scaled (fv zinv) a P -> key_at b Q ->
  exists r, j_add_zinv_var dbg a b zinv = Some r /\ jac_scaled (fv zinv) r (padd P Q).
Proof.
  intros dbg a b zi P Q ZI NZ HP HQ. pose proof HP as (_ & _ & _ & O & _). destruct (sp_surj _ O) as [A <-]. destruct (key_exists _ _ HQ) as (B & -> & HB).
  apply jac_scaled_jok in HP.
  assert (NF : fe zi <> f0) by (intros E0; apply NZ; apply (proj1 (fe_eq zi f0)) in E0; exact E0).
  destruct (wp_ex _ _ (j_add_zinv_var_ok dbg (fe zi) a b zi A B HP HB (fok_frep _ _ ZI) NF)) as (r & -> & H1).
  exists r. split; [reflexivity|]. rewrite <- sp_add. apply jac_scaled_jok, H1.
Qed.
Lemma C49_add_zinv_var_example_pf : exists a b zinv, fok 6 zinv /\ fv zinv mod p <> 0 /\ jac_scaled (fv zinv) a G /\ key_at b G.
Proof.
  destruct J_ex as [j J]. exists j, AFFINE_G, FE1. pose proof fcrep_FE1 as F1. split; [apply (fcrep_ok _ _ 6 F1); lia|]. split; [vm_compute; discriminate|]. split; [|exact G_key].
  rewrite <- sp_G in *. apply jac_scaled_jok. apply jac_jok in J. change (toF (fv FE1)) with (fe FE1). rewrite (fcrep_fe _ _ F1). exact J.
Qed.

(** * C50 *)
Lemma C50_set_gej_pf : forall dbg j P, jac_at j P -> exists a, af_set_gej dbg j = Some a /\ aff_at 1 a P.
Proof.
  intros dbg j P H. destruct (jac_exists _ _ H) as (A & -> & HA). destruct (wp_ex _ _ (af_set_gej_ok dbg j A HA)) as (r & -> & H1 & _).
  exists r. split; [reflexivity|]. apply aff_aok, H1.
Qed.
Lemma C50_set_gej_example_pf : (exists j, jac_at j G) /\ jac_at j_set_infinity Inf.
Proof. exact C49_double_example_pf. Qed.
Lemma C50_set_gej_var_pf : forall dbg s j P, jac_at j P -> fok 6 (af_x s) -> fok 6 (af_y s) -> exists a, af_set_gej_var dbg s j = Some a /\ key_at a P.
Proof.
  intros dbg s j P H SX SY. destruct (jac_exists _ _ H) as (A & -> & HA). destruct (wp_ex _ _ (af_set_gej_var_ok dbg s j A HA ltac:(auto))) as (r & -> & H1 & _).
  exists r. split; [reflexivity|]. apply key_aok, H1.
Qed.
Lemma C50_set_gej_var_example_pf : (exists j, jac_at j G) /\ fok 6 (af_x af_default) /\ fok 6 (af_y af_default).
Proof. split; [exact J_ex|]. pose proof (fcrep_ok _ _ 6 fcrep_default ltac:(lia)). split; assumption. Qed.
Lemma C50_set_gej_zinv_pf : forall dbg j zi P, jac_at j P -> fok 6 zi -> fv zi mod p <> 0 -> (P <> Inf -> (fv (j_z j) * fv zi) mod p = 1) ->
  exists a, af_set_gej_zinv dbg j zi = Some a /\ aff_at 1 a P.
Proof.
  intros dbg j zi P H ZI NZ HZ. destruct (jac_exists _ _ H) as (A & -> & HA).
  assert (NF : fe zi <> f0) by (intros E0; apply NZ; apply (proj1 (fe_eq zi f0)) in E0; exact E0).
  assert (V : j_inf j = false -> (fe (j_z j) * f1 * fe zi = f1)%F).
  { intros I. assert (N : sp A <> Inf) by (intros E0; apply sp_inf in E0; apply (proj2 (jok_inf _ _ _ HA)) in E0; congruence).
    specialize (HZ N). unfold fe. replace (toF (fv (j_z j)) * f1 * toF (fv zi))%F with (toF (fv (j_z j)) * toF (fv zi))%F by ring.
    rewrite <- toF_mul. apply val_inj. rewrite val_toF, HZ. vmr. }
  destruct (wp_ex _ _ (af_set_gej_zinv_ok dbg f1 f1 (fe zi) j zi A HA (fok_frep _ _ ZI) NF V)) as (r & -> & H1 & _).
  exists r. split; [reflexivity|]. apply aff_aok, H1.
Qed.
Lemma C50_set_gej_zinv_example_pf : exists j zi, jac_at j G /\ fok 6 zi /\ fv zi mod p <> 0 /\ (fv (j_z j) * fv zi) mod p = 1.
Proof.
  exists JG, FE1. split; [exact JG_at|]. split; [apply (fcrep_ok _ _ 6 fcrep_FE1); lia|]. split; [vm_compute; discriminate | vm_compute; reflexivity].
Qed.
Lemma Forall2_sp {X} (R : X -> point -> Prop) (S : X -> E -> Prop) l Ps : (forall x P, R x P -> exists A, P = sp A /\ S x A) -> Forall2 R l Ps ->
  exists As, Ps = map sp As /\ Forall2 S l As.
Proof.
  intros H. induction 1 as [|x P l Ps HX _ (As & -> & IH)]; [exists []; split; [reflexivity | constructor]|].
  destruct (H _ _ HX) as (A & -> & HA). exists (A :: As). split; [reflexivity | constructor; assumption].
Qed.
Lemma Forall2_map_r {X Y Y'} (R : X -> Y' -> Prop) (f : Y -> Y') l m : Forall2 (fun x y => R x (f y)) l m -> Forall2 R l (map f m).
Proof. induction 1; cbn; constructor; assumption. Qed.
(** Batch conversion, any length, any mixture of finite points and infinity. *)
Lemma C50_set_all_gej_var_pf : forall dbg js Ps, Forall2 jac_at js Ps -> exists r, set_all_gej_var dbg js = Some r /\ Forall2 (aff_at 1) r Ps.
Proof.
  intros dbg js Ps H. destruct (Forall2_sp _ (jok f1) _ _ jac_exists H) as (As & -> & HA).
  destruct (wp_ex _ _ (set_all_gej_var_ok dbg _ _ HA)) as (r & -> & H1). exists r. split; [reflexivity|].
  apply Forall2_map_r. eapply Forall2_impl'; [|exact H1]. intros a A HK. apply aff_aok, HK.
Qed.
Lemma C50_set_all_gej_var_example_pf : exists j, Forall2 jac_at [j; j_set_infinity; j] [G; Inf; G].
Proof. destruct J_ex as [j J]. exists j. destruct C49_double_example_pf as [_ I]. exact (Forall2_cons _ _ J (Forall2_cons _ _ I (Forall2_cons _ _ J (Forall2_nil _)))). Qed.
(** Batch inversion, any length. *)
Lemma C50_inv_all_var_pf : forall dbg fs, Forall (fun f => fok 6 f /\ fv f mod p <> 0) fs ->
  exists r, inv_all_var dbg fs = Some r /\ Forall2 (fun g f => fok 1 g /\ (fv g * fv f) mod p = 1) r fs.
Proof.
  intros dbg fs H. assert (H1 : Forall2 (frep 6) fs (map fe fs) /\ Forall (fun e => e <> f0) (map fe fs)).
  { induction H as [|f fs [HF NZ] _ [IH1 IH2]]; [split; constructor|]. cbn [map]. split; constructor; try assumption; [apply fok_frep, HF|].
    intros E0. apply NZ. apply (proj1 (fe_eq f f0)) in E0. exact E0. }
  destruct (wp_ex _ _ (inv_all_var_ok dbg _ _ (proj1 H1) (proj2 H1))) as (r & -> & H2). exists r. split; [reflexivity|].
  clear H1. revert r H2. induction H as [|f fs [HF NZ] _ IH]; intros r H2.
  - inversion H2. constructor.
  - cbn [map] in H2. destruct r as [|g r]; [inversion H2|]. apply Forall2_inv in H2. destruct H2 as [[G1 G2] H2]. constructor; [|apply IH, H2]. split; [exact G1|].
    rewrite <- val_toF, toF_mul. change (toF (fv ?f)) with (fe f). rewrite G2.
    assert (NF : fe f <> f0) by (intros E0; apply NZ; apply (proj1 (fe_eq f f0)) in E0; exact E0).
    replace (finv (fe f) * fe f)%F with f1 by (field; exact NF). vmr.
Qed.
Lemma C50_inv_all_var_example_pf : Forall (fun f => fok 6 f /\ fv f mod p <> 0) [FE1; FE1].
Proof.
  assert (K : fok 6 FE1 /\ fv FE1 mod p <> 0) by (split; [apply (fcrep_ok _ _ 6 fcrep_FE1); lia | vm_compute; discriminate]). repeat constructor; apply K.
Qed.

(** Table conversion: [zr] holds the ratios of successive z coordinates. *)
Definition z_ratios (js : list jac) (zr : list field) : Prop := length zr = length js /\
  forall i a b z, nth_error js i = Some a -> nth_error js (S i) = Some b -> nth_error zr (S i) = Some z -> fok 6 z /\ (fv (j_z a) * fv z) mod p = fv (j_z b) mod p.
Lemma snoc_len {X} (l : list X) k : length l = S k -> exists l' x, l = l' ++ [x] /\ length l' = k.
Proof.
  intros H. destruct l as [|x l]; [discriminate H|]. destruct (exists_last (l := x :: l)) as (l' & y & E0); [discriminate|]. exists l', y. split; [exact E0|].
  rewrite E0, app_length in H. cbn in H. lia.
Qed.
Lemma nth_snoc {X} (l : list X) x : nth_error (l ++ [x]) (length l) = Some x.
Proof. rewrite nth_error_app2, Nat.sub_diag by lia. reflexivity. Qed.
Lemma Forall2_snoc {X Y} (R : X -> Y -> Prop) l m x y : Forall2 R (l ++ [x]) (m ++ [y]) -> Forall2 R l m /\ R x y.
Proof.
  intros H. apply Forall2_app_inv_l in H. destruct H as (l1 & l2 & H1 & H2 & E0). inversion H2 as [|? y' ? ? R1 R2]; subst. inversion R2; subst.
  apply app_inj_tail in E0. destruct E0 as [-> ->]. split; assumption.
Qed.
Lemma RC_rev k : forall js zr As, length js = k -> z_ratios js zr -> Forall2 (jok f1) js As -> Forall (fun A => A <> e0) As -> RC f1 (rev js) (rev zr) (rev As).
Proof.
  induction k as [|k IH]; intros js zr As L [LZ R] H N.
  - destruct js; [|discriminate L]. destruct zr; [|discriminate LZ]. inversion H. exact I.
  - destruct (snoc_len js k L) as (js' & a & -> & LJ). destruct (snoc_len zr k ltac:(lia)) as (zr' & z & -> & LZ').
    pose proof (Forall2_len _ _ _ H) as LA. destruct (snoc_len As k ltac:(lia)) as (As' & A & -> & LA').
    apply Forall2_snoc in H. destruct H as [H HA]. apply Forall_app in N. destruct N as [N NA]. inversion NA as [|? ? NA1 _]; subst. rewrite !rev_app_distr. cbn [rev app RC].
    split; [exact HA|]. split; [destruct (j_inf a) eqn:I; [elim NA1; apply (jok_inf _ _ _ HA); exact I | reflexivity]|]. split.
    + destruct (rev js') as [|b rb] eqn:ER; [exact I|]. assert (EJ : js' = rev rb ++ [b]) by (rewrite <- (rev_involutive js'), ER; reflexivity).
      destruct (R (length (rev rb)) b a z) as [RZ RV].
      * rewrite EJ, nth_error_app1, nth_snoc by (rewrite app_length; cbn; lia). reflexivity.
      * replace (S (length (rev rb))) with (length js') by (rewrite EJ, app_length; cbn; lia). apply nth_snoc.
      * replace (S (length (rev rb))) with (length zr') by (rewrite LZ', EJ, app_length; cbn; lia). apply nth_snoc.
      * exists (fe z). split; [apply fok_frep, RZ|]. unfold fe. rewrite <- toF_mul. apply toF_eq. exact RV.
    + apply IH; [reflexivity | | exact H | exact N]. split; [exact LZ'|]. intros i a1 b1 z1 N1 N2 N3. apply (R i); [rewrite nth_error_app1; [exact N1|] | rewrite nth_error_app1; [exact N2|] | rewrite nth_error_app1; [exact N3|]]; apply nth_error_Some; congruence.
Qed.
Lemma pre_table_of js zr As : As <> [] -> z_ratios js zr -> Forall2 (jok f1) js As -> Forall (fun A => A <> e0) As -> pre_table f1 js zr As.
Proof.
  intros NE R H N. pose proof (RC_rev _ js zr As eq_refl R H N) as C. unfold pre_table. pose proof (Forall2_len _ _ _ (Forall2_rev _ _ _ H)) as L.
  destruct (rev As) as [|A lA] eqn:EA. { elim NE. rewrite <- (rev_involutive As), EA. reflexivity. }
  destruct (rev js) as [|a ra] eqn:EJ; [discriminate L|]. pose proof C as C'. destruct (rev zr); [destruct C'|]. destruct C' as (J & I & _).
  exists a, a, ra, lA, A. split; [reflexivity|]. split; [reflexivity|]. split; [exact C|]. split; [exact J|]. split; [exact I|]. split; [reflexivity|]. split; [reflexivity|]. ring.
Qed.
Lemma fins js Ps : Forall2 jac_at js Ps -> Forall (fun P => P <> Inf) Ps -> exists As, Ps = map sp As /\ Forall2 (jok f1) js As /\ Forall (fun A => A <> e0) As.
Proof.
  intros H N. destruct (Forall2_sp _ (jok f1) _ _ jac_exists H) as (As & -> & HA). exists As. split; [reflexivity|]. split; [exact HA|].
  clear - N. induction As; cbn [map] in N; [constructor|]. inversion N as [|? ? N1 N2]; subst. constructor; [|apply IHAs, N2]. intros ->. apply N1. reflexivity.
Qed.
Lemma C50_set_table_gej_var_pf : forall dbg js zr Ps, Forall2 jac_at js Ps -> Forall (fun P => P <> Inf) Ps -> z_ratios js zr ->
  exists t, set_table_gej_var dbg js zr = Some t /\ Forall2 key_at t Ps.
Proof.
  intros dbg js zr Ps H N R. destruct (fins _ _ H N) as (As & -> & HA & NA). destruct As as [|A As].
  - inversion HA. exists []. split; [reflexivity | constructor].
  - assert (N1 : f1 <> f0) by exact f1_neq_f0. assert (NE : A :: As <> []) by discriminate. destruct (wp_ex _ _ (set_table_gej_var_ok dbg f1 js zr (A :: As) N1 (pre_table_of _ _ _ NE R HA NA))) as (t & -> & T).
    exists t. split; [reflexivity|]. apply Forall2_map_r. eapply Forall2_impl'; [|exact T]. intros a B [K _]. apply key_aok, K.
Qed.
(** Conversion to a common z: entry i and the returned z are Jacobian coordinates of point i. *)
Lemma C50_globalz_set_table_gej_pf : forall dbg js zr Ps, js <> [] -> Forall2 jac_at js Ps -> Forall (fun P => P <> Inf) Ps -> z_ratios js zr ->
  exists t z, globalz_set_table_gej dbg js zr = Some (t, z) /\ Forall2 (fun a P => af_inf a = false /\ jac_at (Ja (af_x a) (af_y a) z false) P) t Ps.
Proof.
  intros dbg js zr Ps NE H N R. destruct (fins _ _ H N) as (As & -> & HA & NA). assert (NE' : As <> []) by (intros ->; inversion HA; subst; apply NE; reflexivity).
  assert (N1 : f1 <> f0) by exact f1_neq_f0.
  destruct (wp_ex _ _ (globalz_set_table_gej_ok dbg f1 js zr As N1 (eq_sym (proj1 R)) (pre_table_of _ _ _ NE' R HA NA))) as ([t z] & -> & v & NV & [Z V] & T).
  exists t, z. split; [reflexivity|]. apply Forall2_map_r. eapply Forall2_impl'; [|exact T]. intros a B [K I]. split; [exact I|]. apply jac_jok. destruct K as (X & Y & K). rewrite I in K.
  split; [exact X|]. split; [exact Y|]. split; [exact Z|]. cbn [j_inf j_x j_y j_z]. rewrite V. replace (v * f1)%F with v by ring. exact K.
Qed.
Lemma C50_set_table_gej_var_example_pf : exists js zr, js <> [] /\ Forall2 jac_at js [G; G] /\ Forall (fun P => P <> Inf) [G; G] /\ z_ratios js zr.
Proof.
  exists [JG; JG], [FE1; FE1]. pose proof JG_at as J. split; [discriminate|]. split; [exact (Forall2_cons _ _ J (Forall2_cons _ _ J (Forall2_nil _)))|].
  split; [repeat constructor; discriminate|]. split; [reflexivity|]. intros [|i] a b z H1 H2 H3; [|destruct i; discriminate H2]. cbn [nth_error] in H1, H2, H3. apply Some_inv in H1, H2, H3. subst a b z.
  split; [apply (fcrep_ok _ _ 6 fcrep_FE1); lia | vm_compute; reflexivity].
Qed.
Lemma C50_globalz_set_table_gej_example_pf : exists js zr, js <> [] /\ Forall2 jac_at js [G; G] /\ Forall (fun P => P <> Inf) [G; G] /\ z_ratios js zr.
Proof. exact C50_set_table_gej_var_example_pf. Qed.

(** * C51, C52, C53 *)
(** na*P + ng*G for all scalars and every finite point. *)
Lemma C51_ecmult_pf : forall dbg ctx j P na ng, verify_ctx ctx -> jac_at j P -> P <> Inf -> 0 <= na < n -> 0 <= ng < n ->
  exists r, ecmult dbg ctx j (scalar_of na) (scalar_of ng) = Some r /\ jac_at r (padd (smul na P) (smul ng G)).
Proof.
  intros dbg ctx j P na ng HC HJ N HA HG. apply verify_ctx_ok in HC. destruct (jac_exists _ _ HJ) as (A & -> & JA).
  assert (NA : A <> e0) by (intros ->; apply N; reflexivity).
  destruct (wp_ex _ _ (ecmult_ok dbg ctx j A na ng HC JA NA HA HG)) as (r & -> & R). exists r. split; [reflexivity|].
  rewrite smul_sp, smul_G, <- sp_add by lia. apply jac_jok, R.
Qed.
Lemma C51_ecmult_example_pf : (exists ctx, ecmult_context_new true = Some ctx /\ verify_ctx ctx) /\ (exists j, jac_at j G) /\ 0 <= 0 < n /\ 0 <= n - 1 < n.
Proof.
  nlt. split; [|split; [exact J_ex | lia]]. destruct (wp_ex _ _ (ecmult_context_new_ok true)) as (c & HE0 & HC). exists c. split; [exact HE0 | apply verify_ctx_ok, HC].
Qed.
(** k*P for all scalars k (0, 1, n-1 included) and every finite point. *)
Lemma C52_ecmult_const_pf : forall dbg a P k, key_at a P -> P <> Inf -> 0 <= k < n -> exists r, ecmult_const dbg a (scalar_of k) = Some r /\ jac_at r (smul k P).
Proof.
  intros dbg a P k HA N HK. destruct (key_exists _ _ HA) as (A & -> & AA). assert (NA : A <> e0) by (intros ->; apply N; reflexivity).
  destruct (wp_ex _ _ (ecmult_const_ok dbg a A k AA NA HK)) as (r & -> & R). exists r. split; [reflexivity|].
  rewrite smul_sp by lia. apply jac_jok, R.
Qed.
Lemma C52_ecmult_const_example_pf : key_at AFFINE_G G /\ G <> Inf /\ 0 <= 0 < n /\ 0 <= n - 1 < n.
Proof. nlt. split; [exact G_key|]. split; [discriminate | lia]. Qed.
(** k*G, whatever the blinding and the row offsets of the context. *)
Lemma C53_ecmult_gen_pf : forall dbg ctx k, gen_ctx ctx -> 0 <= k < n -> exists r, ecmult_gen dbg ctx (scalar_of k) = Some r /\ jac_at r (smul k G).
Proof.
  intros dbg ctx k HC HK. apply gen_ctx_ok in HC. destruct (wp_ex _ _ (ecmult_gen_ok dbg ctx k HC HK)) as (r & -> & R). exists r. split; [reflexivity|].
  rewrite smul_G by lia. apply jac_jok, R.
Qed.
Lemma C53_ecmult_gen_example_pf : exists ctx, ecmult_gen_context_new true = Some ctx /\ gen_ctx ctx.
Proof. destruct (wp_ex _ _ (ecmult_gen_context_new_ok true)) as (c & HE0 & HC). exists c. split; [exact HE0 | apply gen_ctx_ok, HC]. Qed.
(** Re-blinding: changing the blinding scalar from b to b' and the initial point I to I + (b - b')*G gives another correct context. *)
Lemma C53_reblind_pf : forall prec ini ini' b b' P, gen_ctx (GCtx prec (scalar_of b) ini) -> 0 <= b < n -> 0 <= b' < n ->
  jac_loose ini P -> jac_at ini' (padd P (smul ((b - b') mod n) G)) -> gen_ctx (GCtx prec (scalar_of b') ini').
Proof.
  intros prec ini ini' b b' P HC HB HB' HP HJ. nlt. pose proof (Z.mod_pos_bound (b - b') n ltac:(lia)) as MB.
  destruct HC as (b0 & Q & Bs & EB & HB0 & HQ & LB & ON & LP & RW & SUM). apply scalar_of_inj in EB; [|lia | lia]. subst b0.
  assert (OQ : on_curve Q) by apply HQ. assert (OP : on_curve P) by apply HP.
  assert (P = Q).
  { destruct (sp_surj _ OP) as [A <-], (sp_surj _ OQ) as [B <-]. apply jac_loose_jlok in HP, HQ. f_equal. destruct HP as (_ & _ & _ & HP), HQ as (_ & _ & _ & HQ).
    destruct (j_inf ini); [congruence|]. destruct HP as [_ HP], HQ as [_ HQ]. apply pt_inj. congruence. }
  subst Q. exists b', (padd P (smul ((b - b') mod n) G)), Bs.
  pose proof HJ as (X & Y & Z & O & M). split; [reflexivity|]. split; [exact HB'|]. split; [|split; [exact LB|]; split; [exact ON|]; split; [exact LP|]; split; [exact RW|]].
  - split; [left; exact X|]. split; [left; exact Y|]. split; [exact Z|]. split; [exact O | exact M].
  - destruct (on_list _ ON) as (l & ->). rewrite <- sp_sum in *. destruct (sp_surj _ OP) as [A <-]. rewrite !smul_G, <- !sp_opp, <- !sp_add in * by lia. f_equal.
    apply sp_inj in SUM. rewrite emul_mod_G, (eadd_comm A), <- eadd_assoc, SUM, <- !emul_opp, <- emul_add. f_equal. ring.
Qed.
Lemma jac_of_point P : on_curve P -> exists j, jac_at j P.
Proof.
  intros O. destruct (proj1 C56_cyclic_pf P O) as (k & Hk & -> & _). destruct C53_ecmult_gen_example_pf as (c & _ & HC).
  destruct (C53_ecmult_gen_pf true c k HC Hk) as (r & _ & R). exists r. exact R.
Qed.
Lemma C53_reblind_example_pf : exists prec b ini ini' P, gen_ctx (GCtx prec (scalar_of b) ini) /\ 0 <= b < n /\ 0 <= 1 < n /\ jac_loose ini P /\
  jac_at ini' (padd P (smul ((b - 1) mod n) G)).
Proof.
  nlt. destruct C53_ecmult_gen_example_pf as ([prec blind ini] & _ & HC). pose proof HC as (b & P & Bs & -> & HB & HP & _).
  assert (O : on_curve P) by apply HP. destruct (jac_of_point (padd P (smul ((b - 1) mod n) G))) as [j J].
  { apply padd_on; [exact O|]. apply C56_cyclic_pf. apply Z.mod_pos_bound. lia. }
  exists prec, b, ini, j, P. split; [exact HC|]. split; [exact HB|]. split; [split; vm_compute; first [reflexivity | discriminate]|]. split; [exact HP | exact J].
Qed.

(** * C54 *)
(** Both contexts can be built, without a panic, in both build modes, and hold the right points. *)
Lemma C54_contexts_pf : forall dbg, (exists c, ecmult_context_new dbg = Some c /\ verify_ctx c) /\ (exists c, ecmult_gen_context_new dbg = Some c /\ gen_ctx c).
Proof.
  intros dbg. split.
  - destruct (wp_ex _ _ (ecmult_context_new_ok dbg)) as (c & HE0 & HC). exists c. split; [exact HE0 | apply verify_ctx_ok, HC].
  - destruct (wp_ex _ _ (ecmult_gen_context_new_ok dbg)) as (c & HE0 & HC). exists c. split; [exact HE0 | apply gen_ctx_ok, HC].
Qed.
Lemma C54_gen_initial_pf : exists b, GEN_BLIND = scalar_of b /\ 0 <= b < n /\ jac_loose GEN_INITIAL (pneg (smul b G)).
Proof.
  exists OrderCert.blind_val. split; [exact GEN_BLIND_of|]. assert (R : 0 <= OrderCert.blind_val < n) by (split; [vm_compute; discriminate | vm_compute; reflexivity]). split; [exact R|].
  rewrite smul_G, <- sp_opp by lia. apply jac_loose_jlok, GEN_INITIAL_ok.
Qed.
(** The table of odd multiples of any finite point, of any size. *)
Lemma C54_odd_multiples_pf : forall dbg k j P, jac_at j P -> P <> Inf -> 2 * Z.of_nat k < n - 2 -> k <> 0%nat ->
  exists t, odd_multiples_table_storage_var dbg k j = Some t /\ length t = k /\ forall i s, nth_error t i = Some s -> stored_at s (smul (2 * Z.of_nat i + 1) P).
Proof.
  intros dbg k j P HJ N LK NK. destruct (jac_exists _ _ HJ) as (A & -> & JA). assert (NA : A <> e0) by (intros ->; apply N; reflexivity).
  destruct (wp_ex _ _ (table_storage_ok dbg k j A JA NA LK NK)) as (t & -> & T). exists t. split; [reflexivity|].
  pose proof (Forall2_len _ _ _ T) as L. rewrite odds_len in L. split; [exact L|]. intros i s NS. pose proof (nth_some_lt _ _ _ NS).
  assert (NO : nth_error (odds A k 1) i = Some (emul (1 + 2 * Z.of_nat i) A)) by (apply odds_nth; lia).
  pose proof (Forall2_nth_both _ _ _ T _ _ _ NS NO) as K. apply stored_asok in K. rewrite sp_mul in K by lia. replace (2 * Z.of_nat i + 1) with (1 + 2 * Z.of_nat i) by ring. exact K.
Qed.
Lemma C54_odd_multiples_example_pf : (exists j, jac_at j G) /\ G <> Inf /\ 2 * Z.of_nat 8 < n - 2.
Proof. split; [exact J_ex|]. split; [discriminate | vm_compute; reflexivity]. Qed.

(** * C55 *)
(** The value of a digit list in base [B], least significant first. *)
Fixpoint digits_val (B : Z) (l : list Z) : Z := match l with [] => 0 | d :: t => d + B * digits_val B t end.
Lemma digits_val_wsum B l : digits_val B l = wsum B l. Proof. induction l; cbn; congruence. Qed.
(** Width 2 to 30 in every build, width 31 in release builds: digits zero or odd, of absolute value below 2^(w-1), at least w positions apart,
    none at or above the returned length, and representing the scalar modulo n. *)
Lemma C55_wnaf_pf : forall dbg a w, 0 <= a < n -> 2 <= w <= 31 -> (w = 31 -> dbg = false) ->
  exists l bits, ecmult_wnaf dbg 256 (scalar_of a) w = Some (l, bits) /\ length l = 256%nat /\ 0 <= bits <= 256 /\
    digits_val 2 l mod n = a /\ (forall i, bits <= Z.of_nat i -> nth i l 0 = 0) /\
    (forall i, nth i l 0 = 0 \/ (nth i l 0 mod 2 = 1 /\ Z.abs (nth i l 0) < 2 ^ (w - 1))) /\
    (forall i j, (i < j)%nat -> nth i l 0 <> 0 -> nth j l 0 <> 0 -> Z.of_nat i + w <= Z.of_nat j).
Proof.
  intros dbg a w HA HW H31. destruct (wp_ex _ _ (ecmult_wnaf_ok dbg a w HA HW H31)) as ([l bits] & HE0 & L & B & S & Z0 & D & SP).
  exists l, bits. split; [exact HE0|]. split; [lia|]. split; [exact B|]. rewrite digits_val_wsum, S, Z.mod_small by exact HA. split; [reflexivity|].
  assert (DG : forall i, digit l (Z.of_nat i) = nth i l 0) by (intros i; unfold digit; rewrite Nat2Z.id; reflexivity).
  split; [|split].
  - intros i Hi. rewrite <- DG. apply Z0, Hi.
  - intros i. rewrite <- DG. destruct (D (Z.of_nat i) ltac:(lia)) as [K|[K1 K2]]; [left; exact K | right; split; [exact K1 | lia]].
  - intros i j Hij. rewrite <- !DG. apply SP. lia.
Qed.
Lemma C55_wnaf_example_pf : 0 <= n - 1 < n /\ 2 <= 5 <= 31 /\ (5 = 31 -> true = false).
Proof. nlt. lia. Qed.
(** Width 31 passes the entry assertion but overflows an i32 in debug builds. *)
Lemma C55_wnaf_31_refuted_pf : exists a, 0 <= a < n /\ ecmult_wnaf true 256 (scalar_of a) 31 = None.
Proof. exists (2 ^ 30 + 1). split; [split; [vm_compute; discriminate | vm_compute; reflexivity] | vm_compute; reflexivity]. Qed.
(** The constant-time recoding: 65 odd digits of absolute value at most 15 in base 16, representing scalar + skew modulo n. *)
Lemma C55_wnaf_const_pf : forall dbg a, 0 <= a < n -> exists l skew, ecmult_wnaf_const dbg 65 (scalar_of a) 4 = Some (l, skew) /\ length l = 65%nat /\
  (skew = 1 \/ skew = 2) /\ Forall (fun d => d mod 2 = 1 /\ -15 <= d <= 15) l /\ digits_val 16 l mod n = (a + skew) mod n.
Proof.
  intros dbg a HA. destruct (wp_ex _ _ (ecmult_wnaf_const_ok dbg a HA)) as ([l skew] & HE0 & L & SK & D & _ & S).
  exists l, skew. split; [exact HE0|]. split; [lia|]. split; [exact SK|]. rewrite digits_val_wsum. split; [|exact S].
  apply Forall_forall. intros d HIn. apply (In_nth _ _ 0) in HIn. destruct HIn as (i & Hi & <-). destruct (D (Z.of_nat i) ltac:(lia)) as [K1 K2].
  unfold digit in *. rewrite Nat2Z.id in *. split; [exact K1 | lia].
Qed.
Lemma C55_wnaf_const_example_pf : 0 <= 0 < n /\ 0 <= (n - 1) / 2 < n.
Proof. split; split; vm_compute; first [reflexivity | discriminate]. Qed.
