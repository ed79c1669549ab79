(** Coordinate predicates, rescaling, composition of tweaks, equal keys, and complete round trips. *)
From Coq Require Import Znumtheory Field Zdiv Permutation.
From Verif Require Import Word MField MScalar MGroup MEcmult MEcdsa MDer MApi WP FieldMul FieldNorm FieldZero Spec Fp Bits FieldOps FieldCodec Denote Curve Group Chain Order Jac JacOps Table Ecmult Lift Gen Key Ctx ApiScalar ApiDer ApiPub ApiGroup Ecdsa ApiEcdsa ApiKeys ApiArith.

Ltac small_ok := apply C44_contract_pf; unfold f_default; cbn [contract]; repeat apply conj; try lia; [repeat apply Forall_cons; try apply Forall_nil; lia | intros _; split; [lia | vmr]].
(** * C61 *)
(** Squares modulo p. *)
Definition square (v : Z) : Prop := exists s, (s * s) mod p = v mod p.
Lemma sp_aff A x y : pt A = FAff x y -> sp A = Aff (val x) (val y).
Proof. unfold sp. intros ->. reflexivity. Qed.
Lemma sp_aff_inv A x y : sp A = Aff x y -> exists fx fy, pt A = FAff fx fy /\ val fx = x /\ val fy = y.
Proof. unfold sp. destruct (pt A) as [|fx fy]; cbn; intros H; [discriminate|]. injection H as <- <-. eauto. Qed.
Lemma val_toF v : val (toF v) = v mod p. Proof. reflexivity. Qed.
Lemma square_toF y : square (val y) <-> exists s, (s * s = y)%F.
Proof.
  split.
  - intros [s S]. exists (toF s). rewrite <- toF_mul. rewrite <- (toF_val y). apply toF_eq. exact S.
  - intros [s S]. exists (val s). apply toF_eq. rewrite toF_mul, !toF_val. exact S.
Qed.
Lemma neg_square (y : F) : y <> f0 -> (exists s, (s * s = y)%F) -> (exists t, (t * t = - y)%F) -> False.
Proof.
  intros N [s S] [t T]. apply (m1_nonsquare (val (t / s)%F)). assert (NS : s <> f0) by (intros ->; apply N; rewrite <- S; ring).
  apply toF_eq. rewrite toF_mul, !toF_val. assert (E : (t / s * (t / s) = (t * t) / (s * s))%F) by (field; exact NS). rewrite E, T, S.
  replace (toF (-1)) with (- f1)%F by (apply val_inj; vm_compute; reflexivity). field. exact N.
Qed.
Lemma fsqrt_square x : (fsqrt x * fsqrt x = x)%F -> exists s, (s * s = fsqrt x)%F.
Proof.
  intros H. set (y := fsqrt x) in *. exists (fsqrt y). assert (E : y = fexp (y * y)%F ((p + 1) / 4)) by (rewrite H; reflexivity). rewrite E at 3. unfold fsqrt.
  symmetry. apply fexp_mul_l. vm_compute. discriminate.
Qed.
(** [set_xquad] succeeds iff some point has that x, and then gives the one whose y is a square; there is only one. *)
Lemma C61_set_xquad_pf : forall dbg x, fok 8 x -> exists a ok, af_set_xquad dbg x = Some (a, ok) /\
  (ok = true <-> exists y, on_curve (Aff (fv x mod p) y)) /\
  (ok = true -> exists y, aff_at 8 a (Aff (fv x mod p) y) /\ square y /\ forall y', on_curve (Aff (fv x mod p) y') -> square y' -> y' = y).
Proof.
  intros dbg x X. destruct (wp_ex _ _ (af_set_xquad_ok dbg x _ (fok_frep _ _ X))) as ([a ok] & -> & v & y & -> & V & Y & ->). exists (Af x v false). eexists. split; [reflexivity|].
  set (e := fe x) in *. assert (VE : val e = fv x mod p) by (unfold e, fe; apply val_toF). rewrite <- VE.
  assert (ON : forall y', on_curve (Aff (val e) y') -> exists f, y' = val f /\ (f * f = curve_rhs e)%F).
  { intros y' O. pose proof O as (_ & R & _). exists (toF y'). split; [rewrite val_toF, Z.mod_small by exact R; reflexivity|]. apply onc_Aff in O; [|apply val_range | exact R]. rewrite toF_val in O. apply onc_eq in O. exact O. }
  destruct (feqb_spec (y * y)%F (curve_rhs e)) as [EQ|NE].
  - assert (CU : onc (FAff e y)) by (apply onc_eq; exact EQ). split.
    + split; [|reflexivity]. intros _. exists (val y). apply onc_spec in CU. exact CU.
    + intros _. exists (val y). split; [|split].
      * change (Aff (val e) (val y)) with (sp (mkE _ CU)). apply aff_aok. eapply aok_intro; [exact (fok_frep _ _ X) | eapply frep_mono; [exact V | lia] |]. apply jpt_affine. reflexivity.
      * apply square_toF. subst y. apply fsqrt_square. exact EQ.
      * intros y' O S. destruct (ON _ O) as (f & -> & Ef). apply square_toF in S. f_equal. assert (SY : exists s, (s * s = y)%F) by (subst y; apply fsqrt_square; exact EQ).
        assert (CF : onc (FAff e f)) by (apply onc_eq; exact Ef). destruct (same_x _ _ _ CU CF) as [K|K]; [symmetry; exact K|]. exfalso. assert (f = (- y)%F) by (apply fadd_eq0; rewrite <- K; ring). subst f. exact (neg_square y (no_torsion2 _ _ CU) SY S).
  - split; [|discriminate]. split; [discriminate|]. intros [y' O]. destruct (ON _ O) as (f & _ & Ef). destruct NE. subst y. exact (fsqrt_complete _ _ Ef).
Qed.
(** gx lifts, 5 does not. *)
Lemma C61_set_xquad_example_pf : fok 8 (af_x AFFINE_G) /\ on_curve (Aff (fv (af_x AFFINE_G) mod p) gy) /\ fok 8 (Fe 5 0 0 0 0 0 0 0 0 0 1 true) /\ ~ exists y, on_curve (Aff (fv (Fe 5 0 0 0 0 0 0 0 0 0 1 true) mod p) y).
Proof.
  assert (F5 : fok 8 (Fe 5 0 0 0 0 0 0 0 0 0 1 true)) by (small_ok).
  split; [apply C42_try_from_affine_example_pf|]. split; [vm_compute; repeat split; congruence|]. split; [exact F5|].
  destruct (C61_set_xquad_pf true _ F5) as (a & ok & E & H & _). intros K. apply H in K. subst ok. assert (B : match af_set_xquad true (Fe 5 0 0 0 0 0 0 0 0 0 1 true) with Some (_, ok) => ok | None => true end = false) by (vm_compute; reflexivity). rewrite E in B. discriminate B.
Qed.
(** [set_xo_var] succeeds iff some point has that x, and then gives the one whose y has the parity asked for. *)
Lemma C61_set_xo_var_pf : forall dbg x odd, fok 8 x -> exists a ok, af_set_xo_var dbg x odd = Some (a, ok) /\
  (ok = true <-> exists y, on_curve (Aff (fv x mod p) y)) /\
  (ok = true -> exists y, aff_at 8 a (Aff (fv x mod p) y) /\ y mod 2 = (if odd then 1 else 0)).
Proof.
  intros dbg x odd X. destruct (wp_ex _ _ (af_set_xo_var_ok dbg x _ 8 odd (fok_frep _ _ X) ltac:(lia))) as ([a ok] & -> & H & HT & HF). exists a, ok. split; [reflexivity|].
  set (e := fe x) in *. assert (VE : val e = fv x mod p) by (unfold e, fe; apply val_toF). rewrite <- VE. split.
  - rewrite H. split.
    + intros (A & y & PA & _). exists (val y). pose proof (sp_on A) as O. rewrite (sp_aff _ _ _ PA) in O. exact O.
    + intros [y O]. destruct (on_aff _ _ O) as (A & _ & PA & _). rewrite toF_val in PA. destruct (Bool.bool_dec (Z.odd (val (toF y))) odd) as [E|E]; [exists A, (toF y); auto|].
      exists (eopp A). exists (- toF y)%F. assert (CU : onc (FAff e (toF y))) by (pose proof (pt_on A) as CU; rewrite PA in CU; exact CU).
      split; [change (pt (eopp A)) with (fneg (pt A)); rewrite PA; reflexivity|]. rewrite fneg_odd by exact (no_torsion2 _ _ CU). destruct (Z.odd (val (toF y))), odd; try reflexivity; elim E; reflexivity.
  - intros K. destruct (HT K) as (A & (y & PA & O) & HA & _ & _). exists (val y). rewrite <- (sp_aff _ _ _ PA). split; [apply aff_aok, HA|]. rewrite Zmod_odd, O. reflexivity.
Qed.
Lemma C61_set_xo_var_example_pf : fok 8 (af_x AFFINE_G) /\ on_curve (Aff (fv (af_x AFFINE_G) mod p) gy) /\ gy mod 2 = 0.
Proof. split; [apply C42_try_from_affine_example_pf|]. vm_compute. repeat split; congruence. Qed.

(** * C62 *)
Lemma C62_eq_x_var_pf : forall dbg j x y f, jac_at j (Aff x y) -> fok 8 f -> j_eq_x_var dbg j f = Some (fv f mod p =? x).
Proof.
  intros dbg j x y f J F. destruct (jac_exists _ _ J) as (A & E & HA). symmetry in E. destruct (sp_aff_inv _ _ _ E) as (fx & fy & PA & <- & <-).
  destruct (wp_ex _ _ (j_eq_x_var_ok dbg j A f _ fx fy HA PA (fok_frep _ _ F))) as (b & -> & ->). unfold feqb, fe. rewrite val_toF. reflexivity.
Qed.
Lemma C62_eq_x_var_example_pf : exists j x y f, jac_at j (Aff x y) /\ fok 8 f /\ fv f mod p = x.
Proof. destruct C58_jacobian_neg_example_pf as [j J]. exists j, gx, gy, (af_x AFFINE_G). split; [exact J|]. split; [apply C42_try_from_affine_example_pf | vm_compute; reflexivity]. Qed.
(** Whether the affine y coordinate is a square; false for infinity. *)
Lemma C62_has_quad_y_var_pf : forall dbg j P, jac_at j P -> exists b, j_has_quad_y_var dbg j = Some b /\ (b = true <-> exists x y, P = Aff x y /\ square y).
Proof.
  intros dbg j P J. destruct (jac_exists _ _ J) as (A & -> & HA). destruct (wp_ex _ _ (j_has_quad_y_ok dbg j A HA)) as (b & -> & H). exists b. split; [reflexivity|]. rewrite H. split.
  - intros (X & Y & s & PA & S). exists (val X), (val Y). split; [exact (sp_aff _ _ _ PA)|]. apply square_toF. eauto.
  - intros (x & y & E & S). destruct (sp_aff_inv _ _ _ E) as (fx & fy & PA & <- & <-). apply square_toF in S. destruct S as [s S]. exists fx, fy, s. auto.
Qed.
Lemma C62_has_quad_y_var_example_pf : exists j, jac_at j (Aff gx gy) /\ jac_at (Ja f_default f_default f_default true) Inf.
Proof.
  destruct C58_jacobian_neg_example_pf as [j J]. exists j. split; [exact J|]. assert (F0 : fok 6 f_default) by (small_ok).
  split; [exact F0|]. split; [exact F0|]. split; [exact F0|]. split; [exact I | reflexivity].
Qed.
Lemma j_rescale_z dbg u a A s e : jok u a A -> fcrep s e -> e <> f0 -> wp (j_rescale dbg a s) (fun r => jok u r A /\ frep 1 (j_z r) (fe (j_z a) * e)%F).
Proof.
  intros H S N. pose proof H as (_ & _ & HZ & _). apply jok_elim in H. destruct H as (x & y & z & X & Y & Z & H). unfold j_rescale.
  eapply (wp_bind _ _ (fun _ => True)).
  { destruct dbg; [|exact Logic.I]. eapply wp_bind; [apply f_is_zero_rep; exact S|]. cbv beta. intros b ->.
    destruct (feqb_spec e f0); [contradiction|]. exact Logic.I. }
  intros _ _. do 5 fs. apply wp_some. rewrite (frep_fe _ _ _ Z). split; [|assumption].
  eapply jok_intro; [eassumption | eassumption | eassumption | lia | lia | lia |]. destruct (j_inf a); [exact H|].
  apply (jpt_scale e) in H; [|exact N]. eapply jpt_ext; [exact H | ring | ring | ring].
Qed.
(** Rescaling by a non-zero canonical factor keeps the point; the new z is z*s. *)
Lemma C62_rescale_pf : forall dbg j P s, jac_at j P -> fcan s -> fv s <> 0 -> exists r, j_rescale dbg j s = Some r /\ jac_at r P /\ fv (j_z r) mod p = (fv (j_z j) * fv s) mod p.
Proof.
  intros dbg j P s J S N. destruct (jac_exists _ _ J) as (A & -> & HA).
  assert (NF : fe s <> f0). { intros K. apply fe_eq in K. rewrite Z.mod_small in K by exact (fcan_range _ S). apply N. rewrite K. reflexivity. }
  destruct (wp_ex _ _ (j_rescale_z dbg f1 j A s (fe s) HA (conj S eq_refl) NF)) as (r & E & R & RZ). exists r. split; [exact E|]. split; [apply jac_jok, R|].
  destruct RZ as [_ RZ]. apply fe_eq in RZ. rewrite RZ. unfold fe. rewrite <- toF_mul. apply val_toF.
Qed.
Lemma C62_rescale_example_pf : exists j, jac_at j (Aff gx gy) /\ fcan (Fe 5 0 0 0 0 0 0 0 0 0 1 true) /\ fv (Fe 5 0 0 0 0 0 0 0 0 0 1 true) <> 0.
Proof.
  destruct C58_jacobian_neg_example_pf as [j J]. exists j. split; [exact J|]. split; [|vm_compute; discriminate]. split; [|reflexivity].
  small_ok.
Qed.
(** Doubling of a point known to be finite. *)
Lemma C62_double_nonzero_pf : forall dbg j x y, jac_at j (Aff x y) -> exists r, j_double_nonzero_in_place dbg j j = Some r /\ jac_at r (padd (Aff x y) (Aff x y)) /\ j_inf r = false.
Proof.
  intros dbg j x y J. destruct (jac_exists _ _ J) as (A & E & HA). rewrite E. pose proof J as (_ & _ & _ & _ & I & _).
  destruct (wp_ex _ _ (j_double_nonzero_ok dbg f1 j A HA I)) as (r & -> & R & RI). exists r. split; [reflexivity|]. rewrite <- sp_add. split; [apply jac_jok, R | exact RI].
Qed.
Lemma C62_double_nonzero_example_pf : exists j, jac_at j (Aff gx gy).
Proof. exact C58_jacobian_neg_example_pf. Qed.

(** * C63 *)
(** The two outcomes of a tweak cannot be told apart: same verdict, keys that compare equal. *)
Definition same_tweak (dbg : bool) (a b : option (pubkey * result unit)) : Prop :=
  exists k k' e, a = Some (k, e) /\ b = Some (k', e) /\ pk_eq dbg k k' = Some true.
Lemma eq_point dbg k1 k2 P1 P2 : key_at k1 P1 -> key_at k2 P2 -> P1 <> Inf -> P2 <> Inf -> pk_eq dbg k1 k2 = Some true -> P1 = P2.
Proof.
  intros K1 K2 N1 N2 E. destruct P1 as [|x1 y1], P2 as [|x2 y2]; try contradiction. destruct (C07_equality_pf dbg _ _ _ _ _ _ K1 K2) as (b & Eb & Hb & _). rewrite E in Eb. injection Eb as <-.
  destruct (proj1 Hb eq_refl) as [-> ->]. reflexivity.
Qed.
Lemma bool_same (b c : bool) (P : Prop) : (b = true <-> P) -> (c = true <-> P) -> b = c.
Proof. intros B C. destruct b, c; try reflexivity; exfalso; [pose proof (proj2 C (proj1 B eq_refl)) | pose proof (proj2 B (proj1 C eq_refl))]; discriminate. Qed.
Lemma tweak_add_same dbg dbg' ctx ctx' k k' P t : verify_ctx ctx -> verify_ctx ctx' -> key_at k P -> key_at k' P -> P <> Inf -> 0 <= t < n -> forall dbg0,
  same_tweak dbg0 (pk_tweak_add_assign dbg ctx k (scalar_of t)) (pk_tweak_add_assign dbg' ctx' k' (scalar_of t)).
Proof.
  intros C C' K K' N T dbg0. destruct (C34_public_tweak_add_pf dbg ctx k P t C K N T) as [A1 A2], (C34_public_tweak_add_pf dbg' ctx' k' P t C' K' N T) as [B1 B2].
  destruct (pt_dec (padd P (smul t G))) as [I0|N0].
  - exists k, k', (Err TweakOutOfRange). split; [exact (A1 I0)|]. split; [exact (B1 I0)|]. exact (key_same _ _ _ _ K K' N).
  - destruct (A2 N0) as (r & E & R), (B2 N0) as (r' & E' & R'). exists r, r', (Ok tt). split; [exact E|]. split; [exact E'|]. exact (key_same _ _ _ _ (key_mono _ _ R) (key_mono _ _ R') N0).
Qed.
Lemma tweak_mul_same dbg dbg' ctx ctx' k k' P t : verify_ctx ctx -> verify_ctx ctx' -> key_at k P -> key_at k' P -> P <> Inf -> 0 <= t < n -> forall dbg0,
  same_tweak dbg0 (pk_tweak_mul_assign dbg ctx k (scalar_of t)) (pk_tweak_mul_assign dbg' ctx' k' (scalar_of t)).
Proof.
  intros C C' K K' N T dbg0. destruct (C35_public_tweak_mul_pf dbg ctx k P t C K N T) as [A1 A2], (C35_public_tweak_mul_pf dbg' ctx' k' P t C' K' N T) as [B1 B2].
  destruct (Z.eq_dec t 0) as [I0|N0].
  - exists k, k', (Err TweakOutOfRange). split; [exact (A1 I0)|]. split; [exact (B1 I0)|]. exact (key_same _ _ _ _ K K' N).
  - destruct (A2 N0) as (r & E & R & NR), (B2 N0) as (r' & E' & R' & _). exists r, r', (Ok tt). split; [exact E|]. split; [exact E'|]. exact (key_same _ _ _ _ (key_mono _ _ R) (key_mono _ _ R') NR).
Qed.
(** Keys that compare equal are interchangeable in every operation, whatever the build and the (correct) context. *)
Lemma C63_equal_keys_pf : forall dbg k1 k2 P1 P2, key_at k1 P1 -> key_at k2 P2 -> P1 <> Inf -> P2 <> Inf -> pk_eq dbg k1 k2 = Some true -> forall dbg1 dbg2,
  (pk_serialize dbg1 k1 = pk_serialize dbg2 k2 /\ pk_serialize_compressed dbg1 k1 = pk_serialize_compressed dbg2 k2) /\
  (forall ctx1 ctx2 z r s, verify_ctx ctx1 -> verify_ctx ctx2 -> 0 <= z < n -> 0 <= r < n -> 0 <= s < n ->
     verify dbg1 ctx1 (scalar_of z) (Sig (scalar_of r) (scalar_of s)) k1 = verify dbg2 ctx2 (scalar_of z) (Sig (scalar_of r) (scalar_of s)) k2) /\
  (forall D d, 0 <= d < n -> shared_secret_new dbg1 D k1 (scalar_of d) = shared_secret_new dbg2 D k2 (scalar_of d)) /\
  (forall ctx1 ctx2 t, verify_ctx ctx1 -> verify_ctx ctx2 -> 0 <= t < n ->
     same_tweak dbg (pk_tweak_add_assign dbg1 ctx1 k1 (scalar_of t)) (pk_tweak_add_assign dbg2 ctx2 k2 (scalar_of t)) /\
     same_tweak dbg (pk_tweak_mul_assign dbg1 ctx1 k1 (scalar_of t)) (pk_tweak_mul_assign dbg2 ctx2 k2 (scalar_of t))) /\
  (forall ks ks' Ps Ps', Forall2 key_at ks Ps -> Forall2 key_at ks' Ps' -> Forall fin (Ps ++ Ps') -> same_result dbg (pk_combine dbg (ks ++ k1 :: ks')) (pk_combine dbg (ks ++ k2 :: ks'))).
Proof.
  intros dbg k1 k2 P1 P2 K1 K2 N1 N2 E dbg1 dbg2. pose proof (eq_point _ _ _ _ _ K1 K2 N1 N2 E) as EP. subst P2. clear E N2. split; [|split; [|split; [|split]]].
  - destruct P1 as [|x y]; [contradiction|]. destruct (C06_serialize_pf dbg1 _ _ _ K1) as [-> ->], (C06_serialize_pf dbg2 _ _ _ K2) as [-> ->]. split; reflexivity.
  - intros ctx1 ctx2 z r s H1 H2 Z R S. destruct (C22_verify_pf dbg1 ctx1 k1 P1 z r s H1 K1 N1 R S Z) as (b & -> & B), (C22_verify_pf dbg2 ctx2 k2 P1 z r s H2 K2 N1 R S Z) as (c & -> & C). f_equal. exact (bool_same _ _ _ B C).
  - intros D d HD. destruct (C37_ecdh_pf dbg1 D k1 P1 d K1 N1 HD) as [A1 A2], (C37_ecdh_pf dbg2 D k2 P1 d K2 N1 HD) as [B1 B2]. destruct (Z.eq_dec d 0) as [I0|N0]; [rewrite A1, B1 by exact I0; reflexivity|].
    destruct (A2 N0) as (x & y & S & ->), (B2 N0) as (x' & y' & S' & ->). rewrite S in S'. injection S' as <- <-. reflexivity.
  - intros ctx1 ctx2 t H1 H2 T. split; [exact (tweak_add_same _ _ _ _ _ _ _ _ H1 H2 K1 K2 N1 T dbg) | exact (tweak_mul_same _ _ _ _ _ _ _ _ H1 H2 K1 K2 N1 T dbg)].
  - intros ks ks' Ps Ps' L L' F. assert (F1 : Forall fin (Ps ++ P1 :: Ps')) by (apply Forall_app in F; destruct F as [F F']; apply Forall_app; split; [exact F | constructor; assumption]).
    apply (combine_same dbg _ (Ps ++ P1 :: Ps') _ (Ps ++ P1 :: Ps')); [apply Forall2_app; [exact L | constructor; assumption] | exact F1 | apply Forall2_app; [exact L | constructor; assumption] | exact F1 | reflexivity].
Qed.
(** Two different representations of G. *)
Lemma C63_equal_keys_example_pf : exists k, k <> AFFINE_G /\ key_at k G /\ key_at AFFINE_G G /\ G <> Inf /\ pk_eq true k AFFINE_G = Some true.
Proof.
  destruct (proj2 C06_serialize_example_pf) as (k & N & K). exists k. split; [exact N|]. split; [exact K|]. split; [exact G_key|]. split; [discriminate|]. exact (key_same _ _ _ true K G_key ltac:(discriminate)).
Qed.

(** * C64 *)
(** Two additive tweaks in a row act as their sum modulo n, errors included, unless the intermediate key is refused. *)
Lemma C64_add_add_pf : forall dbg dbg0 ctx ctx' k P t1 t2, verify_ctx ctx -> verify_ctx ctx' -> key_at k P -> P <> Inf -> 0 <= t1 < n -> 0 <= t2 < n -> padd P (smul t1 G) <> Inf ->
  exists k1, pk_tweak_add_assign dbg ctx k (scalar_of t1) = Some (k1, Ok tt) /\
    ((exists k2 k3, pk_tweak_add_assign dbg ctx k1 (scalar_of t2) = Some (k2, Ok tt) /\ pk_tweak_add_assign dbg0 ctx' k (scalar_of ((t1 + t2) mod n)) = Some (k3, Ok tt) /\ pk_eq dbg k2 k3 = Some true) \/
     (pk_tweak_add_assign dbg ctx k1 (scalar_of t2) = Some (k1, Err TweakOutOfRange) /\ pk_tweak_add_assign dbg0 ctx' k (scalar_of ((t1 + t2) mod n)) = Some (k, Err TweakOutOfRange))).
Proof.
  intros dbg dbg0 ctx ctx' k P t1 t2 C C' K N T1 T2 N1. pose proof n_pos as NP. destruct (proj2 (C34_public_tweak_add_pf dbg ctx k P t1 C K N T1) N1) as (k1 & E1 & K1). exists k1. split; [exact E1|].
  pose proof (Z.mod_pos_bound (t1 + t2) n ltac:(lia)) as TB. destruct (C34_public_tweak_add_pf dbg ctx k1 _ t2 C (key_mono _ _ K1) N1 T2) as [A1 A2], (C34_public_tweak_add_pf dbg0 ctx' k P _ C' K N TB) as [B1 B2].
  assert (E0 : padd (padd P (smul t1 G)) (smul t2 G) = padd P (smul ((t1 + t2) mod n) G)).
  { rewrite smulG_mod, <- smulG_add by lia. symmetry. apply padd_assoc; [exact (key_on _ _ K) | |]; (apply (proj1 (proj2 C56_cyclic_pf)); lia). }
  rewrite E0 in A1, A2. destruct (pt_dec (padd P (smul ((t1 + t2) mod n) G))) as [I0|N0]; [right; auto|]. left. destruct (A2 N0) as (k2 & E2 & K2), (B2 N0) as (k3 & E3 & K3).
  exists k2, k3. split; [exact E2|]. split; [exact E3|]. exact (key_same _ _ _ dbg (key_mono _ _ K2) (key_mono _ _ K3) N0).
Qed.
Lemma C64_add_add_example_pf : (exists ctx, verify_ctx ctx) /\ key_at AFFINE_G G /\ G <> Inf /\ 0 <= 1 < n /\ padd G (smul 1 G) <> Inf.
Proof. destruct C34_public_tweak_add_example_pf as (A & B & C & _ & D). split; [exact A|]. split; [exact B|]. split; [exact C|]. split; [vmr | exact D]. Qed.
(** Two multiplicative tweaks in a row act as their product modulo n. *)
Lemma C64_mul_mul_pf : forall dbg dbg0 ctx ctx' k P t1 t2, verify_ctx ctx -> verify_ctx ctx' -> key_at k P -> P <> Inf -> 1 <= t1 < n -> 1 <= t2 < n ->
  exists k1 k2 k3, pk_tweak_mul_assign dbg ctx k (scalar_of t1) = Some (k1, Ok tt) /\ pk_tweak_mul_assign dbg ctx k1 (scalar_of t2) = Some (k2, Ok tt) /\
    pk_tweak_mul_assign dbg0 ctx' k (scalar_of ((t1 * t2) mod n)) = Some (k3, Ok tt) /\ pk_eq dbg k2 k3 = Some true.
Proof.
  intros dbg dbg0 ctx ctx' k P t1 t2 C C' K N T1 T2. pose proof n_pos as NP. destruct (proj2 (C35_public_tweak_mul_pf dbg ctx k P t1 C K N ltac:(lia)) ltac:(lia)) as (k1 & E1 & K1 & N1).
  destruct (proj2 (C35_public_tweak_mul_pf dbg ctx k1 _ t2 C (key_mono _ _ K1) N1 ltac:(lia)) ltac:(lia)) as (k2 & E2 & K2 & N2).
  pose proof (Z.mod_pos_bound (t1 * t2) n ltac:(lia)) as TB. pose proof (key_on _ _ K) as O.
  destruct (C56_scalar_action_pf P t2 t1 O ltac:(lia) ltac:(lia)) as (_ & M & _ & _). destruct (C56_scalar_action_pf P (t1 * t2) 0 O ltac:(nia) ltac:(lia)) as (_ & _ & MM & _).
  rewrite (Z.mul_comm t2 t1) in M. rewrite <- M, <- MM in K2, N2.
  assert (NZ : (t1 * t2) mod n <> 0) by (intros Z0; rewrite Z0 in N2; apply N2; reflexivity).
  destruct (proj2 (C35_public_tweak_mul_pf dbg0 ctx' k P _ C' K N TB) NZ) as (k3 & E3 & K3 & _). exists k1, k2, k3. split; [exact E1|]. split; [exact E2|]. split; [exact E3|].
  exact (key_same _ _ _ dbg (key_mono _ _ K2) (key_mono _ _ K3) N2).
Qed.
Lemma C64_mul_mul_example_pf : (exists ctx, verify_ctx ctx) /\ key_at AFFINE_G G /\ G <> Inf /\ 1 <= n - 1 < n.
Proof. destruct C34_public_tweak_add_example_pf as (A & B & C & _). split; [exact A|]. split; [exact B|]. split; [exact C | vmr]. Qed.
(** A successful tweak is undone by the opposite tweak, or by the tweak by the inverse. *)
Lemma C64_undo_pf : forall dbg ctx k P t, verify_ctx ctx -> key_at k P -> P <> Inf -> 1 <= t < n ->
  (padd P (smul t G) <> Inf -> exists k1 k2, pk_tweak_add_assign dbg ctx k (scalar_of t) = Some (k1, Ok tt) /\ pk_tweak_add_assign dbg ctx k1 (scalar_of (n - t)) = Some (k2, Ok tt) /\ pk_eq dbg k2 k = Some true) /\
  (exists k1 i k2, pk_tweak_mul_assign dbg ctx k (scalar_of t) = Some (k1, Ok tt) /\ sk_inv dbg (scalar_of t) = Some i /\ pk_tweak_mul_assign dbg ctx k1 i = Some (k2, Ok tt) /\ pk_eq dbg k2 k = Some true).
Proof.
  intros dbg ctx k P t C K N T. pose proof n_pos as NP. pose proof (key_on _ _ K) as O. split.
  - intros N1. destruct (C64_add_add_pf dbg dbg ctx ctx k P t (n - t) C C K N ltac:(lia) ltac:(lia) N1) as (k1 & E1 & H). replace (t + (n - t)) with n in H by ring. rewrite Z.mod_same in H by lia.
    destruct (C34_public_tweak_add_pf dbg ctx k P 0 C K N ltac:(lia)) as [_ B]. rewrite smul_0, padd_inf_r in B. destruct (B N) as (k3 & E3 & K3). destruct H as [(k2 & k3' & E2 & E3' & Q)|[_ Q]]; [|rewrite E3 in Q; discriminate Q].
    rewrite E3 in E3'. injection E3' as <-. exists k1, k2. split; [exact E1|]. split; [exact E2|].
    destruct (C34_public_tweak_add_pf dbg ctx k1 (padd P (smul t G)) (n - t) C) as [A1 A2]; [|exact N1 | lia|].
    { destruct (proj2 (C34_public_tweak_add_pf dbg ctx k P t C K N ltac:(lia)) N1) as (k1' & E1' & K1). rewrite E1 in E1'. injection E1' as <-. exact (key_mono _ _ K1). }
    destruct (pt_dec (padd (padd P (smul t G)) (smul (n - t) G))) as [I0|N0]; [rewrite (A1 I0) in E2; discriminate E2|]. destruct (A2 N0) as (k2' & E2' & K2). rewrite E2 in E2'. injection E2' as <-.
    rewrite (eq_point dbg k2 k3 _ _ (key_mono _ _ K2) (key_mono _ _ K3) N0 N Q) in K2. exact (key_same _ _ _ dbg (key_mono _ _ K2) K N).
  - destruct (C33_secret_inv_pf dbg t T) as (i & EI & I & M & _). destruct (C64_mul_mul_pf dbg dbg ctx ctx k P t i C C K N T I) as (k1 & k2 & k3 & E1 & E2 & E3 & Q). rewrite (Z.mul_comm t i), M in E3.
    destruct (proj2 (C35_public_tweak_mul_pf dbg ctx k P 1 C K N ltac:(lia)) ltac:(lia)) as (k3' & E3' & K3 & _). rewrite E3 in E3'. injection E3' as <-. rewrite smul_1 in K3 by exact O.
    destruct (proj2 (C35_public_tweak_mul_pf dbg ctx k P t C K N ltac:(lia)) ltac:(lia)) as (k1' & E1' & K1 & N1). rewrite E1 in E1'. injection E1' as <-.
    destruct (proj2 (C35_public_tweak_mul_pf dbg ctx k1 _ i C (key_mono _ _ K1) N1 ltac:(lia)) ltac:(lia)) as (k2' & E2' & K2 & N2). rewrite E2 in E2'. injection E2' as <-.
    exists k1, (scalar_of i), k2. split; [exact E1|]. split; [exact EI|]. split; [exact E2|].
    rewrite (eq_point dbg k2 k3 _ _ (key_mono _ _ K2) (key_mono _ _ K3) N2 N Q) in K2. exact (key_same _ _ _ dbg (key_mono _ _ K2) K N).
Qed.
Lemma C64_undo_example_pf : (exists ctx, verify_ctx ctx) /\ key_at AFFINE_G G /\ G <> Inf /\ 1 <= 1 < n /\ padd G (smul 1 G) <> Inf.
Proof. destruct C34_public_tweak_add_example_pf as (A & B & C & _ & D). split; [exact A|]. split; [exact B|]. split; [exact C|]. split; [vmr | exact D]. Qed.

(** * C65 *)
(** From secret key and message to acceptance by a verifier who received the key, the message and the signature as byte strings, in any of their formats. *)
Lemma C65_pipeline_pf : forall dbg dbg' drbg fuel gctx vctx bk bm k m q g id, gen_ctx gctx -> verify_ctx vctx -> stream (drbg (sk_serialize k) (msg_serialize m)) ->
  length bk = 32%nat -> bytes bk -> length bm = 32%nat -> bytes bm ->
  sk_parse dbg bk = Some (Ok k) -> msg_parse dbg bm = Some m -> pk_from_secret_key dbg gctx k = Some q -> sign dbg drbg fuel gctx m k = Done (g, id) -> s_is_zero (sig_r g) = false ->
  exists full comp q1 q2 q3, pk_serialize dbg q = Some full /\ pk_serialize_compressed dbg q = Some comp /\
    pk_parse dbg' full = Some (Ok q1) /\ pk_parse_compressed dbg' comp = Some (Ok q2) /\
    sig_parse_standard dbg' (sig_serialize g) = Some (Ok g) /\ sig_parse_der dbg' (sig_serialize_der g) = Some (Ok g) /\ sig_parse_der_lax dbg' (sig_serialize_der g) = Some (Ok g) /\
    rid_parse (rid_serialize id) = Ok id /\ msg_parse dbg' bm = Some m /\
    verify dbg' vctx m g q1 = Some true /\ verify dbg' vctx m g q2 = Some true /\
    recover dbg' vctx m g id = Some (Ok q3) /\ pk_serialize dbg' q3 = Some full /\ pk_eq dbg' q3 q1 = Some true.
Proof.
  intros dbg dbg' drbg fuel gctx vctx bk bm k m q g id HG HV ST LK BK LM BM EK EM EQ ES NZ. pose proof n_pos as NP.
  pose proof (Z.mod_pos_bound (be_val bm) n ltac:(lia)) as MB. destruct (C10_message_parse_pf dbg bm LM BM) as [EM1 _]. rewrite EM in EM1. injection EM1 as ->.
  assert (EM2 := proj1 (C10_message_parse_pf dbg' bm LM BM)).
  assert (exists d, k = scalar_of d /\ 1 <= d < n) as (d & -> & D).
  { rewrite (C01_seckey_parse_pf dbg bk LK BK) in EK. destruct (Z.leb_spec 1 (be_val bk)), (Z.ltb_spec (be_val bk) n); try discriminate EK. injection EK as <-. exists (be_val bk). auto. }
  rewrite (proj1 (C02_seckey_roundtrip_pf dbg d D)), (proj2 (C10_message_parse_pf dbg bm LM BM)) in ST. set (z := be_val bm mod n) in *.
  destruct (C21_from_secret_key_pf dbg gctx d HG D) as (q' & EQ' & _ & KQ & NQ). rewrite EQ in EQ'. injection EQ' as <-.
  destruct (C28_low_s_pf dbg drbg fuel gctx d z g id HG ltac:(lia) MB ST ES) as (r & sg & EG & R & S & _). assert (S2 : 1 <= sg < n) by (split; [lia|]; eapply Z.le_lt_trans; [apply S | vmr]).
  destruct (C24_sign_recover_pf dbg dbg' drbg fuel gctx vctx d z g id HG HV D MB ST ES NZ) as (ID & q3 & E3 & K3 & _).
  destruct (smul d G) as [|x y] eqn:EP; [contradiction|]. destruct (C06_serialize_pf dbg q x y KQ) as [SF SC], (C06_serialize_pf dbg' q x y KQ) as [SF' SC'].
  destruct (C06_roundtrip_pf dbg' q x y KQ) as (b & c & q1 & q2 & F1 & F2 & F3 & _ & F4 & F5 & F6 & _). rewrite SF' in F1. injection F1 as <-. rewrite SC' in F4. injection F4 as <-.
  exists (sec1_full x y), (sec1_compressed x y), q1, q2, q3. split; [exact SF|]. split; [exact SC|]. split; [exact F2|]. split; [exact F5|].
  split; [rewrite EG; apply C08_sig_roundtrip_pf; lia|]. split; [rewrite EG; apply C13_parse_serialize_der_pf; lia|]. split; [rewrite EG; apply C16_lax_parses_canonical_pf; lia|].
  split; [unfold rid_parse, rid_serialize; destruct (Z.ltb_spec id 4); [reflexivity | lia]|]. split; [exact EM2|].
  rewrite <- EP in F3, F6. split; [exact (C23_sign_verify_pf dbg dbg' drbg fuel gctx vctx d z g id q1 HG HV D MB ST ES NZ F3)|]. split; [exact (C23_sign_verify_pf dbg dbg' drbg fuel gctx vctx d z g id q2 HG HV D MB ST ES NZ F6)|].
  split; [exact E3|]. rewrite EP in F3. split; [apply (C06_serialize_pf dbg' q3 x y K3)|]. exact (key_same _ _ _ dbg' K3 F3 ltac:(discriminate)).
Qed.
Lemma C65_pipeline_example_pf : exists drbg gctx vctx k m q g id, gen_ctx gctx /\ verify_ctx vctx /\ stream (drbg (sk_serialize k) (msg_serialize m)) /\ sk_parse true (be_bytes 32 1) = Some (Ok k) /\ msg_parse true (be_bytes 32 1) = Some m /\
  pk_from_secret_key true gctx k = Some q /\ sign true drbg 2 gctx m k = Done (g, id) /\ s_is_zero (sig_r g) = false.
Proof.
  destruct C23_sign_verify_example_pf as (drbg & gctx & g & id & HG & ST & ES & NZ). destruct (proj1 C51_ecmult_example_pf) as (vctx & _ & HV). assert (O : 1 <= 1 < n) by vmr.
  destruct (C21_from_secret_key_pf true gctx 1 HG O) as (q & EQ & _). exists drbg, gctx, vctx, (scalar_of 1), (scalar_of 1), q, g, id.
  destruct (C02_seckey_roundtrip_pf true 1 O) as [E1 E2]. rewrite E1 in E2. split; [exact HG|]. split; [exact HV|]. unfold msg_serialize. change s_b32 with sk_serialize. rewrite E1. split; [exact ST|]. split; [exact E2|].
  split; [vm_compute; reflexivity|]. split; [exact EQ|]. split; [exact ES | exact NZ].
Qed.
(** The keys recovered from one signature with different ids are different. *)
Lemma C26_distinct_ids_pf : forall dbg ctx k1 k2 z r s i j, verify_ctx ctx -> 0 <= z < n -> 0 <= r < n -> 0 <= s < n -> 0 <= i < 4 -> 0 <= j < 4 ->
  recover dbg ctx (scalar_of z) (Sig (scalar_of r) (scalar_of s)) i = Some (Ok k1) -> recover dbg ctx (scalar_of z) (Sig (scalar_of r) (scalar_of s)) j = Some (Ok k2) ->
  exists b, pk_eq dbg k1 k2 = Some b /\ (b = true <-> i = j).
Proof.
  intros dbg ctx k1 k2 z r s i j HC Z R S I J E1 E2. destruct (C25_recovered_verifies_pf dbg dbg ctx ctx z r s i k1 HC HC R S Z I E1) as ((x1 & y1 & K1) & V1), (C25_recovered_verifies_pf dbg dbg ctx ctx z r s j k2 HC HC R S Z J E2) as ((x2 & y2 & K2) & V2).
  destruct (C07_equality_pf dbg _ _ _ _ _ _ K1 K2) as (b & EB & HB & _). exists b. split; [exact EB|]. rewrite HB. split.
  - intros [-> ->]. destruct (C26_recovery_complete_pf dbg dbg ctx ctx z r s k1 _ HC HC R S Z K1 ltac:(discriminate) V1) as (id & _ & _ & U). rewrite (U i k1 I E1 K1), (U j k2 J E2 K2). reflexivity.
  - intros ->. rewrite E1 in E2. injection E2 as <-. pose proof (key_fun _ _ _ K1 K2) as E. injection E as <- <-. split; reflexivity.
Qed.
Lemma C26_distinct_ids_example_pf : exists ctx id k, verify_ctx ctx /\ 0 <= id < 4 /\ recover true ctx (scalar_of 0) (Sig (scalar_of gx) (scalar_of gx)) id = Some (Ok k).
Proof. exact C25_recovered_verifies_example_pf. Qed.
