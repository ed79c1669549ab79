(** Signing with a nonce chosen by the caller ([sign_raw]), and what a signature tells about its nonce and its key. *)
From Coq Require Import Znumtheory Field Zdiv.
From Verif Require Import Word MField MScalar MGroup MEcmult MEcdsa MDer MApi WP FieldMul FieldNorm FieldZero Spec Fp Bits FieldOps FieldCodec FieldStore ScalarMul ScalarOps ScalarMore ScalarBits Denote Unred Curve Group Chain Order Jac JacOps Table Ecmult Lift Gen Key Ctx ApiScalar ApiDer ApiPub ApiGroup Ecdsa ApiEcdsa ApiKeys ApiArith ApiMore ApiUnred.

Section B.
Variable dbg : bool.
(** an infinite result of [add_ge] has z = 0 *)
Lemma j_add_ge_z u a b A B : jokw dbg u a A -> aok 6 u b B -> af_inf b = false ->
  wp (j_add_ge dbg a b) (fun r => j_inf r = true -> fe (j_z r) = f0).
Proof.
  intros HA HB IB. unfold j_add_ge. apply wp_dassert; [rewrite IB; reflexivity|].
  apply aok_elim in HB. destruct HA as (x1 & y1 & z1 & X1 & Y1 & Z1 & HA). destruct HB as (x2 & y2 & X2 & Y2 & HB).
  unfold wok in X1, Y1.
  fs. eapply wp_bind; [exact X1|]. cbv beta. intros u1 U1. fs. eapply wp_bind; [exact Y1|]. cbv beta. intros s1 S1. do 9 fs.
  set (m := (y1 + y2 * (z1 * z1) * z1)%F) in *.
  match goal with K : ?bb = feqb m f0 |- _ => subst bb end.
  match goal with K : frep _ ?rf ?e |- context [f_normalizes_to_zero dbg ?rf] => set (rr := e) in * end.
  eapply (wp_bind _ _ (fun d => d = feqb m f0 && feqb rr f0)).
  { destruct (feqb m f0); [|reflexivity]. eapply wp_mono; [eapply f_normalizes_to_zero_rep; fr|]. cbv beta. intros d ->. reflexivity. }
  cbv beta. intros deg DEG. do 2 fs.
  eapply (wp_cmov 6); [fr | fr |]. intros ra RA. eapply (wp_cmov 6); [fr | fr |]. intros ma MA.
  do 3 fs. eapply (wp_cmov 2); [fr | fr |]. intros nn NN. do 3 fs. fs. do 4 fs. fs. do 8 fs.
  eapply (wp_cmov 6); [fr | fr |]. intros x3 X3. eapply (wp_cmov 6); [fr | fr |]. intros y3 Y3.
  eapply (wp_cmov 6); [fr | apply fcrep_frep; [exact fcrep_FE1 | lia] |]. intros z3 Z3.
  apply wp_some. cbn [j_inf j_z]. destruct (j_inf a); cbn [negb]; rewrite ?Bool.andb_false_r, ?Bool.andb_true_r; [discriminate|].
  match goal with Q : ?bb = feqb ?v f0 |- ?bb = true -> _ => rewrite Q; destruct (feqb_spec v f0) as [E|]; [|discriminate]; intros _; revert Z3; set (zz := v) in * end.
  intros Z3. rewrite (frep_fe _ _ _ Z3), E. ring.
Qed.
Lemma ecmult_gen_loop_z g : 0 <= g < 2 ^ 256 -> forall prec bs j adds r R, Forall2 (Forall2 asok) prec (grows bs j) -> 0 <= j ->
  j + Z.of_nat (length bs) = 64 -> jokw dbg f1 r R ->
  wp (ecmult_gen_loop dbg prec j (scalar_of g) adds r) (fun r' => (j_inf r = true -> fe (j_z r) = f0) \/ prec <> [] -> j_inf r' = true -> fe (j_z r') = f0).
Proof.
  intros HG. induction prec as [|row prec IH]; intros bs j adds r R HP J0 JL HR.
  - cbn [ecmult_gen_loop]. apply wp_some. intros [K|K]; [exact K | contradiction].
  - destruct bs as [|b bs]; [inversion HP|]. cbn [grows] in HP. apply Forall2_inv in HP. destruct HP as [HROW HREST]. cbn [ecmult_gen_loop].
    cbn [length] in JL. assert (J64 : j < 64) by lia.
    eapply wp_bind. { apply s_bits_ok; [apply scalar_of_u | lia | lia | lia | Z.to_euclidean_division_equations; lia]. }
    cbv beta. intros bits BITS. rewrite scalar_of_sv in BITS by exact HG. rewrite (Z.mul_comm j 4), Z.pow_mul_r in BITS by lia. change (2 ^ 4) with 16 in BITS.
    pose proof (Z.mod_pos_bound (g / 16 ^ j) 16 ltac:(lia)) as BB. rewrite <- BITS in BB.
    change (bind (Some ?x) ?f) with (f x). cbv beta.
    destruct (Forall2_nth _ _ _ HROW (Z.to_nat bits) (eadd b (emul bits (emul (16 ^ j) eG)))) as (a & NA & HA).
    { rewrite gpts_nth by lia. rewrite Z2Nat.id, Z.add_0_l by lia. reflexivity. }
    rewrite (gen_select_ok row 0 bits adds a) by (rewrite ?Z.sub_0_r; assumption || lia).
    destruct (af_from_storage_ok _ _ HA) as [AF AI]. pose proof (aok_mono _ 6 _ _ _ AF ltac:(lia)) as AF6.
    destruct (wp_ex _ _ (j_add_ge_ok dbg _ _ _ _ _ HR AF6 AI)) as (r1 & E1 & R1). pose proof (j_add_ge_z _ _ _ _ _ HR AF6 AI) as Z1.
    rewrite E1 in Z1 |- *. change (bind (Some ?x) ?f) with (f x). cbv beta. change (wp (Some ?x) ?P) with (P x) in Z1. cbv beta in Z1.
    eapply wp_mono; [apply (IH bs (j + 1) a r1 _ HREST ltac:(lia) ltac:(lia) (jok_w _ _ _ _ R1))|]. cbv beta. intros r2 R2 _. apply R2. left. exact Z1.
Qed.
Lemma ecmult_gen_z ctx k : gctx_ok ctx -> 0 <= k < 2 ^ 256 -> wp (ecmult_gen dbg ctx (scalar_of k)) (fun r => j_inf r = true -> fe (j_z r) = f0).
Proof.
  destruct ctx as [prec blind ini]. intros (b & I & bs & -> & HB & HI & LB & HP & SUM) HK. unfold ecmult_gen. pose proof n_lt as NL.
  rewrite s_add_any by lia. cbn [bind]. assert (RC : radd k b = radd b k) by (unfold radd; rewrite (Z.add_comm k b); reflexivity). rewrite RC.
  destruct (radd_mod b k HB HK) as [AR AM].
  eapply wp_mono; [apply (ecmult_gen_loop_z (radd b k) AR prec bs 0 as_default ini I HP); [lia | rewrite LB; reflexivity | exact (jlok_w dbg _ _ HI)]|].
  cbv beta. intros r R. assert (NE : prec <> []) by (intros ->; destruct bs; [discriminate LB | inversion HP]). exact (R (or_intror NE)).
Qed.
Lemma finv_0 : finv f0 = f0.
Proof. apply val_inj. vm_compute. reflexivity. Qed.
Lemma af_set_gej_x0 a A : jok f1 a A -> fe (j_z a) = f0 -> wp (af_set_gej dbg a) (fun r => frep 1 (af_x r) f0 /\ frep 1 (af_y r) f0).
Proof.
  intros H E. apply jok_elim in H. destruct H as (x & y & z & X & Y & Z & H). rewrite (frep_fe _ _ _ Z) in E. subst z. unfold af_set_gej. do 6 fs. apply wp_some. cbn [af_x af_y].
  replace f0 with (x * (finv f0 * finv f0))%F at 1 by (rewrite finv_0; ring). replace f0 with (y * (finv f0 * (finv f0 * finv f0)))%F at 3 by (rewrite finv_0; ring). split; assumption.
Qed.
End B.

(** * C82 *)
(** Whatever 256-bit integers are given, [sign_raw] works on their residues modulo n. A nonce that is 0 modulo n is refused: InvalidMessage, or a panic when assertions are on. *)
Lemma sign_raw_all dbg ctx d z k X Y : gctx_ok ctx -> 0 <= d < 2 ^ 256 -> 0 <= z < 2 ^ 256 -> 0 <= k < 2 ^ 256 -> 1 <= k mod n < n -> pt (emul (k mod n) eG) = FAff X Y ->
  sign_raw dbg ctx (scalar_of d) (scalar_of z) (scalar_of k) = sign_raw dbg ctx (scalar_of d) (scalar_of z) (scalar_of (k mod n)).
Proof.
  intros HC D Z K KN PT. pose proof n_lt as NL. pose proof n_pos as NP. pose proof pnx as (PN & _ & P2). rewrite (sign_raw_any dbg ctx d z (k mod n) X Y HC D Z KN PT). unfold sign_raw.
  destruct (wp_ex _ _ (ecmult_gen_any dbg ctx k HC K)) as (j & -> & J). change (bind (Some ?x) ?f) with (f x). cbv beta. rewrite <- emul_mod_G in J.
  destruct (wp_ex _ _ (af_set_gej_ok dbg j _ J)) as (a & -> & AA & AI). change (bind (Some ?x) ?f) with (f x). cbv beta.
  assert (I : af_inf a = false) by (rewrite AI; apply (jok_fin _ _ _ J); apply emul_nz; exact KN).
  destruct AA as (FX & FY & AP). rewrite I in AP. apply jpt_one in AP. rewrite PT in AP. apply FAff_inj in AP. destruct AP as [-> ->].
  set (x := fe (af_x a)) in *. set (y := fe (af_y a)) in *. pose proof (val_range x) as XR.
  assert (NX0 : val x <> 0) by (eapply x_neq0; exact PT).
  destruct (wp_ex _ _ (f_normalize_rep dbg (af_x a) x ltac:(eapply frep_mono; [apply fok_frep; exact FX | lia]))) as (rx & -> & RX). change (bind (Some ?x) ?f) with (f x). cbv beta.
  destruct (wp_ex _ _ (f_normalize_rep dbg (af_y a) y ltac:(eapply frep_mono; [apply fok_frep; exact FY | lia]))) as (ry & -> & RY). change (bind (Some ?x) ?f) with (f x). cbv beta.
  destruct (wp_ex _ _ (f_b32_rep dbg rx x RX)) as (b & -> & ->). change (bind (Some ?x) ?f) with (f x). cbv beta.
  destruct (be32_bytes (val x)) as [L B]. rewrite s_set_b32_eq by assumption. rewrite be32_val by lia. change (bind (Some ?x) ?f) with (f x). cbv beta iota.
  pose proof (Z.mod_pos_bound (val x) n ltac:(lia)) as MR. rewrite s_is_zero_eq by lia.
  assert (DA : forall T (o : option T), (dassert dbg (negb (val x mod n =? 0)) ;; dassert dbg (negb (n <=? val x)) ;; o) = if dbg && (n <=? val x) then None else o).
  { intros T o. unfold dassert. destruct dbg; [|reflexivity]. cbn [andb]. destruct (Z.leb_spec n (val x)) as [GE|LT]; cbn [negb].
    - destruct (val x mod n =? 0); reflexivity.
    - rewrite (Z.mod_small (val x)) by lia. destruct (Z.eqb_spec (val x) 0); [contradiction | reflexivity]. }
  rewrite DA. destruct (dbg && (n <=? val x)); [reflexivity|].
  destruct (wp_ex _ _ (f_is_odd_rep dbg ry y RY)) as (o & -> & ->). change (bind (Some ?x) ?f) with (f x). cbv beta. rewrite lor_id. cbv zeta.
  change (bind (Some ?x) ?f) with (f x). cbv beta. rewrite s_mul_eq by lia. change (bind (Some ?x) ?f) with (f x). cbv beta. pose proof (Z.mod_pos_bound (val x mod n * d) n ltac:(lia)) as MD.
  rewrite s_add_any by lia. change (bind (Some ?x) ?f) with (f x). cbv beta. destruct (radd_mod ((val x mod n * d) mod n) z ltac:(lia) ltac:(lia)) as [AR AM].
  pose proof (inv_n_rng k) as WR. rewrite s_inv_eq by lia. change (bind (Some ?x) ?f) with (f x). cbv beta.
  rewrite s_mul_eq by lia. change (bind (Some ?x) ?f) with (f x). cbv beta.
  assert (ES : (inv_mod n k * radd ((val x mod n * d) mod n) z) mod n = (inv_mod n (k mod n) * (val x mod n * d + z)) mod n).
  { rewrite <- inv_mod_red. rewrite <- Zmult_mod_idemp_r, AM, Zmult_mod_idemp_r. rewrite <- (Zmult_mod_idemp_r ((val x mod n * d) mod n + z)), Zplus_mod_idemp_l, Zmult_mod_idemp_r. reflexivity. }
  rewrite ES. unfold sign_val. cbv zeta. set (s := (inv_mod n (k mod n) * (val x mod n * d + z)) mod n).
  assert (SR : 0 <= s < n) by (apply Z.mod_pos_bound; lia). rewrite s_is_zero_eq by lia. destruct (Z.eqb_spec s 0) as [_|NS]; [reflexivity|].
  rewrite s_is_high_eq by lia. destruct (Z.leb_spec ((n - 1) / 2) s) as [HI|LO]; cbn [sigz].
  - rewrite s_neg_eq, neg_mod_n by lia. change (bind (Some ?x) ?f) with (f x). cbv beta. rewrite lxor_id. reflexivity.
  - reflexivity.
Qed.
Lemma sign_val_res x y d z k : sign_val x y d z k = sign_val x y (d mod n) (z mod n) k.
Proof.
  unfold sign_val. cbv zeta. assert (E : (inv_mod n k * (x mod n * d + z)) mod n = (inv_mod n k * (x mod n * (d mod n) + z mod n)) mod n).
  { rewrite <- (Zmult_mod_idemp_r (x mod n * d + z)), <- (Zmult_mod_idemp_r (x mod n * (d mod n) + z mod n)). do 2 f_equal.
    rewrite Zplus_mod_idemp_r, <- (Zplus_mod_idemp_l (x mod n * (d mod n))), Zmult_mod_idemp_r, Zplus_mod_idemp_l. reflexivity. }
  rewrite E. reflexivity.
Qed.
Lemma inv_mod_zero k : k mod n = 0 -> inv_mod n k = 0.
Proof. intros E. unfold inv_mod. rewrite E. reflexivity. Qed.
Lemma C82_any_integers_pf : forall dbg ctx d z k, gen_ctx ctx -> 0 <= d < 2 ^ 256 -> 0 <= z < 2 ^ 256 -> 0 <= k < 2 ^ 256 ->
  (k mod n <> 0 -> sign_raw dbg ctx (scalar_of d) (scalar_of z) (scalar_of k) = sign_raw dbg ctx (scalar_of (d mod n)) (scalar_of (z mod n)) (scalar_of (k mod n))) /\
  (k mod n = 0 -> sign_raw dbg ctx (scalar_of d) (scalar_of z) (scalar_of k) = if dbg then None else Some (Err InvalidMessage)).
Proof.
  intros dbg ctx d z k HC D Z K. apply gen_ctx_ok in HC. pose proof n_pos as NP. pose proof n_lt as NL. split.
  - intros NK. pose proof (Z.mod_pos_bound k n ltac:(lia)) as KR. assert (KN : 1 <= k mod n < n) by lia. destruct (nonce_pt _ KN) as (X & Y & PT & _).
    rewrite (sign_raw_all dbg ctx d z k X Y HC D Z K KN PT). pose proof (Z.mod_pos_bound d n ltac:(lia)). pose proof (Z.mod_pos_bound z n ltac:(lia)).
    rewrite (sign_raw_any dbg ctx d z _ X Y HC D Z KN PT), (sign_raw_any dbg ctx (d mod n) (z mod n) _ X Y HC ltac:(lia) ltac:(lia) KN PT), <- sign_val_res. reflexivity.
  - intros EK. unfold sign_raw. pose proof (ecmult_gen_z dbg ctx k HC K) as J0.
    destruct (wp_ex _ _ (ecmult_gen_any dbg ctx k HC K)) as (j & EJ & J). rewrite EJ in J0 |- *. change (bind (Some ?x) ?f) with (f x). cbv beta. change (wp (Some ?x) ?P) with (P x) in J0. cbv beta in J0.
    rewrite <- emul_mod_G, EK, emul_0 in J.
    assert (IJ : j_inf j = true). { destruct (j_inf j) eqn:I; [reflexivity|]. apply jok_elim in J. destruct J as (x & y & zz & _ & _ & _ & J). rewrite I in J. destruct J as [_ J]. discriminate J. }
    specialize (J0 IJ). destruct (wp_ex _ _ (af_set_gej_x0 dbg j _ J J0)) as (a & -> & AX & AY). change (bind (Some ?x) ?f) with (f x). cbv beta.
    destruct (wp_ex _ _ (f_normalize_rep dbg (af_x a) f0 ltac:(eapply frep_mono; [exact AX | lia]))) as (rx & -> & RX). change (bind (Some ?x) ?f) with (f x). cbv beta.
    destruct (wp_ex _ _ (f_normalize_rep dbg (af_y a) f0 ltac:(eapply frep_mono; [exact AY | lia]))) as (ry & -> & RY). change (bind (Some ?x) ?f) with (f x). cbv beta.
    destruct (wp_ex _ _ (f_b32_rep dbg rx f0 RX)) as (b & -> & ->). change (bind (Some ?x) ?f) with (f x). cbv beta. change (val f0) with 0.
    destruct (be32_bytes 0) as [L B]. rewrite s_set_b32_eq by assumption. rewrite be32_val by lia. rewrite Z.mod_0_l by lia. change (bind (Some ?x) ?f) with (f x). cbv beta iota.
    rewrite s_is_zero_eq by lia. change (0 =? 0) with true. cbn [negb]. unfold dassert at 1. destruct dbg; [reflexivity|]. cbn [andb]. unfold dassert. 
    destruct (wp_ex _ _ (f_is_odd_rep false ry f0 RY)) as (o & -> & ->). change (bind (Some ?x) ?f) with (f x). cbv beta. change (bind (Some ?x) ?f) with (f x). cbv beta.
    rewrite s_mul_eq by lia. change (bind (Some ?x) ?f) with (f x). cbv beta. cbn [bind]. rewrite Z.mul_0_l, Z.mod_0_l by lia. rewrite s_add_any by lia. change (bind (Some ?x) ?f) with (f x). cbv beta.
    destruct (radd_mod 0 z ltac:(lia) ltac:(lia)) as [AR _]. rewrite s_inv_eq by lia. change (bind (Some ?x) ?f) with (f x). cbv beta. rewrite inv_mod_zero by exact EK. rewrite s_mul_eq by lia. change (bind (Some ?x) ?f) with (f x). cbv beta.
    rewrite Z.mul_0_l, Z.mod_0_l, s_is_zero_eq by lia. reflexivity.
Qed.
Lemma C82_any_integers_example_pf : (exists ctx, gen_ctx ctx) /\ 0 <= n + 1 < 2 ^ 256 /\ (n + 1) mod n <> 0 /\ 0 <= n < 2 ^ 256 /\ n mod n = 0.
Proof. split; [destruct C53_ecmult_gen_example_pf as (c & _ & H); exists c; exact H|]. split; [vmr|]. split; [vm_compute; discriminate|]. split; [vmr | vm_compute; reflexivity]. Qed.

(** The recovery id with its low bit inverted. *)
Definition flip_id (id : Z) : Z := if Z.even id then id + 1 else id - 1.
Lemma neg_nonce_pt k X Y : 1 <= k < n -> pt (emul k eG) = FAff X Y -> pt (emul (n - k) eG) = FAff X (- Y)%F /\ val (- Y)%F mod 2 = 1 - val Y mod 2.
Proof.
  intros K PT. assert (EN : emul (n - k) eG = eopp (emul k eG)) by (rewrite emul_sub, emul_n, eadd_0_l; reflexivity).
  split; [rewrite EN; unfold eopp; cbn [pt mkE proj1_sig]; change (proj1_sig ?A) with (pt A); rewrite PT; reflexivity|].
  pose proof (pt_on (emul k eG)) as ON. rewrite PT in ON. pose proof (fneg_odd Y (no_torsion2 _ _ ON)) as FO. rewrite !Zmod_odd, FO. destruct (Z.odd (val Y)); reflexivity.
Qed.
Lemma neg_s0 k a : 1 <= k < n -> (inv_mod n (n - k) * a) mod n = (- (inv_mod n k * a)) mod n.
Proof.
  intros K. pose proof n_pos as NP. assert (K' : 1 <= n - k < n) by lia. apply eqn_def. symmetry. apply inv_move; [exact K'|].
  replace (- (inv_mod n k * a) * (n - k)) with (inv_mod n k * k * a + (- (inv_mod n k * a)) * n) by ring. rewrite <- (Z.mul_1_l a) at 3. rewrite <- (eqn_inv k K). apply eqn_def. apply Z.mod_add. lia.
Qed.
Lemma half_n : n - 1 = 2 * ((n - 1) / 2) /\ (n + 1) / 2 = (n - 1) / 2 + 1.
Proof. split; vm_compute; reflexivity. Qed.
Lemma sign_val_neg d z k X Y : 1 <= k < n -> val (- Y)%F mod 2 = 1 - val Y mod 2 ->
  sign_val (val X) (val (- Y)%F) d z (n - k) = match sign_val (val X) (val Y) d z k with
    | Ok (r, s, id) => if ((n - 1) / 2 <=? s) then Ok (r, n - s, flip_id id) else Ok (r, s, id) | Err e => Err e end.
Proof.
  intros K YM. pose proof n_pos as NP. unfold sign_val. cbv zeta. rewrite YM. rewrite (neg_s0 k _ K). set (v := inv_mod n k * (val X mod n * d + z)). pose proof (Z.mod_pos_bound v n ltac:(lia)) as VR.
  destruct half_n as [H2 H3]. set (h := (n - 1) / 2) in *. rewrite (Zmod_odd (val Y)).
  destruct (Z.eqb_spec (v mod n) 0) as [E0|NE].
  - rewrite Z.mod_opp_l_z by lia. reflexivity.
  - rewrite Z.mod_opp_l_nz by lia. rewrite (proj2 (Z.eqb_neq _ _)) by lia. set (s := v mod n) in *. unfold flip_id.
    destruct (Z.leb_spec h s) as [HI|LO]; destruct (Z.leb_spec h (n - s)) as [HI'|LO']; try lia.
    + destruct (n <=? val X), (Z.odd (val Y)); reflexivity.
    + destruct (n <=? val X), (Z.odd (val Y)); reflexivity.
    + replace (n - (n - s)) with s by ring. rewrite (proj2 (Z.leb_gt _ _) LO). destruct (n <=? val X), (Z.odd (val Y)); reflexivity.
Qed.
(** A nonce and its negative give the same outcome, except for the two signatures whose s is next to n/2: each of them is exchanged for the other, with the other recovery id. *)
Lemma C82_negated_nonce_pf : forall dbg ctx d z k, gen_ctx ctx -> 0 <= d < n -> 0 <= z < n -> 1 <= k < n ->
  let o v := sign_raw dbg ctx (scalar_of d) (scalar_of z) (scalar_of v) in
  (o k = None <-> o (n - k) = None) /\ (forall e, o k = Some (Err e) <-> o (n - k) = Some (Err e)) /\
  (forall r s id, 0 <= s < n -> o k = Some (Ok (scalar_of r, scalar_of s, id)) ->
    o (n - k) = Some (Ok (if (s =? (n - 1) / 2) || (s =? (n + 1) / 2) then (scalar_of r, scalar_of (n - s), flip_id id) else (scalar_of r, scalar_of s, id)))).
Proof.
  intros dbg ctx d z k HC D Z K o. unfold o. apply gen_ctx_ok in HC. destruct (nonce_pt k K) as (X & Y & PT & _). destruct (neg_nonce_pt k X Y K PT) as [PT' YM]. pose proof n_pos as NP. pose proof n_lt as NL.
  rewrite (sign_raw_ok dbg ctx d z k X Y HC D Z K PT), (sign_raw_ok dbg ctx d z (n - k) X (- Y)%F HC D Z ltac:(lia) PT'). destruct (dbg && (n <=? val X)).
  { split; [tauto|]. split; [intros e; split; discriminate | intros; discriminate]. }
  rewrite (sign_val_neg d z k X Y K YM). destruct (sign_val (val X) (val Y) d z k) as [[[r s] id]|e] eqn:SV.
  - destruct (sign_val_ok d z k X Y r s id D Z K PT SV) as (_ & _ & SR & _). destruct half_n as [H2 H3].
    split; [split; [discriminate | destruct (_ <=? s); discriminate]|]. split; [intros e; split; [discriminate | destruct (_ <=? s); discriminate]|].
    intros r' s' id' S' E. cbn [sigz] in E. apply some_inv in E. assert (ES : scalar_of s = scalar_of s') by congruence. apply scalar_of_inj in ES; [|lia | lia]. subst s'. assert (ER : scalar_of r = scalar_of r') by congruence. assert (id = id') as <- by congruence.
    destruct (Z.leb_spec ((n - 1) / 2) s) as [HI|LO]; cbn [sigz]; rewrite ER.
    + assert (C : s = (n - 1) / 2 \/ s = (n + 1) / 2) by lia. destruct C as [C|C]; [rewrite (proj2 (Z.eqb_eq _ _) C)|rewrite (proj2 (Z.eqb_eq _ ((n + 1) / 2)) C), Bool.orb_true_r]; reflexivity.
    + rewrite (proj2 (Z.eqb_neq s ((n - 1) / 2))), (proj2 (Z.eqb_neq s ((n + 1) / 2))) by lia. reflexivity.
  - split; [split; discriminate|]. split; [intros e'; reflexivity|]. intros r s id _ E. discriminate E.
Qed.
Lemma mid_nonce_ex : exists ctx r, gen_ctx ctx /\ forall dbg, exists id, sign_raw dbg ctx (scalar_of 1) (scalar_of (((n - 1) / 2 - gx) mod n)) (scalar_of 1) = Some (Ok (scalar_of r, scalar_of ((n + 1) / 2), id)).
Proof.
  destruct C53_ecmult_gen_example_pf as (ctx & _ & HC). exists ctx, gx. split; [exact HC|]. intros dbg. pose proof n_pos as NP. set (z := ((n - 1) / 2 - gx) mod n).
  assert (D : 0 <= 1 < n) by vmr. assert (K : 1 <= 1 < n) by vmr. assert (Z0 : 0 <= z < n) by (apply Z.mod_pos_bound; lia). assert (PT : pt (emul 1 eG) = FAff (toF gx) (toF gy)) by (rewrite emul_1; reflexivity).
  apply gen_ctx_ok in HC. rewrite (sign_raw_ok dbg ctx 1 z 1 _ _ HC D Z0 K PT). assert (VG : val (toF gx) = gx) by (rewrite val_toF; apply Z.mod_small; vmr). rewrite VG. assert (LG : (n <=? gx) = false) by (vm_compute; reflexivity). rewrite LG, Bool.andb_false_r.
  assert (SV : exists id, sign_val gx (val (toF gy)) 1 z 1 = Ok (gx, (n + 1) / 2, id)).
  { unfold sign_val. cbv zeta. assert (E : (inv_mod n 1 * (gx mod n * 1 + z)) mod n = (n - 1) / 2) by (unfold z; vm_compute; reflexivity). rewrite E. assert (C1 : ((n - 1) / 2 =? 0) = false) by (vm_compute; reflexivity). rewrite C1, Z.leb_refl.
    assert (E2 : gx mod n = gx) by (apply Z.mod_small; vmr). rewrite E2. assert (E3 : n - (n - 1) / 2 = (n + 1) / 2) by (vm_compute; reflexivity). rewrite E3. eexists. reflexivity. }
  destruct SV as (id & ->). exists id. reflexivity.
Qed.
(** The exception occurs. *)
Lemma C82_negated_nonce_refuted_pf : exists ctx d z k, gen_ctx ctx /\ 1 <= d < n /\ 0 <= z < n /\ 1 <= k < n /\ forall dbg, sign_raw dbg ctx (scalar_of d) (scalar_of z) (scalar_of k) <> None /\
  sign_raw dbg ctx (scalar_of d) (scalar_of z) (scalar_of k) <> sign_raw dbg ctx (scalar_of d) (scalar_of z) (scalar_of (n - k)).
Proof.
  destruct mid_nonce_ex as (ctx & r & HC & H). pose proof n_pos as NP. pose proof n_lt as NL. exists ctx, 1, (((n - 1) / 2 - gx) mod n), 1. assert (Z0 : 0 <= ((n - 1) / 2 - gx) mod n < n) by (apply Z.mod_pos_bound; lia). assert (K : 1 <= 1 < n) by vmr. assert (D : 0 <= 1 < n) by vmr. assert (SR : 0 <= (n + 1) / 2 < n) by vmr.
  split; [exact HC|]. split; [exact K|]. split; [exact Z0|]. split; [exact K|]. intros dbg. destruct (H dbg) as (id & E). split; [rewrite E; discriminate|].
  destruct (C82_negated_nonce_pf dbg ctx 1 _ 1 HC D Z0 K) as (_ & _ & H3). rewrite (H3 _ _ _ SR E), E, Z.eqb_refl, Bool.orb_true_r. intros E1. apply some_inv in E1. assert (E2 : scalar_of ((n + 1) / 2) = scalar_of (n - (n + 1) / 2)) by congruence.
  destruct half_n. apply scalar_of_inj in E2; lia.
Qed.
Lemma C82_negated_nonce_example_pf : exists ctx, gen_ctx ctx /\ 0 <= 1 < n /\ 1 <= 1 < n /\ exists r s id, signature_for 1 1 1 r s id.
Proof.
  destruct C53_ecmult_gen_example_pf as (ctx & _ & HC). exists ctx. assert (K : 1 <= 1 < n) by vmr. assert (D : 0 <= 1 < n) by vmr. split; [exact HC|]. split; [exact D|]. split; [exact K|].
  destruct (sign_raw_cases false ctx 1 1 1 HC D D K) as [(H & _)|[(_ & _ & r & s & id & SF & _)|(_ & N & _)]]; [discriminate H | exists r, s, id; exact SF | elim N; exact usable_1].
Qed.

(** ** what a signature and its nonce, or two signatures with one nonce, tell *)
(** The key that made (r, s) for z with nonce k. *)
Definition key_from (z k r s : Z) : Z := (inv_mod n r * (s * k - z)) mod n.
(** The nonce with which key d made (r, s) for z. *)
Definition nonce_from (d z r s : Z) : Z := (inv_mod n s * (z + r * d)) mod n.
(** The key that made (r, s1) for z1 and (r, e*s2) for z2 with one nonce; e is 1 or -1. *)
Definition key_from_two (e r z1 s1 z2 s2 : Z) : Z := (inv_mod n ((r * (e * s2 - s1)) mod n) * (s1 * z2 - e * s2 * z1)) mod n.
Lemma eqn_smallr a b : 0 <= a < n -> eqn a b -> a = b mod n.
Proof. intros A E. unfold eqn, Zdiv.eqm in E. rewrite Z.mod_small in E by exact A. exact E. Qed.
Lemma key_eq z k r s d : 1 <= r < n -> 0 <= d < n -> eqn (k * s) (z + r * d) -> d = key_from z k r s.
Proof.
  intros R D E. apply eqn_smallr; [exact D|]. apply inv_move; [exact R|]. replace (d * r) with (z + r * d - z) by ring. rewrite <- E. apply eqn_def. f_equal. ring.
Qed.
Lemma nonce_eq z k r s d : 1 <= s < n -> 0 <= k < n -> eqn (k * s) (z + r * d) -> k = nonce_from d z r s.
Proof. intros S K E. apply eqn_smallr; [exact K|]. apply inv_move; [exact S | exact E]. Qed.
(** Who knows the nonce of a signature knows the key, and who knows the key knows the nonce, up to sign. *)
Lemma C82_key_or_nonce_pf : forall dbg ctx d z k r s id, gen_ctx ctx -> 0 <= d < n -> 0 <= z < n -> 1 <= k < n -> 0 <= r < n -> 0 <= s < n ->
  sign_raw dbg ctx (scalar_of d) (scalar_of z) (scalar_of k) = Some (Ok (scalar_of r, scalar_of s, id)) ->
  (r <> 0 -> In d [key_from z k r s; key_from z (n - k) r s]) /\ In k [nonce_from d z r s; n - nonce_from d z r s].
Proof.
  intros dbg ctx d z k r s id HC D Z K R S E. pose proof n_lt as NL.
  destruct (sign_raw_cases dbg ctx d z k HC D Z K) as [(_ & _ & E1)|[(_ & _ & r1 & s1 & id1 & SF & E1)|(_ & _ & E1)]]; rewrite E in E1; [discriminate E1 | | apply some_inv in E1; discriminate E1].
  apply some_inv in E1. destruct (signature_for_ok d z k r1 s1 id1 D Z K SF) as (R1 & S1 & S2 & _ & k' & K' & KK & EQ & _).
  assert (ER : scalar_of r = scalar_of r1) by congruence. assert (ES : scalar_of s = scalar_of s1) by congruence. apply scalar_of_inj in ER; [|lia | lia]. apply scalar_of_inj in ES; [|lia | lia]. subst r1 s1. split.
  - intros NR. pose proof (key_eq z k' r s d ltac:(lia) D EQ) as HD. destruct KK as [->| ->]; [left | right; left]; congruence.
  - pose proof (nonce_eq z k' r s d ltac:(lia) ltac:(lia) EQ) as HN. destruct KK as [->| ->]; [left; congruence | right; left; lia].
Qed.
Lemma C82_key_or_nonce_example_pf : exists ctx r s id, gen_ctx ctx /\ 0 <= s < n /\ sign_raw true ctx (scalar_of 1) (scalar_of 1) (scalar_of 1) = Some (Ok (scalar_of r, scalar_of s, id)) /\ 1 <= r < n.
Proof.
  destruct C53_ecmult_gen_example_pf as (ctx & _ & HC). assert (K : 1 <= 1 < n) by vmr. assert (D : 0 <= 1 < n) by vmr.
  destruct (sign_raw_cases true ctx 1 1 1 HC D D K) as [(_ & W & _)|[(_ & _ & r & s & id & SF & E)|(_ & N & _)]]; [elim (wraps_1 W) | | elim N; exact usable_1].
  exists ctx, r, s, id. split; [exact HC|]. destruct (signature_for_ok 1 1 1 r s id D D K SF) as (_ & _ & S & _ & _). destruct (signature_for_ok 1 1 1 r s id D D K SF) as (_ & S1 & _ & _ & _).
  split; [lia|]. split; [exact E|]. destruct SF as (x & y & HP & -> & _). rewrite smulG, emul_1, sp_G in HP by lia. injection HP as <- <-. vmr.
Qed.
(** Two signatures by whatever keys have the same r and the same high bit of the id exactly if their nonces are equal or opposite. *)
Lemma same_r d1 z1 k1 r1 s1 id1 d2 z2 k2 r2 s2 id2 : 1 <= k1 < n -> 1 <= k2 < n -> signature_for d1 z1 k1 r1 s1 id1 -> signature_for d2 z2 k2 r2 s2 id2 ->
  (r1 = r2 /\ id1 / 2 = id2 / 2 <-> k2 = k1 \/ k2 = n - k1).
Proof.
  intros K1 K2 (x1 & y1 & P1 & R1 & _ & C1) (x2 & y2 & P2 & R2 & _ & C2). pose proof n_pos as NP.
  assert (I1 : id1 / 2 = x1 / n). { pose proof (Z.mod_pos_bound y1 2 ltac:(lia)). destruct C1 as [(_ & _ & ->)|(_ & _ & ->)]; rewrite Z.mul_comm, Z.div_add_l by lia; [rewrite (Z.div_small (y1 mod 2)) by lia | rewrite (Z.div_small (1 - y1 mod 2)) by lia]; ring. }
  assert (I2 : id2 / 2 = x2 / n). { pose proof (Z.mod_pos_bound y2 2 ltac:(lia)). destruct C2 as [(_ & _ & ->)|(_ & _ & ->)]; rewrite Z.mul_comm, Z.div_add_l by lia; [rewrite (Z.div_small (y2 mod 2)) by lia | rewrite (Z.div_small (1 - y2 mod 2)) by lia]; ring. }
  rewrite I1, I2, R1, R2. clear I1 I2 R1 R2 C1 C2.
  destruct (nonce_pt k1 K1) as (X1 & Y1 & PT1 & HP1). destruct (nonce_pt k2 K2) as (X2 & Y2 & PT2 & HP2). rewrite HP1 in P1. rewrite HP2 in P2. assert (x1 = val X1) as -> by congruence. assert (x2 = val X2) as -> by congruence.
  destruct (neg_nonce_pt k1 X1 Y1 K1 PT1) as [PN _]. split.
  - intros [RM RD]. assert (EX : X1 = X2). { apply val_inj. rewrite (Z.div_mod (val X1) n), (Z.div_mod (val X2) n) by lia. congruence. } subst X2.
    pose proof (pt_on (emul k1 eG)) as O1. rewrite PT1 in O1. pose proof (pt_on (emul k2 eG)) as O2. rewrite PT2 in O2. destruct (same_x _ _ _ O1 O2) as [EY|EY].
    + left. subst Y2. rewrite <- PT1 in PT2. apply pt_inj, emulG_eqn in PT2. unfold eqn, Zdiv.eqm in PT2. rewrite !Z.mod_small in PT2 by lia. exact PT2.
    + right. assert (Y2 = (- Y1)%F) by (apply fadd_eq0; rewrite <- EY; ring). subst Y2. rewrite <- PN in PT2. apply pt_inj, emulG_eqn in PT2. unfold eqn, Zdiv.eqm in PT2. rewrite !Z.mod_small in PT2 by lia. exact PT2.
  - intros [->| ->].
    + assert (E : FAff X1 Y1 = FAff X2 Y2) by congruence. apply FAff_inj in E. destruct E as [-> _]. auto.
    + assert (E : FAff X1 (- Y1)%F = FAff X2 Y2) by congruence. apply FAff_inj in E. destruct E as [-> _]. auto.
Qed.
Lemma C82_same_r_pf : forall dbg dbg' ctx ctx' d1 z1 k1 r1 s1 id1 d2 z2 k2 r2 s2 id2, gen_ctx ctx -> gen_ctx ctx' -> 0 <= d1 < n -> 0 <= z1 < n -> 1 <= k1 < n -> 0 <= d2 < n -> 0 <= z2 < n -> 1 <= k2 < n ->
  0 <= r1 < n -> 0 <= r2 < n ->
  sign_raw dbg ctx (scalar_of d1) (scalar_of z1) (scalar_of k1) = Some (Ok (scalar_of r1, s1, id1)) -> sign_raw dbg' ctx' (scalar_of d2) (scalar_of z2) (scalar_of k2) = Some (Ok (scalar_of r2, s2, id2)) ->
  (r1 = r2 /\ id1 / 2 = id2 / 2 <-> k2 = k1 \/ k2 = n - k1).
Proof.
  intros dbg dbg' ctx ctx' d1 z1 k1 r1 s1 id1 d2 z2 k2 r2 s2 id2 HC HC' D1 Z1 K1 D2 Z2 K2 R1 R2 E1 E2. pose proof n_lt as NL.
  destruct (sign_raw_cases dbg ctx d1 z1 k1 HC D1 Z1 K1) as [(_ & _ & Q1)|[(_ & _ & a1 & b1 & c1 & SF1 & Q1)|(_ & _ & Q1)]]; rewrite E1 in Q1; [discriminate Q1 | | apply some_inv in Q1; discriminate Q1].
  destruct (sign_raw_cases dbg' ctx' d2 z2 k2 HC' D2 Z2 K2) as [(_ & _ & Q2)|[(_ & _ & a2 & b2 & c2 & SF2 & Q2)|(_ & _ & Q2)]]; rewrite E2 in Q2; [discriminate Q2 | | apply some_inv in Q2; discriminate Q2].
  apply some_inv in Q1. apply some_inv in Q2. destruct (signature_for_ok _ _ _ _ _ _ D1 Z1 K1 SF1) as (A1 & _). destruct (signature_for_ok _ _ _ _ _ _ D2 Z2 K2 SF2) as (A2 & _).
  assert (ER1 : scalar_of r1 = scalar_of a1) by congruence. assert (ER2 : scalar_of r2 = scalar_of a2) by congruence. apply scalar_of_inj in ER1; [|lia | lia]. apply scalar_of_inj in ER2; [|lia | lia]. subst a1 a2.
  assert (id1 = c1) as -> by congruence. assert (id2 = c2) as -> by congruence. exact (same_r _ _ _ _ _ _ _ _ _ _ _ _ K1 K2 SF1 SF2).
Qed.
Lemma C82_same_r_example_pf : exists ctx r s id, gen_ctx ctx /\ 0 <= s < n /\ sign_raw true ctx (scalar_of 1) (scalar_of 1) (scalar_of 1) = Some (Ok (scalar_of r, scalar_of s, id)) /\ 1 <= r < n.
Proof. exact C82_key_or_nonce_example_pf. Qed.
Lemma two_eqs r d z1 s1 z2 s2 k k' : 1 <= r < n -> 0 <= d < n -> 0 <= z1 < n -> 0 <= z2 < n -> z1 <> z2 -> (k' = k \/ k' = n - k) -> eqn (k * s1) (z1 + r * d) -> eqn (k' * s2) (z2 + r * d) ->
  exists e, (e = 1 \/ e = -1) /\ d = key_from_two e r z1 s1 z2 s2.
Proof.
  intros R D Z1 Z2 NE KK E1 E2. pose proof n_pos as NP. exists (if k' =? k then 1 else -1). split; [destruct (k' =? k); auto|]. set (e := if k' =? k then 1 else -1).
  assert (E3 : eqn (k * (e * s2)) (z2 + r * d)).
  { rewrite <- E2. unfold e. destruct (Z.eqb_spec k' k) as [->|N]; [apply eqn_def; f_equal; ring|]. destruct KK as [->| ->]; [contradiction|]. apply eqn_def. replace ((n - k) * s2) with (k * (-1 * s2) + s2 * n) by ring. symmetry. apply Z.mod_add. lia. }
  set (m := r * (e * s2 - s1)). assert (NZ : m mod n <> 0).
  { intros M. assert (ME : eqn (r * (e * s2)) (r * s1)). { replace (r * (e * s2)) with (m + r * s1) by (unfold m; ring). assert (eqn m 0) as -> by (apply eqn_def; rewrite M; symmetry; apply Z.mod_0_l; lia). reflexivity. }
    apply eqn_cancel in ME; [|exact R]. apply NE. rewrite ME in E3. assert (E4 : eqn (z1 + r * d - r * d) (z2 + r * d - r * d)) by (rewrite <- E1, <- E3; reflexivity).
    replace (z1 + r * d - r * d) with z1 in E4 by ring. replace (z2 + r * d - r * d) with z2 in E4 by ring. unfold eqn, Zdiv.eqm in E4. rewrite !Z.mod_small in E4 by lia. exact E4. }
  pose proof (Z.mod_pos_bound m n ltac:(lia)) as MR. apply eqn_smallr; [exact D|]. apply inv_move; [fold m; lia|]. fold m. rewrite eqn_mod. unfold m.
  replace (d * (r * (e * s2 - s1))) with ((z1 + r * d) * (e * s2) - (z2 + r * d) * s1 + (s1 * z2 - e * s2 * z1)) by ring. rewrite <- E1, <- E3. apply eqn_def. f_equal. ring.
Qed.
(** Two signatures made by [sign] with one key on different messages that show the same r and the same high id bit disclose the key: it is one of two numbers computed from what is public. *)
Lemma C82_reused_nonce_pf : forall dbg dbg' drbg drbg' fuel fuel' ctx ctx' d z1 z2 r s1 s2 id1 id2, gen_ctx ctx -> gen_ctx ctx' -> 0 <= d < n -> 0 <= z1 < n -> 0 <= z2 < n -> z1 <> z2 ->
  stream (drbg (be_bytes 32 d) (be_bytes 32 z1)) -> stream (drbg' (be_bytes 32 d) (be_bytes 32 z2)) -> 1 <= r < n -> 0 <= s1 < n -> 0 <= s2 < n ->
  sign dbg drbg fuel ctx (scalar_of z1) (scalar_of d) = Done (Sig (scalar_of r) (scalar_of s1), id1) ->
  sign dbg' drbg' fuel' ctx' (scalar_of z2) (scalar_of d) = Done (Sig (scalar_of r) (scalar_of s2), id2) -> id1 / 2 = id2 / 2 ->
  In d [key_from_two 1 r z1 s1 z2 s2; key_from_two (-1) r z1 s1 z2 s2].
Proof.
  intros dbg dbg' drbg drbg' fuel fuel' ctx ctx' d z1 z2 r s1 s2 id1 id2 HC HC' D Z1 Z2 NE HS HS' R S1 S2 E1 E2 EI. pose proof n_lt as NL.
  destruct (C29_only_first_usable_pf dbg drbg fuel ctx d z1 _ _ HC D Z1 HS E1) as (j1 & a1 & b1 & _ & _ & U1 & SF1 & G1 & _). destruct (C29_only_first_usable_pf dbg' drbg' fuel' ctx' d z2 _ _ HC' D Z2 HS' E2) as (j2 & a2 & b2 & _ & _ & U2 & SF2 & G2 & _).
  destruct U1 as [K1 _], U2 as [K2 _]. set (k1 := nonce _ j1) in *. set (k2 := nonce _ j2) in *.
  destruct (signature_for_ok _ _ _ _ _ _ D Z1 K1 SF1) as (A1 & B1 & _ & _ & k1' & K1' & KK1 & Q1 & _). destruct (signature_for_ok _ _ _ _ _ _ D Z2 K2 SF2) as (A2 & B2 & _ & _ & k2' & K2' & KK2 & Q2 & _). assert (HN : (n + 1) / 2 < n) by vmr.
  pose proof (f_equal sig_r G1) as X1. pose proof (f_equal sig_s G1) as X2. pose proof (f_equal sig_r G2) as X3. pose proof (f_equal sig_s G2) as X4. cbn [sig_r sig_s] in X1, X2, X3, X4.
  apply scalar_of_inj in X1; [|lia | lia]. apply scalar_of_inj in X2; [|lia | lia]. apply scalar_of_inj in X3; [|lia | lia]. apply scalar_of_inj in X4; [|lia | lia]. subst a1 b1 a2 b2.
  assert (KK : k2 = k1 \/ k2 = n - k1) by (apply (same_r _ _ _ _ _ _ _ _ _ _ _ _ K1 K2 SF1 SF2); auto).
  assert (KK' : k2' = k1' \/ k2' = n - k1') by lia.
  destruct (two_eqs r d z1 s1 z2 s2 k1' k2' R D Z1 Z2 NE KK' Q1 Q2) as (e & [->| ->] & HD); [left | right; left]; congruence.
Qed.
Lemma C82_reused_nonce_example_pf : exists ctx r s1 s2 id1 id2, gen_ctx ctx /\ stream one_stream /\ 1 <= r < n /\ 0 <= s1 < n /\ 0 <= s2 < n /\
  sign true (fun _ _ => one_stream) 2 ctx (scalar_of 1) (scalar_of 1) = Done (Sig (scalar_of r) (scalar_of s1), id1) /\
  sign true (fun _ _ => one_stream) 2 ctx (scalar_of 2) (scalar_of 1) = Done (Sig (scalar_of r) (scalar_of s2), id2) /\ id1 / 2 = id2 / 2.
Proof.
  destruct C53_ecmult_gen_example_pf as (ctx & _ & HC). assert (K : 1 <= 1 < n) by vmr. assert (D : 0 <= 1 < n) by vmr. assert (D2 : 0 <= 2 < n) by vmr. destruct one_stream_at as [E1 E0].
  assert (U2 : usable 1 2 1). { split; [vmr|]. exists gx, gy. split; [|vm_compute; discriminate]. rewrite smulG, emul_1, sp_G by lia. reflexivity. }
  assert (NW : true = false \/ forall l, (l <= 1)%nat -> ~ wraps (nonce one_stream l)) by (right; intros l Hl; destruct (Nat.eq_dec l 1) as [->|N]; [rewrite E1; exact wraps_1|]; rewrite (E0 l) by lia; intros (Q & _); lia).
  assert (N0 : forall z l, (l < 1)%nat -> ~ usable 1 z (nonce one_stream l)) by (intros z l Hl; rewrite (E0 l Hl); intros (Q & _); lia).
  destruct (C29_first_usable_pf true (fun _ _ => one_stream) 2 ctx 1 1 1 HC D D one_stream_ok ltac:(lia) (N0 1)) as (r & s1 & id1 & SF1 & H1); [rewrite E1; exact usable_1 | exact NW |].
  destruct (C29_first_usable_pf true (fun _ _ => one_stream) 2 ctx 1 2 1 HC D D2 one_stream_ok ltac:(lia) (N0 2)) as (r' & s2 & id2 & SF2 & H2); [rewrite E1; exact U2 | exact NW |].
  rewrite E1 in SF1, SF2. destruct (proj2 (same_r _ _ _ _ _ _ _ _ _ _ _ _ K K SF1 SF2) (or_introl eq_refl)) as [<- EI].
  exists ctx, r, s1, s2, id1, id2. split; [exact HC|]. split; [exact one_stream_ok|]. destruct (signature_for_ok _ _ _ _ _ _ D D K SF1) as (_ & A1 & A2 & _). destruct (signature_for_ok _ _ _ _ _ _ D D2 K SF2) as (_ & A3 & A4 & _).
  split; [|split; [lia|]; split; [lia|]; split; [exact H1|]; split; [exact H2 | exact EI]].
  destruct SF1 as (x & y & HP & -> & _). rewrite smulG, emul_1, sp_G in HP by lia. injection HP as <- <-. vmr.
Qed.
