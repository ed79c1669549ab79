(** The last two scalars below 2^256, and signatures whose r is not below the field size, in release builds. *)
From Coq Require Import Znumtheory Zdiv.
From Verif Require Import Word MField MScalar MGroup MEcmult MEcdsa MApi WP FieldMul FieldNorm Spec Fp Bits FieldOps FieldCodec ScalarAcc ScalarMul ScalarOps ScalarRed ScalarMore ScalarBits Denote Unred Curve Group Chain Order Jac JacOps Table Wnaf WnafC Ecmult Lift Gen Key Ctx ApiScalar ApiPub ApiGroup Ecdsa ApiEcdsa ApiKeys ApiUnred.

(** the digits both scalars are recoded to: the lowest one is out of the range of the table *)
Definition edge : list Z := -16 :: repeat (-15) 63 ++ [1].
Lemma wnaf_edge d : 2 ^ 256 - 2 <= d < 2 ^ 256 -> ecmult_wnaf_const false 65 (scalar_of d) 4 = Some (edge, 2 ^ 256 - d).
Proof. intros H. assert (D : d = 2 ^ 256 - 2 \/ d = 2 ^ 256 - 1) by lia. destruct D as [-> | ->]; vm_compute; reflexivity. Qed.
Lemma edge_digit i : 1 <= i < 64 -> idx edge i = Some (-15).
Proof.
  intros H. rewrite idx_nth by lia. unfold edge. replace (Z.to_nat i) with (S (Z.to_nat (i - 1))) by lia. cbn [nth_error].
  rewrite nth_error_app1 by (rewrite repeat_length; lia). apply nth_error_repeat. lia.
Qed.

(** negating twice with the same magnitude gives back the limbs *)
Lemma neg_neg f e : frep 1 f e -> exists g h, f_neg false f 1 = Some g /\ frep 2 g (- e)%F /\ f_neg false g 1 = Some h /\ frep 2 h e.
Proof.
  intros H. destruct (wp_ex _ _ (f_neg_rep false f e 1 H ltac:(lia))) as (g & HG & RG). exists g. rewrite HG.
  destruct H as [(A & V & M) <-]. destruct f as [n0 n1 n2 n3 n4 n5 n6 n7 n8 n9 mg nrm]. cbn [f_mag fnn] in *.
  apply verify_bounds in V; [|lia]. cbn zeta in V.
  assert (K : (if nrm then 1 else 2) * mg <= 2) by (destruct nrm; lia).
  set (kk := (if nrm then 1 else 2) * mg) in *. clearbody kk.
  exists (Fe n0 n1 n2 n3 n4 n5 n6 n7 n8 n9 2 false). split; [reflexivity|]. split; [exact RG|]. clear RG.
  unfold f_neg in *. cbn [dassert bind andb negb] in *. unfold add32, f_neg_limb, mul32, sub32 in *.
  rewrite (uchk_ok 32 false (1 + 1)) in * by (change (2 ^ 32) with 4294967296; lia). cbn [bind] in *.
  repeat (rewrite uchk_ok in HG by (change (2 ^ 32) with 4294967296; lia); cbn [bind] in HG). apply some_inv in HG. subst g. cbn [f_mag].
  repeat (rewrite uchk_ok by (change (2 ^ 32) with 4294967296; lia); cbn [bind]). split.
  - f_equal. f_equal; ring.
  - split; [|reflexivity]. split; [cbn [fnn]; lia|]. split; [apply verify_weak; lia | cbn [f_mag]; lia].
Qed.

Lemma cmov_loop_out t : forall m i x y, m + Z.of_nat (length t) <= i -> cmov_loop t m i x y = (x, y).
Proof.
  induction t as [|q t IH]; intros m i x y H; [reflexivity|]. cbn [cmov_loop length] in *. rewrite !f_cmov_eq, (proj2 (Z.eqb_neq m i)) by lia. apply IH. lia.
Qed.
Lemma Forall2_len {X Y} (P : X -> Y -> Prop) l m : Forall2 P l m -> length l = length m.
Proof. intros H. induction H; cbn [length]; congruence. Qed.
(** the look-up of -15, and what a look-up of -16 makes of its result: the selection finds nothing and the sign is flipped again *)
Lemma lookup_15 v t A r : Forall2 (aokc v) t (odds A 8 1) -> exists a b, table_get_ge_const false r t (-15) 5 = Some a /\ aok 6 v a (emul (-15) A) /\ af_inf a = false /\
  table_get_ge_const false a t (-16) 5 = Some b /\ aok 6 v b (emul 15 A) /\ af_inf b = false.
Proof.
  intros H. assert (L : length t = 8%nat) by (rewrite (Forall2_len _ _ _ H); reflexivity).
  destruct (lookup_odds _ _ _ _ 15 H eq_refl ltac:(lia)) as (q & HI & (Ha & Hy & Hi)). rewrite idx_nth in HI by (vm_compute; discriminate).
  apply aok_elim in Ha. destruct Ha as (x & y & X & Y & Ha). rewrite Hi in Ha. assert (Y1 : frep 1 (af_y q) y) by (destruct Y as [_ Y]; split; assumption).
  destruct (neg_neg _ _ Y1) as (g & h & HG & RG & HH & RH).
  exists (Af (af_x q) g false), (Af (af_x q) h false). unfold table_get_ge_const.
  change (b2z (0 <? -15)) with 0. change (b2z (0 <? -16)) with 0. change (-15 * (0 * 2 - 1)) with 15. change (-16 * (0 * 2 - 1)) with 16.
  rewrite !ichk_small by lia. cbn [bind]. unfold digit_asserts. cbn [dassert bind]. change (Z.quot 15 2) with 7. change (Z.quot 16 2) with 8.
  rewrite (cmov_loop_ok t 0 7 _ _ q) by (exact HI || lia). rewrite cmov_loop_out by (rewrite L; cbn; lia). cbn [af_x af_y].
  rewrite HG, HH. cbn [bind]. rewrite !f_cmov_eq. cbn [Z.eqb negb].
  split; [reflexivity|]. split; [eapply aok_intro; [exact X | fr |]; replace (-15) with (- (15)) by reflexivity; rewrite emul_opp; apply jpt_neg, Ha|]. split; [reflexivity|].
  split; [reflexivity|]. split; [|reflexivity]. eapply aok_intro; [exact X | fr | exact Ha].
Qed.

Lemma edge_two v t A : A <> e0 -> Forall2 (aokc v) t (odds A 8 1) -> forall tmpa r, jok v r A ->
  wp (ecmult_const_loop false 2 t edge tmpa r) (fun r' => jok v r' (emul 31 A)).
Proof.
  intros N T tmpa r H. cbn [ecmult_const_loop]. rewrite <- (emul_1 A) in H.
  eapply wp_bind; [apply double_nonzero_n_ok; [exact H | apply (jok_fin _ _ _ H); rewrite emul_1; exact N]|]. cbv beta. intros r1 [R1 I1]. change (2 ^ Z.of_nat 4 * 1) with 16 in R1.
  change (idx edge (Z.of_nat 1)) with (Some (-15)). change (idx edge (Z.of_nat 0)) with (Some (-16)). change (bind (Some ?x) ?f) with (f x). cbv beta. unfold WINDOW_A.
  destruct (lookup_15 v t A tmpa T) as (a & b & -> & RA & IA & HB & RB & IB). change (bind (Some ?x) ?f) with (f x). cbv beta. cbn [dassert]. change (bind (Some ?x) ?f) with (f x). cbv beta.
  eapply wp_bind; [apply j_add_ge_ok; [apply jok_w; exact R1 | exact RA | exact IA]|]. cbv beta. intros r2 R2. rewrite <- emul_add in R2. change (16 + -15) with 1 in R2.
  eapply wp_bind; [apply double_nonzero_n_ok; [exact R2 | apply (jok_fin _ _ _ R2); rewrite emul_1; exact N]|]. cbv beta. intros r3 [R3 I3]. change (2 ^ Z.of_nat 4 * 1) with 16 in R3.
  change (bind (Some ?x) ?f) with (f x). cbv beta. rewrite HB. do 2 (change (bind (Some ?x) ?f) with (f x); cbv beta).
  eapply wp_mono; [eapply wp_bind; [apply j_add_ge_ok; [apply jok_w; exact R3 | exact RB | exact IB]|]|].
  - cbv beta. intros r4 R4. rewrite <- emul_add in R4. apply wp_some. exact R4.
  - cbv beta. auto.
Qed.
Lemma edge_loop v t A : A <> e0 -> Forall2 (aokc v) t (odds A 8 1) -> forall k tmpa r, (k <= 62)%nat -> jok v r A ->
  wp (ecmult_const_loop false (S (S k)) t edge tmpa r) (fun r' => jok v r' (emul 31 A)).
Proof.
  intros N T. induction k as [|k IH]; intros tmpa r K H; [exact (edge_two v t A N T tmpa r H)|].
  cbn [ecmult_const_loop]. change (ecmult_const_loop false (S (S k)) t edge) with (ecmult_const_loop false (S (S k)) t edge).
  rewrite <- (emul_1 A) in H.
  eapply wp_bind; [apply double_nonzero_n_ok; [exact H | apply (jok_fin _ _ _ H); rewrite emul_1; exact N]|]. cbv beta. intros r1 [R1 I1]. change (2 ^ Z.of_nat 4 * 1) with 16 in R1.
  rewrite edge_digit by lia. change (bind (Some ?x) ?f) with (f x). cbv beta. unfold WINDOW_A at 1.
  destruct (lookup_15 v t A tmpa T) as (a & _ & -> & RA & IA & _). change (bind (Some ?x) ?f) with (f x). cbv beta. unfold dassert at 1. change (bind (Some ?x) ?f) with (f x). cbv beta.
  eapply wp_bind; [apply j_add_ge_ok; [apply jok_w; exact R1 | exact RA | exact IA]|]. cbv beta. intros r2 R2. rewrite <- emul_add in R2. change (16 + -15) with 1 in R2. rewrite emul_1 in R2.
  exact (IH a r2 ltac:(lia) R2).
Qed.

Lemma ecmult_const_edge a A d : aok 6 f1 a A -> A <> e0 -> 2 ^ 256 - 2 <= d < 2 ^ 256 ->
  wp (ecmult_const false a (scalar_of d)) (fun r => jok f1 r (emul (31 - (2 ^ 256 - d)) A)).
Proof.
  intros HA N HD. pose proof (aok_fin _ _ _ _ HA N) as IA. unfold ecmult_const, WINDOW_A at 1. change (5 - 1) with 4. rewrite (wnaf_edge d HD).
  change (bind (Some ?x) ?f) with (f x). cbv beta iota. set (skew := 2 ^ 256 - d). assert (SK : skew = 1 \/ skew = 2) by (unfold skew; lia). clearbody skew.
  eapply wp_bind; [apply j_set_ge_ok; exact HA|]. cbv beta. intros r (J & _).
  eapply wp_bind; [apply table_windowa_ok; [exact J | exact N]|]. cbv beta. intros [ta z] (v & NV & ZV & TA).
  eapply wp_bind.
  { eapply (mapo_ok _ (aokf 6 v) (aokc v)); [exact TA|]. intros q Q [Hq Iq]. apply aok_elim in Hq. destruct Hq as (x & y & X & Y & Hq). rewrite Iq in *.
    fs. apply wp_some. split; [|split; [eapply frep_ok; [eassumption | lia] | reflexivity]]. eapply aok_intro; [exact X | fr | exact Hq]. }
  cbv beta. intros t T. change (idx edge 64) with (Some 1). change (bind (Some ?x) ?f) with (f x). cbv beta. unfold dassert. change (bind (Some ?x) ?f) with (f x). cbv beta.
  eapply wp_bind; [apply (table_get_ge_const_ok false v t A); [exact T | split; [reflexivity | lia]]|]. cbv beta. intros tmpa [TM TI].
  eapply wp_bind; [apply j_set_ge_oku; exact TM|]. cbv beta. intros r1 [R1 _]. rewrite emul_1 in R1.
  eapply wp_bind; [exact (edge_loop v t A N T 62%nat tmpa r1 ltac:(lia) R1)|].
  cbv beta. intros r2 R2.
  pose proof R2 as RR. apply jok_elim in RR. destruct RR as (x & y & zz & X & Y & ZZ & RP).
  fs. match goal with K : frep 1 ?f (zz * v)%F |- _ => rename f into rz; pose proof K as RZ end.
  change (bind (Some ?x) ?f) with (f x). cbv beta.
  assert (R3 : jok f1 (Ja (j_x r2) (j_y r2) rz (j_inf r2)) (emul 31 A)).
  { eapply jok_intro; [exact X | exact Y | exact RZ | lia | lia | lia |]. destruct (j_inf r2); [exact RP|].
    eapply jpt_ext; [exact RP | reflexivity | reflexivity | ring]. }
  eapply wp_bind; [apply j_set_ge_ok; exact HA|]. cbv beta. intros tj (TJ & _).
  eapply wp_bind; [apply j_double_ok; exact TJ|]. cbv beta. intros t2 (T2 & _).
  assert (EA2 : eadd A A = emul 2 A) by (rewrite <- (emul_1 A) at 1 2; rewrite <- emul_add; reflexivity). rewrite EA2 in T2.
  assert (N2 : emul 2 A <> e0).
  { intros E0. apply emul_eq0 in E0; [|exact N]. rewrite n_eq in E0. discriminate E0. }
  pose proof (jok_fin _ _ _ T2 N2) as I2.
  eapply wp_bind; [apply af_set_gej_ok; exact T2|]. cbv beta. intros cor [CO CI].
  eapply wp_bind; [apply (af_to_storage_ok false 6); [exact HA | lia | exact IA]|]. cbv beta. intros c1 C1.
  eapply wp_bind; [apply (af_to_storage_ok false 1); [exact CO | lia | congruence]|]. cbv beta. intros a2 A2.
  change (bind (Some ?x) ?f) with (f x). cbv beta.
  pose proof (as_cmov_ok _ _ _ _ (skew =? 2) C1 A2) as CM.
  assert (CE : (if skew =? 2 then emul 2 A else A) = emul skew A) by (destruct SK as [-> | ->]; [symmetry; apply emul_1 | reflexivity]).
  rewrite CE in CM.
  destruct (af_from_storage_ok _ _ CM) as [CF CFI].
  eapply wp_bind; [apply (af_neg_ok false 1); [exact CF | lia]|]. cbv beta. intros co [C2 C2I].
  eapply wp_mono; [apply j_add_ge_ok; [apply jok_w; exact R3 | exact (aok_mono _ 6 _ _ _ C2 ltac:(lia)) | congruence]|].
  cbv beta. intros r3 R4. rewrite <- emul_sub in R4. exact R4.
Qed.

(** The two scalars left out by [C68_ecdh_release]: rounding the secret up to an odd number wraps to zero, one digit misses the table, and
    the stale entry makes the multiple 29 for 2^256 - 2 and 30 for 2^256 - 1, whatever the point. *)
Lemma C68_ecdh_edge_pf : forall D k P d, key_at k P -> P <> Inf -> 2 ^ 256 - 2 <= d < 2 ^ 256 ->
  exists x y, smul (31 - (2 ^ 256 - d)) P = Aff x y /\ shared_secret_new false D k (scalar_of d) = Some (Ok (D (sec1_compressed x y))).
Proof.
  intros D k P d HK N R. pose proof n_pos as NP. pose proof n_lt as NL. pose proof n_big as NB.
  destruct (key_log k P HK N) as (e & RE & -> & HA). assert (NA : emul e eG <> e0) by (apply emul_nz, RE).
  unfold shared_secret_new, ecdh_raw. rewrite s_is_zero_eq by lia. rewrite (proj2 (Z.eqb_neq d 0)) by lia.
  destruct (wp_ex _ _ (ecmult_const_edge k _ d HA NA R)) as (r & -> & J). cbn [bind].
  set (m := 31 - (2 ^ 256 - d)) in *. assert (MV : 29 <= m <= 30) by (unfold m; lia). assert (N30 : 31 < n) by vmr.
  apply jac_jok in J. rewrite sp_mul in J by lia.
  assert (NZ : smul m (sp (emul e eG)) <> Inf). { rewrite <- smulG by lia. rewrite smulG_mul, <- smulG_mod by nia. apply smulG_nz, mul_mod_n_nz; lia. }
  destruct (C50_set_gej_pf false r _ J) as (a & -> & HAA). cbn [bind]. destruct (smul m (sp (emul e eG))) as [|x y]; [contradiction|].
  exists x, y. split; [reflexivity|]. destruct HAA as (KX & KY & O & I & <- & <-). apply fok_frep in KX, KY.
  assert (VX : val (fe (af_x a)) = fv (af_x a) mod p) by apply val_toF. assert (VY : val (fe (af_y a)) = fv (af_y a) mod p) by apply val_toF.
  assert (FX : frep 31 (af_x a) (fe (af_x a))) by fr. assert (FY : frep 31 (af_y a) (fe (af_y a))) by fr.
  destruct (wp_ex _ _ (f_normalize_rep false _ _ FX)) as (px & -> & PX). cbn [bind]. destruct (wp_ex _ _ (f_normalize_rep false _ _ FY)) as (py & -> & PY). cbn [bind].
  destruct (wp_ex _ _ (f_b32_rep false px _ PX)) as (bx & -> & ->). cbn [bind]. destruct (wp_ex _ _ (f_is_odd_rep false py _ PY)) as (o & -> & ->). cbn [bind app].
  rewrite VX, VY. unfold sec1_compressed. set (y := fv (af_y a) mod p). rewrite odd_mod. pose proof (Z.mod_pos_bound y 2 ltac:(lia)). do 4 f_equal.
  destruct (Z.eqb_spec (y mod 2) 1) as [H1|H1]; [rewrite H1; reflexivity | replace (y mod 2) with 0 by lia; reflexivity].
Qed.
Lemma C68_ecdh_edge_example_pf : key_at AFFINE_G G /\ G <> Inf /\ 2 ^ 256 - 2 <= 2 ^ 256 - 1 < 2 ^ 256 /\ sk_try_from (scalar_of (2 ^ 256 - 1)) = Ok (scalar_of (2 ^ 256 - 1)).
Proof. split; [exact G_key|]. split; [discriminate|]. split; [lia | vm_compute; reflexivity]. Qed.

(** ** Recovery in a release build when r is at or above the field size *)
Definition reflag (f : field) : field := match f with Fe a b c d e g h i j k _ _ => Fe a b c d e g h i j k 1 false end.
Lemma mul_flag_l f g : f_mul false (reflag f) g = f_mul false f g.
Proof. assert (E0 : f_mul_inner false (reflag f) g = f_mul_inner false f g) by (destruct f, g; unfold f_mul_inner; reflexivity). unfold f_mul, dassert. cbn [bind]. rewrite E0. reflexivity. Qed.
Lemma mul_flag_r f g : f_mul false g (reflag f) = f_mul false g f.
Proof. assert (E0 : f_mul_inner false g (reflag f) = f_mul_inner false g f) by (destruct f, g; unfold f_mul_inner; reflexivity). unfold f_mul, dassert. cbn [bind]. rewrite E0. reflexivity. Qed.
Lemma sqr_flag f : f_sqr false (reflag f) = f_sqr false f.
Proof. assert (E0 : f_sqr_inner false (reflag f) = f_sqr_inner false f) by (destruct f; unfold f_sqr_inner; reflexivity). unfold f_sqr, dassert. cbn [bind]. rewrite E0. reflexivity. Qed.
Definition areflag (a : affine) : affine := Af (reflag (af_x a)) (af_y a) (af_inf a).
Definition jreflag (a : jac) : jac := Ja (reflag (j_x a)) (j_y a) (j_z a) (j_inf a).
Lemma xo_flag f o : af_set_xo_var false (reflag f) o = let* '(a, ok) := af_set_xo_var false f o in Some (areflag a, ok).
Proof.
  unfold af_set_xo_var, af_set_xquad. rewrite sqr_flag. destruct (f_sqr false f) as [x2|]; [|reflexivity]. cbn [bind]. rewrite mul_flag_l.
  destruct (f_mul false f x2) as [x3|]; [|reflexivity]. cbn [bind]. destruct (f_set_int false CURVE_B) as [c|]; [|reflexivity]. cbn [bind].
  destruct (f_add false c x3) as [c'|]; [|reflexivity]. cbn [bind]. destruct (f_sqrt false c') as [[v ret]|]; [|reflexivity]. cbn [bind].
  destruct ret; [|reflexivity]. cbn [negb af_x af_y af_inf]. destruct (f_normalize_var false v) as [y|]; [|reflexivity]. cbn [bind].
  destruct (f_is_odd false y) as [b|]; [|reflexivity]. cbn [bind]. destruct (if Bool.eqb b o then Some y else f_neg false y 1); reflexivity.
Qed.
Lemma double_flag a : j_inf a = false -> j_double false (jreflag a) = j_double false a.
Proof.
  intros I. unfold j_double, j_double_var, j_double_var_in_place, jreflag. cbn [j_x j_y j_z j_inf]. rewrite I, sqr_flag.
  change (bind (Some (@None field)) ?f) with (f None). cbv beta.
  f_equal. destruct (f_mul false (j_z a) (j_y a)) as [z|]; [|reflexivity]. cbn [bind]. destruct (f_mul_int false z 2) as [z'|]; [|reflexivity]. cbn [bind].
  destruct (f_sqr false (j_x a)) as [t1|]; [|reflexivity]. cbn [bind]. destruct (f_mul_int false t1 3) as [t1'|]; [|reflexivity]. cbn [bind].
  destruct (f_sqr false t1') as [t2|]; [|reflexivity]. cbn [bind]. destruct (f_sqr false (j_y a)) as [t3|]; [|reflexivity]. cbn [bind].
  destruct (f_mul_int false t3 2) as [t3'|]; [|reflexivity]. cbn [bind]. destruct (f_sqr false t3') as [t4|]; [|reflexivity]. cbn [bind].
  destruct (f_mul_int false t4 2) as [t4'|]; [|reflexivity]. cbn [bind]. rewrite mul_flag_r. reflexivity.
Qed.
Lemma zinv_flag a zi : af_set_gej_zinv false (jreflag a) zi = af_set_gej_zinv false a zi.
Proof.
  unfold af_set_gej_zinv, jreflag. cbn [j_x j_y j_z j_inf]. destruct (f_sqr false zi) as [z2|]; [|reflexivity]. cbn [bind]. destruct (f_mul false z2 zi) as [z3|]; [|reflexivity]. cbn [bind].
  rewrite mul_flag_l. reflexivity.
Qed.
Lemma table_flag a : j_inf a = false -> odd_multiples_table_globalz_windowa false (jreflag a) = odd_multiples_table_globalz_windowa false a.
Proof.
  intros I. unfold odd_multiples_table_globalz_windowa, odd_multiples_table. change (j_inf (jreflag a)) with (j_inf a). change (j_z (jreflag a)) with (j_z a). rewrite (double_flag a I).
  destruct (j_double false a) as [d|]; [|reflexivity]. cbn [bind dassert]. rewrite zinv_flag. reflexivity.
Qed.
Lemma ecmult_flag ctx a na ng : j_inf a = false -> ecmult false ctx (jreflag a) na ng = ecmult false ctx a na ng.
Proof.
  intros I. destruct ctx as [pre]. unfold ecmult. destruct (ecmult_wnaf false 256 na WINDOW_A) as [[w b]|]; [|reflexivity]. cbn [bind]. rewrite (table_flag a I). reflexivity.
Qed.

Definition recovers_wrapped (z r s id : Z) (Q : point) : Prop := s <> 0 /\ id < 2 /\ Q <> Inf /\
  exists x y, on_curve (Aff x y) /\ x = r - p /\ y mod 2 = id mod 2 /\
    let ri := inv_mod n r in Q = padd (smul ((s * ri) mod n) (Aff x y)) (pneg (smul ((z * ri) mod n) G)).
Lemma recovers_wrapped_log z r s id Q : p <= r < 2 ^ 256 -> 0 <= id < 4 ->
  (recovers_wrapped z r s id Q <-> s <> 0 /\ id < 2 /\ Q <> Inf /\ exists A, lifts (toF r) (Z.odd id) A /\ Q = sp (qpoint r s z A)).
Proof.
  intros R ID. pose proof n_pos as NP. assert (P2 : 2 ^ 256 < 2 * p) by (rewrite p_eq; reflexivity).
  assert (VR : val (toF r) = r - p). { rewrite val_toF. replace r with (r - p + 1 * p) at 1 by ring. rewrite Z.mod_add, Z.mod_small by lia. reflexivity. }
  assert (QE : forall A, padd (smul ((s * inv_mod n r) mod n) (sp A)) (pneg (smul ((z * inv_mod n r) mod n) G)) = sp (qpoint r s z A)).
  { intros A. rewrite smulG by (apply Z.mod_pos_bound; lia). rewrite <- sp_mul by (apply Z.mod_pos_bound; lia). rewrite <- sp_opp, <- sp_add. unfold qpoint.
    rewrite (Z.mul_comm s), (Z.mul_comm z). rewrite !emul_mod, emul_opp, emul_mod. reflexivity. }
  unfold recovers_wrapped. split; intros (S & I & N & H); (split; [exact S|]; split; [exact I|]; split; [exact N|]).
  - destruct H as (x & y & O & X & Y & HQ). cbv zeta in HQ. destruct (sp_surj _ O) as [A HA]. rewrite <- HA, QE in HQ. exists A. split; [|exact HQ].
    unfold sp in HA. destruct (pt A) as [|u v] eqn:PA; [discriminate HA|]. cbn [spt] in HA. injection HA as HX HY. exists v. split; [rewrite PA; apply (f_equal (fun t => FAff t v)), val_inj; lia|].
    rewrite !odd_mod, HY, Y. reflexivity.
  - destruct H as (A & (v & PA & O) & HQ). exists (val (toF r)), (val v). assert (EA : sp A = Aff (val (toF r)) (val v)) by (unfold sp; rewrite PA; reflexivity).
    split; [rewrite <- EA; apply sp_on|]. split; [exact VR|]. split; [apply odd_eq_mod, O|]. cbv zeta. rewrite <- EA, QE. exact HQ.
Qed.
Lemma recover_raw_wrapped ctx r s id z : ctx_ok ctx -> p <= r < 2 ^ 256 -> 0 <= s < 2 ^ 256 -> 0 <= id < 4 -> 0 <= z < 2 ^ 256 ->
  wp (recover_raw false ctx (scalar_of r) (scalar_of s) id (scalar_of z)) (fun res => match res with
    | Ok k => 1 <= s /\ id < 2 /\ af_inf k = false /\ exists A, lifts (toF r) (Z.odd id) A /\ qpoint r s z A <> e0 /\ aok 6 f1 k (qpoint r s z A)
    | Err e => e = InvalidSignature /\ ~ (1 <= s /\ id < 2 /\ exists A, lifts (toF r) (Z.odd id) A /\ qpoint r s z A <> e0) end).
Proof.
  intros HC R S ID Z. pose proof n_lt as NL. pose proof n_pos as NP. pose proof pnx as (PN & _ & P2). unfold recover_raw. apply wp_dassert; [apply Z.ltb_lt; lia|].
  rewrite !s_is_zero_eq by lia. rewrite (proj2 (Z.eqb_neq r 0)) by lia.
  destruct (Z.eqb_spec s 0) as [->|NS]; [cbn [orb]; apply wp_some; split; [reflexivity | intros (H & _); lia]|]. cbn [orb].
  rewrite s_b32_eq by lia. change (bind (Some ?x) ?f) with (f x). cbv beta. destruct (be32_bytes r) as [BL BB].
  assert (BV : p <= be_val (be_bytes 32 r)) by (rewrite be32_val by lia; lia).
  destruct (f_set_b32_over false f_default _ BL BB BV) as (m0 & m1 & m2 & m3 & m4 & m5 & m6 & m7 & m8 & m9 & -> & L & L9 & V). rewrite be32_val in V by lia.
  change (bind (Some ?x) ?f) with (f x). cbv beta iota. unfold dassert at 1. change (bind (Some ?x) ?f) with (f x). cbv beta.
  destruct (id_bits id ID) as (B2 & IH & B1). rewrite B2, B1.
  destruct (Z.eqb_spec (id / 2) 1) as [E1|N1].
  { rewrite ge_order by (try exact L; lia). change (bind (Some ?x) ?f) with (f x). cbv beta. change (bind (Some ?x) ?f) with (f x). cbv beta. apply wp_some. split; [reflexivity|].
    intros (_ & I & _). assert (id / 2 = 0) by (apply Z.div_small; lia). lia. }
  assert (I2 : id < 2) by (destruct IH as [H|H]; [|contradiction]; Z.to_euclidean_division_equations; lia).
  change (bind (Some ?x) ?f) with (f x). cbv beta iota.
  set (f := Fe m0 m1 m2 m3 m4 m5 m6 m7 m8 m9 (f_mag f_default) (f_norm f_default)).
  assert (FR : frep 2 (reflag f) (toF r)).
  { split; [split; [unfold lim26 in L; cbn [fnn reflag f]; lia|]; split; [|cbn [f_mag reflag f]; lia] | unfold fe, f; cbn [fv reflag]; rewrite V; reflexivity].
    unfold f_verify, lim26, f, reflag in *. cbv zeta. repeat (apply andb_true_intro; split); try (apply Z.leb_le; lia). reflexivity. }
  clearbody f. pose proof (af_set_xo_var_ok false (reflag f) (toF r) 2 (Z.odd id) FR ltac:(lia)) as HX. rewrite xo_flag in HX.
  destruct (af_set_xo_var false f (Z.odd id)) as [[a ok]|]; [|destruct HX]. cbn [bind] in HX. change (wp (Some ?x) ?P) with (P x) in HX. cbv beta iota in HX.
  destruct HX as (OK1 & OK2 & _). change (bind (Some ?x) ?f) with (f x). cbv beta iota.
  destruct ok; cbn [negb].
  2:{ apply wp_some. split; [reflexivity|]. intros (_ & _ & A & RP & _). assert (K : false = true) by (apply OK1; exists A; exact RP). discriminate K. }
  destruct (OK2 eq_refl) as (A & LA & AA & _ & AI). clear OK1 OK2.
  pose proof (j_set_ge_ok false (areflag a) A ltac:(eapply aok_mono; [exact AA | lia])) as HJ. unfold j_set_ge in HJ |- *. cbn [areflag af_x af_y af_inf] in HJ, AI.
  destruct (f_set_int false 1) as [z1|]; [|destruct HJ]. cbn [bind] in HJ |- *. change (wp (Some ?x) ?P) with (P x) in HJ. cbv beta in HJ. destruct HJ as (J & _).
  set (j := Ja (af_x a) (af_y a) z1 (af_inf a)). change (Ja (reflag (af_x a)) (af_y a) z1 (af_inf a)) with (jreflag j) in J.
  pose proof (inv_n_rng r) as WR. rewrite s_inv_eq by lia. cbn [bind]. rewrite s_mul_eq by lia. cbn [bind].
  assert (M0 : 0 <= (inv_mod n r * z) mod n < n) by (apply Z.mod_pos_bound; lia). rewrite s_neg_eq by exact M0. cbn [bind]. rewrite s_mul_eq by lia.
  change (bind (Some ?x) ?f) with (f x). cbv beta.
  assert (M1 : 0 <= (inv_mod n r * s) mod n < n) by (apply Z.mod_pos_bound; lia). assert (M2 : 0 <= (- ((inv_mod n r * z) mod n)) mod n < n) by (apply Z.mod_pos_bound; lia).
  assert (NA : A <> e0) by (intros ->; destruct LA as (? & K & _); discriminate K).
  rewrite <- (ecmult_flag ctx j) by exact AI.
  eapply wp_bind; [apply (ecmult_ok false ctx (jreflag j) A); [exact HC | exact J | exact NA | exact M1 | exact M2]|]. cbv beta. intros qj QJ. fold (qpoint r s z A) in QJ.
  pose proof (fcrep_ok _ _ 6 fcrep_default ltac:(lia)) as D.
  eapply wp_bind; [apply (af_set_gej_var_ok false af_default qj _ QJ); intros _; split; exact D|]. cbv beta. intros k (KA & _ & KI).
  destruct (af_inf k) eqn:I; apply wp_some.
  - split; [reflexivity|]. intros (_ & _ & B & RB & NB). apply NB. rewrite (lifts_fun _ _ _ _ RB LA). apply (jok_inf _ _ _ QJ). congruence.
  - split; [lia|]. split; [exact I2|]. split; [exact I|]. exists A. split; [exact LA|]. split; [|exact KA]. intros E0. apply (jok_inf _ _ _ QJ) in E0. congruence.
Qed.
(** The release build takes r - p for the x-coordinate, and finds no key when the id has its second bit set. *)
Lemma C68_recover_release_pf : forall ctx z r s id, verify_ctx ctx -> p <= r < 2 ^ 256 -> 0 <= s < 2 ^ 256 -> 0 <= z < 2 ^ 256 -> 0 <= id < 4 ->
  (exists k Q, recover false ctx (scalar_of z) (Sig (scalar_of r) (scalar_of s)) id = Some (Ok k) /\ key_at k Q /\ recovers_wrapped z r s id Q) \/
  (recover false ctx (scalar_of z) (Sig (scalar_of r) (scalar_of s)) id = Some (Err InvalidSignature) /\ forall Q, ~ recovers_wrapped z r s id Q).
Proof.
  intros ctx z r s id HC R S Z ID. apply verify_ctx_ok in HC. destruct (wp_ex _ _ (recover_raw_wrapped ctx r s id z HC R S ID Z)) as ([k|e] & HR & H).
  - left. destruct H as (S1 & I2 & I & A & RP & NQ & KA). exists k, (sp (qpoint r s z A)). split; [exact HR|]. split; [apply key_aok, KA|]. apply recovers_wrapped_log; [exact R | exact ID|].
    split; [lia|]. split; [exact I2|]. split; [intros E0; apply sp_inf in E0; contradiction|]. exists A. auto.
  - right. destruct H as [-> H]. split; [exact HR|]. intros Q HQ. apply recovers_wrapped_log in HQ; [|exact R | exact ID]. destruct HQ as (S1 & I2 & NQ & A & RP & ->). apply H. split; [lia|]. split; [exact I2|].
    exists A. split; [exact RP|]. intros E0. apply NQ. rewrite E0. reflexivity.
Qed.
Lemma C68_recover_release_example_pf : (exists ctx, verify_ctx ctx) /\ p <= p + 1 < 2 ^ 256 /\ exists Q, recovers_wrapped 0 (p + 1) 1 (one_y mod 2) Q.
Proof.
  destruct C68_verify_example_pf as (H1 & _). split; [exact H1|]. split; [vmr|]. pose proof n_pos as NP. destruct (point_nonce _ _ one_on) as (k & K & HK).
  set (w := inv_mod n (p + 1)). assert (W : 1 <= (1 * w) mod n < n) by (unfold w; vmr).
  exists (smul ((1 * w) mod n) (Aff 1 one_y)). split; [lia|]. split; [reflexivity|]. split.
  - rewrite <- HK. rewrite smulG_mul, <- smulG_mod by nia. apply smulG_nz, mul_mod_n_nz; lia.
  - exists 1, one_y. split; [exact one_on|]. split; [ring|]. split; [symmetry; apply Z.mod_mod; lia|]. cbv zeta. fold w. rewrite Z.mul_0_l, Z.mod_0_l, smul_0 by lia.
    destruct (smul ((1 * w) mod n) (Aff 1 one_y)); reflexivity.
Qed.
