(** [ecmult] computes na*A + ng*G and [ecmult_const] computes k*A. *)
From Coq Require Import Znumtheory Field.
From Verif Require Import Word MField MScalar MGroup MEcmult WP FieldMul FieldNorm FieldZero Spec Fp Bits FieldOps FieldCodec FieldStore
  ScalarMul ScalarOps ScalarMore ScalarBits Denote Curve Group Chain Order Jac JacOps Table Wnaf WnafC.

Lemma dassert_true dbg : dassert dbg true = Some tt. Proof. destruct dbg; reflexivity. Qed.
Lemma idx_nth {A} (l : list A) i : 0 <= i -> idx l i = nth_error l (Z.to_nat i).
Proof. intros. unfold idx. rewrite (proj2 (Z.ltb_ge i 0)) by lia. reflexivity. Qed.
Lemma idx_digit l i : 0 <= i < Z.of_nat (length l) -> idx l i = Some (digit l i).
Proof.
  intros. rewrite idx_nth by lia. unfold digit. rewrite (nth_error_nth' l 0) by lia. reflexivity.
Qed.

(** half of an odd digit *)
Lemma odd_half d : d mod 2 = 1 -> 0 < d -> 2 * Z.quot (d - 1) 2 = d - 1 /\ 0 <= Z.quot (d - 1) 2.
Proof. intros. rewrite Z.quot_div_nonneg by lia. Z.to_euclidean_division_equations; lia. Qed.

Section B.
Variable dbg : bool.

Lemma digit_asserts_ok w d : 2 <= w -> d mod 2 = 1 -> - 2 ^ (w - 1) < d < 2 ^ (w - 1) -> digit_asserts dbg d w = Some tt.
Proof.
  intros W O R. unfold digit_asserts.
  rewrite (land_mod _ 1 1) by (reflexivity || lia). change (2 ^ 1) with 2. rewrite O.
  rewrite (proj2 (Z.leb_le _ d)) by lia. rewrite (proj2 (Z.leb_le d _)) by lia. rewrite Z.eqb_refl, !dassert_true. reflexivity.
Qed.

(** looking up a digit in a table of odd multiples *)
Lemma lookup_odds {X} (R : X -> E -> Prop) t A k d : Forall2 R t (odds A k 1) -> d mod 2 = 1 -> 0 < d < 2 * Z.of_nat k ->
  exists a, idx t (Z.quot (d - 1) 2) = Some a /\ R a (emul d A).
Proof.
  intros H O D. destruct (odd_half d O ltac:(lia)) as [H2 H0]. rewrite idx_nth by lia.
  apply (Forall2_nth R _ _ H). rewrite odds_nth by lia. do 2 f_equal. rewrite Z2Nat.id by lia. lia.
Qed.

Lemma table_get_ge_ok v t A k w d : 2 <= w -> 2 ^ (w - 1) = 2 * Z.of_nat k -> Forall2 (aokf 6 v) t (odds A k 1) ->
  d mod 2 = 1 -> - 2 ^ (w - 1) < d < 2 ^ (w - 1) ->
  wp (table_get_ge dbg t d w) (fun a => aok 6 v a (emul d A)).
Proof.
  intros W K H O R. unfold table_get_ge. rewrite digit_asserts_ok by assumption. cbn [bind].
  destruct (Z.ltb_spec 0 d) as [P|P].
  - destruct (lookup_odds _ _ _ _ d H O ltac:(lia)) as (a & -> & Ha & _). exact Ha.
  - assert (d <> 0) by (intros ->; discriminate O).
    destruct (lookup_odds _ _ _ _ (- d) H (odd_sign _ O) ltac:(lia)) as (a & -> & Ha & _). cbn [bind].
    eapply wp_mono; [apply af_neg_ok; [exact Ha | lia]|]. cbv beta. intros r [R0 _].
    rewrite emul_opp, eopp_opp in R0. exact R0.
Qed.
Lemma table_get_ge_storage_ok t A k w d : 2 <= w -> 2 ^ (w - 1) = 2 * Z.of_nat k -> Forall2 asok t (odds A k 1) ->
  d mod 2 = 1 -> - 2 ^ (w - 1) < d < 2 ^ (w - 1) ->
  wp (table_get_ge_storage dbg t d w) (fun a => aok 6 f1 a (emul d A)).
Proof.
  intros W K H O R. unfold table_get_ge_storage. rewrite digit_asserts_ok by assumption. cbn [bind].
  destruct (Z.ltb_spec 0 d) as [P|P].
  - destruct (lookup_odds _ _ _ _ d H O ltac:(lia)) as (a & -> & Ha). cbn [bind]. apply wp_some.
    apply (aok_mono 1); [apply af_from_storage_ok, Ha | lia].
  - assert (d <> 0) by (intros ->; discriminate O).
    destruct (lookup_odds _ _ _ _ (- d) H (odd_sign _ O) ltac:(lia)) as (a & -> & Ha). cbn [bind].
    eapply wp_mono; [apply (af_neg_ok dbg 1); [apply af_from_storage_ok, Ha | lia]|]. cbv beta. intros r [R0 _].
    rewrite emul_opp, eopp_opp in R0. exact (aok_mono _ 6 _ _ _ R0 ltac:(lia)).
Qed.

(** suffixes of the digit lists *)
Lemma nth_skip (l : list Z) : forall k i, nth i (skipn k l) 0 = nth (k + i) l 0.
Proof. induction l as [|d l IH]; intros [|k] i; [reflexivity | destruct i; reflexivity | reflexivity |]. cbn [skipn Nat.add nth]. apply IH. Qed.
Lemma skipn_digit l i : 0 <= i < Z.of_nat (length l) -> skipn (Z.to_nat i) l = digit l i :: skipn (Z.to_nat (i + 1)) l.
Proof.
  intros H. unfold digit. replace (Z.to_nat (i + 1)) with (S (Z.to_nat i)) by lia.
  assert (L : (Z.to_nat i < length l)%nat) by lia. revert L. generalize (Z.to_nat i) as k. clear.
  induction l as [|d l IH]; intros k H; [cbn in H; lia|]. destruct k; [reflexivity|]. cbn [skipn nth]. apply IH. cbn in H. lia.
Qed.
Lemma wsum_skip_zero B l k : (forall i, Z.of_nat k <= i -> digit l i = 0) -> wsum B (skipn k l) = 0.
Proof.
  intros H. assert (forall m, (forall i, nth i m 0 = 0) -> wsum B m = 0) as Z0.
  { induction m as [|d m IH]; intros K; [reflexivity|]. cbn. rewrite IH; [|intros i; exact (K (S i))]. specialize (K O). cbn in K. rewrite K. ring. }
  apply Z0. intros i. rewrite nth_skip. specialize (H (Z.of_nat (k + i)) ltac:(lia)). unfold digit in H. rewrite Nat2Z.id in H. exact H.
Qed.

Lemma ecmult_loop_ok v z A tg ta wa wg ba bg : v <> f0 -> frep 6 z v ->
  Forall2 asok tg (odds eG ECMULT_TABLE_SIZE_G 1) -> Forall2 (aokf 6 v) ta (odds A 8 1) ->
  Z.of_nat (length wa) = 256 -> Z.of_nat (length wg) = 256 ->
  (forall i, ba <= i -> digit wa i = 0) -> (forall i, bg <= i -> digit wg i = 0) ->
  (forall i, 0 <= i -> wdigit 5 (digit wa i)) -> (forall i, 0 <= i -> wdigit 16 (digit wg i)) ->
  forall k r, Z.of_nat k <= 256 -> jok v r (eadd (emul (wsum 2 (skipn k wa)) A) (emul (wsum 2 (skipn k wg)) eG)) ->
  wp (ecmult_loop dbg k tg ta z wa wg ba bg r) (fun r' => jok v r' (eadd (emul (wsum 2 wa) A) (emul (wsum 2 wg) eG))).
Proof.
  intros NV ZV TG TA LA LG ZA ZG DA DG. induction k; intros r HK H; [exact H|].
  cbn [ecmult_loop]. change (bind (Some ?x) ?f) with (f x). cbv beta.
  set (i := Z.of_nat k). assert (KI : k = Z.to_nat i) by (unfold i; lia).
  eapply wp_bind; [apply j_double_ok; exact H|]. cbv beta. intros r1 [R1 _].
  rewrite idx_digit by lia. cbn [bind].
  pose proof (skipn_digit wa i ltac:(lia)) as SA. pose proof (skipn_digit wg i ltac:(lia)) as SG.
  replace (Z.to_nat (i + 1)) with (S k) in SA, SG by lia. rewrite <- KI in SA, SG.
  eapply (wp_bind _ _ (fun r => jok v r (eadd (emul (wsum 2 (skipn k wa)) A) (emul (2 * wsum 2 (skipn (S k) wg)) eG)))).
  { rewrite SA. cbn [wsum]. set (da := digit wa i) in *.
    assert (R1' : jok v r1 (eadd (emul (2 * wsum 2 (skipn (S k) wa)) A) (emul (2 * wsum 2 (skipn (S k) wg)) eG))).
    { rewrite !emul_double, <- eadd_4. exact R1. }
    destruct (Z.eqb_spec da 0) as [E0|NE].
    - rewrite Bool.andb_false_r. apply wp_some. rewrite E0, Z.add_0_l. exact R1'.
    - destruct (Z.ltb_spec i ba) as [LT|GE]; [|elim NE; apply ZA; lia]. cbn [andb negb].
      destruct (DA i ltac:(lia)) as [E0|[O R]]; [contradiction|]; change (digit wa i) with da in O, R.
      eapply wp_bind; [apply (table_get_ge_ok v ta A 8 5 da); [lia | reflexivity | exact TA | exact O | exact R]|]. cbv beta. intros t T.
      eapply wp_mono; [apply j_add_ge_v_ok; [exact R1' | exact T]|]. cbv beta. intros r2 R2.
      rewrite emul_add. rewrite <- eadd_assoc, (eadd_comm (emul _ eG)), eadd_assoc in R2. rewrite (eadd_comm (emul da A)). exact R2. }
  cbv beta. intros r2 R2. rewrite idx_digit by lia. cbn [bind].
  eapply (wp_bind _ _ (fun r => jok v r (eadd (emul (wsum 2 (skipn k wa)) A) (emul (wsum 2 (skipn k wg)) eG)))).
  { rewrite SG. cbn [wsum]. set (dg := digit wg i) in *.
    destruct (Z.eqb_spec dg 0) as [E0|NE].
    - rewrite Bool.andb_false_r. apply wp_some. rewrite E0, Z.add_0_l. exact R2.
    - destruct (Z.ltb_spec i bg) as [LT|GE]; [|elim NE; apply ZG; lia]. cbn [andb negb].
      destruct (DG i ltac:(lia)) as [E0|[O R]]; [contradiction|]; change (digit wg i) with dg in O, R.
      eapply wp_bind; [apply (table_get_ge_storage_ok tg eG ECMULT_TABLE_SIZE_G 16 dg); [lia | unfold ECMULT_TABLE_SIZE_G; rewrite Z2Nat.id by lia; reflexivity | exact TG | exact O | exact R]|].
      cbv beta. intros t T.
      eapply wp_mono; [apply (j_add_zinv_var_ok dbg v _ _ z); [exact R2 | exact T | exact ZV | exact NV]|]. cbv beta. intros r3 R3.
      rewrite emul_add. rewrite <- eadd_assoc in R3. rewrite (eadd_comm (emul dg eG)). exact R3. }
  cbv beta. intros r3 R3. apply IHk; [lia | exact R3].
Qed.

Lemma emul_wnaf l a A : (wsum 2 l) mod n = a mod n -> emul (wsum 2 l) A = emul a A.
Proof. intros H. rewrite <- (emul_mod (wsum 2 l)), H, emul_mod. reflexivity. Qed.

(** what is needed of a recoding of [sc] with window [w] *)
Definition recodes (w : Z) (sc : scalar) (m : Z) : Prop :=
  wp (ecmult_wnaf dbg 256 sc w) (fun '(l, bits) => Z.of_nat (length l) = 256 /\ 0 <= bits <= 256 /\ (wsum 2 l) mod n = m mod n /\
    (forall i, bits <= i -> digit l i = 0) /\ (forall i, 0 <= i -> wdigit w (digit l i))).
Lemma recodes_ok w a : 0 <= a < n -> 2 <= w <= 30 -> recodes w (scalar_of a) a.
Proof.
  intros A W. unfold recodes. eapply wp_mono; [apply ecmult_wnaf_ok; [exact A | lia | intros ->; lia]|]. cbv beta. intros [l bits] (H1 & H2 & H3 & H4 & H5 & _). auto.
Qed.
Lemma ecmult_from ctx j A na ng sa sg : ctx_ok ctx -> jok f1 j A -> A <> e0 -> recodes WINDOW_A sa na -> recodes WINDOW_G sg ng ->
  wp (ecmult dbg ctx j sa sg) (fun r => jok f1 r (eadd (emul na A) (emul ng eG))).
Proof.
  intros HC HJ N HA HG. destruct ctx as [tg]. cbn [ctx_ok] in HC. unfold ecmult.
  eapply wp_bind; [exact HA|]. cbv beta. intros [wa ba] (LA & BA & SA & ZA & DA).
  eapply wp_bind; [apply table_windowa_ok; [exact HJ | exact N]|]. cbv beta. intros [ta z] (v & NV & ZV & TA).
  eapply wp_bind; [exact HG|]. cbv beta. intros [wg bg] (LG & BG & SG & ZG & DG).
  change (bind (Some ?x) ?f) with (f x). cbv beta. set (bits := if ba <? bg then bg else ba).
  assert (HB : ba <= bits /\ bg <= bits /\ 0 <= bits <= 256) by (unfold bits; destruct (Z.ltb_spec ba bg); lia).
  eapply wp_bind.
  { apply (ecmult_loop_ok v z A tg ta wa wg ba bg NV ZV HC TA LA LG ZA ZG DA DG (Z.to_nat bits)); [lia|].
    rewrite !wsum_skip_zero by (intros i Hi; first [apply ZA; lia | apply ZG; lia]).
    rewrite !emul_0, eadd_0_l. apply jok_default. reflexivity. }
  cbv beta. intros r R. rewrite (emul_wnaf _ _ _ SA), (emul_wnaf _ _ _ SG) in R.
  pose proof R as RR. apply jok_elim in R. destruct R as (x & y & zz & X & Y & ZZ & R).
  destruct (j_inf r) eqn:I.
  - apply wp_some. rewrite R in *. destruct RR as (RX & RY & RZ & RP). split; [exact RX|]. split; [exact RY|]. split; [exact RZ|]. rewrite I. reflexivity.
  - fs. apply wp_some. eapply jok_intro; [exact X | exact Y | eassumption | lia | lia | lia |].
    eapply jpt_ext; [exact R | reflexivity | reflexivity | ring].
Qed.
Theorem ecmult_ok ctx j A na ng : ctx_ok ctx -> jok f1 j A -> A <> e0 -> 0 <= na < n -> 0 <= ng < n ->
  wp (ecmult dbg ctx j (scalar_of na) (scalar_of ng)) (fun r => jok f1 r (eadd (emul na A) (emul ng eG))).
Proof. intros HC HJ N HA HG. apply ecmult_from; [exact HC | exact HJ | exact N | apply recodes_ok; [exact HA | unfold WINDOW_A; lia] | apply recodes_ok; [exact HG | unfold WINDOW_G; lia]]. Qed.

(** ** Constant-time multiplication *)
Lemma cmov_loop_skip t : forall m i x y, i < m -> cmov_loop t m i x y = (x, y).
Proof. induction t as [|p t IH]; intros m i x y H; [reflexivity|]. cbn [cmov_loop]. rewrite !f_cmov_eq, (proj2 (Z.eqb_neq m i)) by lia. apply IH. lia. Qed.
Lemma cmov_loop_ok t : forall m i x y a, nth_error t (Z.to_nat (i - m)) = Some a -> m <= i -> cmov_loop t m i x y = (af_x a, af_y a).
Proof.
  induction t as [|p t IH]; intros m i x y a H L; [destruct (Z.to_nat (i - m)); discriminate|]. cbn [cmov_loop]. rewrite !f_cmov_eq.
  destruct (Z.eqb_spec m i) as [->|NE].
  - rewrite Z.sub_diag in H. cbn in H. injection H as ->. rewrite cmov_loop_skip by lia. reflexivity.
  - apply IH; [|lia]. replace (Z.to_nat (i - m)) with (S (Z.to_nat (i - (m + 1)))) in H by lia. exact H.
Qed.

(** x of magnitude at most 6, y of magnitude 1 *)
Definition aokc (v : F) (a : affine) (A : E) : Prop := aok 6 v a A /\ fok 1 (af_y a) /\ af_inf a = false.
Lemma table_get_ge_const_ok v t A r d : Forall2 (aokc v) t (odds A 8 1) -> odd15 d ->
  wp (table_get_ge_const dbg r t d 5) (fun a => aok 6 v a (emul d A) /\ af_inf a = false).
Proof.
  intros H [O R]. unfold table_get_ge_const. assert (d <> 0) by (intros ->; discriminate O).
  assert (AB : d * (b2z (0 <? d) * 2 - 1) = Z.abs d) by (destruct (Z.ltb_spec 0 d); cbn [b2z]; lia). rewrite AB.
  rewrite ichk_small by lia. cbn [bind]. rewrite digit_asserts_ok by (try assumption; change (2 ^ (5 - 1)) with 16; lia). cbn [bind].
  assert (OA : Z.abs d mod 2 = 1) by (destruct (Z.abs_spec d) as [[_ ->]|[_ ->]]; [exact O | apply odd_sign, O]).
  destruct (lookup_odds _ _ _ _ (Z.abs d) H OA ltac:(lia)) as (a & HI & (Ha & Hy & Hi)).
  destruct (odd_half (Z.abs d) OA ltac:(lia)) as [H2 HP].
  assert (HQ : Z.quot (Z.abs d) 2 = Z.quot (Z.abs d - 1) 2).
  { rewrite !Z.quot_div_nonneg in * by lia. revert OA. Z.to_euclidean_division_equations; lia. }
  rewrite HQ. rewrite idx_nth in HI by lia.
  rewrite (cmov_loop_ok t 0 _ _ _ a); [| rewrite Z.sub_0_r; exact HI | lia].
  apply aok_elim in Ha. destruct Ha as (x & y & X & Y & Ha). rewrite Hi in Ha.
  assert (Y1 : frep 1 (af_y a) y) by (destruct Y as [_ Y]; split; assumption).
  fs. apply wp_some. split; [|reflexivity]. rewrite f_cmov_eq.
  destruct (Z.eqb_spec d (Z.abs d)) as [E0|NE]; cbn [negb].
  - eapply aok_intro; [exact X | exact Y |]. rewrite E0. exact Ha.
  - eapply aok_intro; [exact X | fr |]. replace d with (- Z.abs d) by lia. rewrite emul_opp. apply jpt_neg, Ha.
Qed.

Lemma double_nonzero_n_ok v k : forall r m A, jok v r (emul m A) -> j_inf r = false ->
  wp (double_nonzero_n dbg k r) (fun r' => jok v r' (emul (2 ^ Z.of_nat k * m) A) /\ j_inf r' = false).
Proof.
  induction k; intros r m A H I.
  - apply wp_some. rewrite Z.mul_1_l. split; assumption.
  - cbn [double_nonzero_n]. eapply wp_bind; [apply j_double_nonzero_ok; [exact H | exact I]|]. cbv beta. intros r1 [R1 I1].
    rewrite <- emul_double in R1. eapply wp_mono; [apply (IHk r1 (2 * m) A R1 I1)|]. cbv beta. intros r2 [R2 I2]. split; [|exact I2].
    rewrite Nat2Z.inj_succ, Z.pow_succ_r by lia. replace (2 * 2 ^ Z.of_nat k * m) with (2 ^ Z.of_nat k * (2 * m)) by ring. exact R2.
Qed.

Lemma wsum_low l : forall k, (forall i, 0 <= i < Z.of_nat k -> odd15 (digit l i)) -> (k <= length l)%nat ->
  exists low, wsum 16 l = low + 16 ^ Z.of_nat k * wsum 16 (skipn k l) /\ - 16 ^ Z.of_nat k < low < 16 ^ Z.of_nat k.
Proof.
  induction l as [|d l IH]; intros [|k] H L; try (exists 0; cbn [skipn Z.of_nat]; rewrite ?Z.pow_0_r; cbn [skipn]; lia); [cbn in L; lia|].
  destruct (IH k) as (low & E0 & B).
  { intros i Hi. specialize (H (i + 1) ltac:(lia)). unfold digit in *. replace (Z.to_nat (i + 1)) with (S (Z.to_nat i)) in H by lia. exact H. }
  { cbn in L. lia. }
  exists (d + 16 * low). cbn [skipn wsum]. rewrite E0, Nat2Z.inj_succ, Z.pow_succ_r by lia. split; [ring|].
  destruct (H 0 ltac:(lia)) as [_ D]. unfold digit in D. cbn in D. lia.
Qed.

(** the value of the digits from [k] on is odd and not a multiple of the group order *)
Lemma wsum_suffix l k : Z.of_nat (length l) = 65 -> (forall i, 0 <= i < 65 -> odd15 (digit l i)) -> - 2 ^ 256 < wsum 16 l < 2 ^ 256 ->
  1 <= k <= 64 -> wsum 16 (skipn (Z.to_nat k) l) mod n <> 0.
Proof.
  intros L D R K E0. destruct (wsum_low l (Z.to_nat k)) as (low & EW & B); [intros i Hi; apply D; lia | lia|].
  rewrite Z2Nat.id in * by lia. pose proof (skipn_digit l k ltac:(lia)) as SK. set (m := wsum 16 (skipn (Z.to_nat k) l)) in *.
  assert (M : m mod 2 = 1).
  { unfold m. rewrite SK. cbn [wsum]. replace (digit l k + 16 * wsum 16 (skipn (Z.to_nat (k + 1)) l)) with (digit l k + (8 * wsum 16 (skipn (Z.to_nat (k + 1)) l)) * 2) by ring.
    rewrite Z.mod_add by lia. apply D. lia. }
  assert (P : 16 <= 16 ^ k) by (change 16 with (16 ^ 1) at 1; apply Z.pow_le_mono_r; lia).
  pose proof n_big. assert (P255 : 2 ^ 256 = 2 * 2 ^ 255) by reflexivity. assert (PB : 100 < 2 ^ 255) by reflexivity.
  assert (- n < m < n) by nia.
  destruct (Z.eq_dec m 0) as [->|NZ]; [discriminate M|].
  destruct (Z.lt_ge_cases m 0).
  - rewrite <- (Z.mod_add m 1 n), Z.mod_small in E0 by lia. lia.
  - rewrite Z.mod_small in E0 by lia. lia.
Qed.

Lemma ecmult_const_loop_ok v t A l : A <> e0 -> Forall2 (aokc v) t (odds A 8 1) -> Z.of_nat (length l) = 65 ->
  (forall i, 0 <= i < 65 -> odd15 (digit l i)) -> - 2 ^ 256 < wsum 16 l < 2 ^ 256 ->
  forall k tmpa r, (k <= 64)%nat -> jok v r (emul (wsum 16 (skipn k l)) A) ->
  wp (ecmult_const_loop dbg k t l tmpa r) (fun r' => jok v r' (emul (wsum 16 l) A)).
Proof.
  intros N T L D R. induction k; intros tmpa r HK H; [exact H|].
  cbn [ecmult_const_loop]. set (i := Z.of_nat k). assert (KI : k = Z.to_nat i) by (unfold i; lia).
  assert (IR : j_inf r = false).
  { apply (jok_fin _ _ _ H). intros E0. apply emul_eq0 in E0; [|exact N]. revert E0.
    replace (S k) with (Z.to_nat (i + 1)) by lia. apply wsum_suffix; [exact L | exact D | exact R | lia]. }
  eapply wp_bind; [apply double_nonzero_n_ok; [exact H | exact IR]|]. cbv beta. intros r1 [R1 I1]. change (2 ^ Z.of_nat 4) with 16 in R1.
  rewrite idx_digit by lia. cbn [bind].
  eapply wp_bind; [apply (table_get_ge_const_ok v t A); [exact T | apply D; lia]|]. cbv beta. intros ta [TA TI].
  apply wp_dassert. { destruct (D i ltac:(lia)) as [O _]. destruct (Z.eqb_spec (digit l i) 0) as [E0|]; [rewrite E0 in O; discriminate O | reflexivity]. }
  eapply wp_bind; [apply j_add_ge_ok; [apply jok_w; exact R1 | exact TA | exact TI]|]. cbv beta. intros r2 R2.
  apply IHk; [lia|]. rewrite KI, (skipn_digit l i) by lia. cbn [wsum]. replace (Z.to_nat (i + 1)) with (S k) by lia.
  rewrite emul_add, eadd_comm. exact R2.
Qed.

Lemma Forall2_impl' {X Y} (P Q : X -> Y -> Prop) l m : (forall x y, P x y -> Q x y) -> Forall2 P l m -> Forall2 Q l m.
Proof. intros H F. induction F; constructor; auto. Qed.

(** the rest of the multiplication, for whatever odd digits the recoding returned *)
Lemma ecmult_const_from a A sc l skew : aok 6 f1 a A -> A <> e0 -> ecmult_wnaf_const dbg 65 sc 4 = Some (l, skew) ->
  Z.of_nat (length l) = 65 -> (skew = 1 \/ skew = 2) -> (forall i, 0 <= i < 65 -> odd15 (digit l i)) -> - 2 ^ 256 < wsum 16 l < 2 ^ 256 ->
  wp (ecmult_const dbg a sc) (fun r => jok f1 r (emul (wsum 16 l - skew) A)).
Proof.
  intros HA N HW L SK D R. pose proof (aok_fin _ _ _ _ HA N) as IA. unfold ecmult_const, WINDOW_A. change (5 - 1) with 4. rewrite HW.
  change (bind (Some ?x) ?f) with (f x). cbv beta iota.
  set (k := wsum 16 l - skew).
  eapply wp_bind; [apply j_set_ge_ok; exact HA|]. cbv beta. intros r (J & _).
  eapply wp_bind; [apply table_windowa_ok; [exact J | exact N]|]. cbv beta. intros [ta z] (v & NV & ZV & TA).
  eapply wp_bind.
  { eapply (mapo_ok _ (aokf 6 v) (aokc v)); [exact TA|]. intros q Q [Hq Iq]. apply aok_elim in Hq. destruct Hq as (x & y & X & Y & Hq). rewrite Iq in *.
    fs. apply wp_some. split; [|split; [eapply frep_ok; [eassumption | lia] | reflexivity]]. eapply aok_intro; [exact X | fr | exact Hq]. }
  cbv beta. intros t T. rewrite idx_digit by lia. cbn [bind].
  apply wp_dassert. { destruct (D 64 ltac:(lia)) as [O _]. destruct (Z.eqb_spec (digit l 64) 0) as [E0|]; [rewrite E0 in O; discriminate O | reflexivity]. }
  eapply wp_bind; [apply (table_get_ge_const_ok v t A); [exact T | apply D; lia]|]. cbv beta. intros tmpa [TM TI].
  eapply wp_bind; [apply j_set_ge_oku; exact TM|]. cbv beta. intros r1 [R1 _].
  eapply wp_bind.
  { apply (ecmult_const_loop_ok v t A l N T L D R 64%nat); [lia|]. change 64%nat with (Z.to_nat 64). rewrite (skipn_digit l 64) by lia. cbn [wsum].
    rewrite (wsum_skip_zero 16 l); [rewrite Z.mul_0_r, Z.add_0_r; exact R1|]. intros i Hi. unfold digit. apply nth_overflow. lia. }
  cbv beta. intros r2 R2.
  assert (SM : wsum 16 l = k + skew) by (unfold k; lia).
  rewrite SM in R2.
  pose proof R2 as RR. apply jok_elim in RR. destruct RR as (x & y & zz & X & Y & ZZ & RP).
  fs. match goal with K : frep 1 ?f (zz * v)%F |- _ => rename f into rz; pose proof K as RZ end.
  change (bind (Some ?x) ?f) with (f x). cbv beta.
  assert (R3 : jok f1 (Ja (j_x r2) (j_y r2) rz (j_inf r2)) (emul (k + skew) A)).
  { eapply jok_intro; [exact X | exact Y | exact RZ | lia | lia | lia |]. destruct (j_inf r2); [exact RP|].
    eapply jpt_ext; [exact RP | reflexivity | reflexivity | ring]. }
  eapply wp_bind; [apply j_set_ge_ok; exact HA|]. cbv beta. intros tj (TJ & _).
  eapply wp_bind; [apply j_double_ok; exact TJ|]. cbv beta. intros t2 (T2 & _).
  assert (EA2 : eadd A A = emul 2 A) by (rewrite <- (emul_1 A) at 1 2; rewrite <- emul_add; reflexivity). rewrite EA2 in T2.
  assert (N2 : emul 2 A <> e0).
  { intros E0. apply emul_eq0 in E0; [|exact N]. rewrite n_eq in E0. discriminate E0. }
  pose proof (jok_fin _ _ _ T2 N2) as I2.
  eapply wp_bind; [apply af_set_gej_ok; exact T2|]. cbv beta. intros cor [CO CI].
  eapply wp_bind; [apply (af_to_storage_ok dbg 6); [exact HA | lia | exact IA]|]. cbv beta. intros c1 C1.
  eapply wp_bind; [apply (af_to_storage_ok dbg 1); [exact CO | lia | congruence]|]. cbv beta. intros a2 A2.
  change (bind (Some ?x) ?f) with (f x). cbv beta.
  pose proof (as_cmov_ok _ _ _ _ (skew =? 2) C1 A2) as CM.
  assert (CE : (if skew =? 2 then emul 2 A else A) = emul skew A) by (destruct SK as [-> | ->]; [symmetry; apply emul_1 | reflexivity]).
  rewrite CE in CM.
  destruct (af_from_storage_ok _ _ CM) as [CF CFI].
  eapply wp_bind; [apply (af_neg_ok dbg 1); [exact CF | lia]|]. cbv beta. intros co [C2 C2I].
  eapply wp_mono; [apply j_add_ge_ok; [apply jok_w; exact R3 | exact (aok_mono _ 6 _ _ _ C2 ltac:(lia)) | congruence]|].
  cbv beta. intros r3 R4. rewrite <- emul_sub in R4. replace (k + skew - skew) with k in R4 by lia. exact R4.
Qed.
Theorem ecmult_const_ok a A k : aok 6 f1 a A -> A <> e0 -> 0 <= k < n ->
  wp (ecmult_const dbg a (scalar_of k)) (fun r => jok f1 r (emul k A)).
Proof.
  intros HA N HK. destruct (wp_inv _ _ (ecmult_wnaf_const_ok dbg k HK)) as ([l skew] & HW & L & SK & D & R & S). pose proof n_lt.
  eapply wp_mono; [apply (ecmult_const_from a A _ l skew HA N HW L SK D); lia|]. cbv beta. intros r J.
  replace (emul k A) with (emul (wsum 16 l - skew) A); [exact J|].
  rewrite <- (emul_mod (wsum 16 l - skew)), <- (emul_mod k). f_equal. rewrite Zminus_mod, S, <- Zminus_mod. f_equal. lia.
Qed.

End B.
