(** Multiplication with tables holding arbitrary points. *)
From Coq Require Import Znumtheory Field.
From Verif Require Import Word MField MScalar MGroup MEcmult MRaw WP FieldMul FieldNorm Spec Fp Bits FieldOps FieldStore
  ScalarMul ScalarOps ScalarMore ScalarBits Denote Curve Group Chain OrderCert Order Jac JacOps Lift Table Wnaf Ecmult Gen Key Ctx FieldCodec ApiScalar ApiPub Ecdsa MEcdsa.

Section B.
Variable dbg : bool.

(** ** The recoding of a small odd number has one digit *)
Lemma wnaf_loop_zero w sign d l : 0 <= d < 2 ^ 256 -> forall fuel bit last, 0 <= bit <= 256 -> 256 - bit <= Z.of_nat fuel -> d < 2 ^ bit ->
  wnaf_loop dbg fuel (scalar_of d) 256 w sign bit 0 last l = Some (l, 256, 0, last).
Proof.
  intros D. induction fuel as [|f IH]; intros bit last B F H; cbn [wnaf_loop].
  - replace bit with 256 by lia. reflexivity.
  - destruct (Z.ltb_spec bit 256) as [L|L]; [|replace bit with 256 by lia; reflexivity].
    destruct (wp_ex _ _ (s_bits_ok dbg (scalar_of d) bit 1 (scalar_of_u d) ltac:(lia) ltac:(lia) ltac:(lia) ltac:(f_equal; lia))) as (r & -> & ->). cbn [bind].
    rewrite scalar_of_sv, Z.div_small by lia. change (0 mod 2 ^ 1 =? 0) with true. cbv iota. apply IH; [lia | lia|].
    rewrite Z.pow_add_r by lia. lia.
Qed.
Lemma wnaf_loop_S f s w sign bit carry last l : wnaf_loop dbg (S f) s 256 w sign bit carry last l =
  if bit <? 256 then
    let* b := s_bits dbg s bit 1 in
    if b =? carry then wnaf_loop dbg f s 256 w sign (bit + 1) carry last l
    else
      let! now := if 256 - bit <? w then 256 - bit else w in
      let* bv := s_bits_var dbg s bit now in
      let* word := ichk dbg (bv + carry) in
      let! carry := Z.land (Z.shiftr word (w - 1)) 1 in
      let* word := ichk dbg (word - shl_i32 carry w) in
      let* v := ichk dbg (sign * word) in
      let* wnaf := upd l bit v in
      wnaf_loop dbg f s 256 w sign (bit + now) carry bit wnaf
  else Some (l, bit, carry, last).
Proof. reflexivity. Qed.
Lemma zeros_upd d : upd (repeat 0 (Z.to_nat 256)) 0 d = Some (d :: repeat 0 255).
Proof. reflexivity. Qed.
Lemma wnaf_small w d : 2 <= w <= 30 -> d mod 2 = 1 -> 0 < d < 2 ^ (w - 1) ->
  ecmult_wnaf dbg 256 (scalar_of d) w = Some (d :: repeat 0 255, 1).
Proof.
  intros W O D. unfold ecmult_wnaf. assert (PW : 2 ^ (w - 1) <= 2 ^ 29) by (apply Z.pow_le_mono_r; lia). assert (PW2 : 2 ^ w = 2 * 2 ^ (w - 1)) by (rewrite <- Z.pow_succ_r by lia; f_equal; lia).
  assert (D256 : 0 <= d < 2 ^ 256) by lia.
  rewrite !dassert_true. cbn [bind]. replace ((2 <=? w) && (w <=? 31))%bool with true by (symmetry; apply andb_true_iff; split; apply Z.leb_le; lia). rewrite dassert_true. cbn [bind].
  destruct (wp_ex _ _ (s_bits_ok dbg (scalar_of d) 255 1 (scalar_of_u d) ltac:(lia) ltac:(lia) ltac:(lia) eq_refl)) as (r & -> & ->). cbn [bind].
  rewrite scalar_of_sv, Z.div_small by lia. change (0 <? 0 mod 2 ^ 1) with false. cbv iota. cbn [bind].
  pose proof (zeros_upd d) as ZU. set (zs := repeat 0 (Z.to_nat 256)) in *. clearbody zs. change (Z.to_nat 256) with (S 255). rewrite wnaf_loop_S. change (0 <? 256) with true. cbv iota.
  destruct (wp_ex _ _ (s_bits_ok dbg (scalar_of d) 0 1 (scalar_of_u d) ltac:(lia) ltac:(lia) ltac:(lia) eq_refl)) as (r & -> & ->). cbn [bind].
  rewrite scalar_of_sv by lia. rewrite Z.pow_0_r, Z.div_1_r. change (2 ^ 1) with 2. rewrite O. change (1 =? 0) with false. cbv iota.
  destruct (Z.ltb_spec (256 - 0) w) as [L|_]; [lia|]. change (bind (Some ?x) ?f) with (f x). cbv beta.
  destruct (wp_ex _ _ (s_bits_var_ok dbg (scalar_of d) 0 w (scalar_of_u d) ltac:(lia) ltac:(lia) ltac:(lia))) as (r & -> & ->). cbn [bind].
  rewrite scalar_of_sv by lia. rewrite Z.pow_0_r, Z.div_1_r, Z.mod_small, Z.add_0_r by lia.
  rewrite ichk_small by lia. cbn [bind]. change (bind (Some ?x) ?f) with (f x). cbv beta.
  rewrite Z.shiftr_div_pow2, Z.div_small by lia. change (Z.land 0 1) with 0. rewrite shl_i32_pow, Z.mul_0_l, Z.sub_0_r by (auto; lia).
  rewrite ichk_small by lia. cbn [bind]. rewrite Z.mul_1_l, ichk_small by lia. cbn [bind].
  rewrite ZU. cbn [bind].
  rewrite wnaf_loop_zero; [|exact D256 | lia | lia | rewrite Z.add_0_l; lia]. cbn [bind]. change (0 =? 0) with true. rewrite dassert_true. cbn [bind].
  change (high_bits_zero dbg 256 (scalar_of d) 256) with (Some true). cbn [bind]. rewrite dassert_true. destruct dbg; reflexivity.
Qed.

(** ** One entry of the verification table *)
Lemma ecmult_entry t i s Q j A : nth_error t i = Some s -> (i < ECMULT_TABLE_SIZE_G)%nat -> asok s Q -> jok f1 j A -> A <> e0 ->
  wp (ecmult dbg (Ctx t) j (scalar_of 1) (scalar_of (2 * Z.of_nat i + 1))) (fun r => jok f1 r (eadd A Q)).
Proof.
  intros NI LI HS HJ N. unfold ecmult. set (d := 2 * Z.of_nat i + 1). unfold ECMULT_TABLE_SIZE_G in LI. assert (D : 0 < d < 32768) by (unfold d; lia).
  assert (OD : d mod 2 = 1). { unfold d. rewrite Z.add_comm, Z.mul_comm, Z.mod_add by lia. reflexivity. }
  unfold WINDOW_A, WINDOW_G. rewrite wnaf_small by (reflexivity || lia). cbn [bind].
  eapply wp_bind; [apply table_windowa_ok; [exact HJ | exact N]|]. cbv beta. intros [ta z] (v & NV & ZV & TA).
  rewrite wnaf_small by (first [exact OD | split; [lia | change (2 ^ (16 - 1)) with 32768; lia] | lia]). cbn [bind].
  change (bind (Some ?x) ?f) with (f x). cbv beta. change (1 <? 1) with false. cbv iota. change (Z.to_nat 1) with 1%nat.
  eapply (wp_bind _ _ (fun r => jok v r (eadd A Q))).
  { cbn [ecmult_loop]. change (bind (Some (Z.of_nat 0)) ?f) with (f (Z.of_nat 0)). cbv beta. change (Z.of_nat 0) with 0.
    assert (J0 : jok v j_set_infinity e0) by (apply jok_default; reflexivity).
    eapply wp_bind; [apply j_double_ok; exact J0|]. cbv beta. intros r1 [R1 _]. rewrite eadd_0_r in R1.
    change (idx (1 :: repeat 0 255) 0) with (Some 1). cbn [bind]. change ((0 <? 1) && negb (1 =? 0))%bool with true. cbv iota.
    eapply (wp_bind _ _ (fun r => jok v r A)).
    { eapply wp_bind; [apply (table_get_ge_ok dbg v ta A 8 5 1); [lia | reflexivity | exact TA | reflexivity | lia]|]. cbv beta. intros a HA. rewrite emul_1 in HA.
      eapply wp_mono; [apply j_add_ge_v_ok; [exact R1 | exact HA]|]. cbv beta. intros r2 R2. rewrite eadd_0_l in R2. exact R2. }
    cbv beta. intros r2 R2. change (idx (d :: repeat 0 255) 0) with (Some d). cbn [bind].
    destruct (Z.eqb_spec d 0) as [E0|_]; [lia|]. change ((0 <? 1) && negb false)%bool with true. cbv iota.
    eapply (wp_bind _ _ (fun r => jok v r (eadd A Q))).
    { unfold table_get_ge_storage. change WINDOW_G with 16. rewrite digit_asserts_ok by (first [exact OD | change (2 ^ (16 - 1)) with 32768; lia | lia]). cbn [bind].
      destruct (Z.ltb_spec 0 d) as [_|]; [|lia].
      assert (QI : Z.quot (d - 1) 2 = Z.of_nat i). { unfold d. rewrite Z.add_simpl_r, Z.mul_comm, Z.quot_mul by lia. reflexivity. }
      rewrite QI, idx_nth, Nat2Z.id, NI by lia. cbn [bind]. destruct (af_from_storage_ok _ _ HS) as [AF _].
      eapply (j_add_zinv_var_ok dbg v _ _ z); [exact R2 | exact (aok_mono _ 6 _ _ _ AF ltac:(lia)) | exact ZV | exact NV]. }
    cbv beta. intros r3 R3. apply wp_some. exact R3. }
  cbv beta. intros r R. pose proof R as RR. apply jok_elim in R. destruct R as (x & y & zz & X & Y & ZZ & R).
  destruct (j_inf r) eqn:I.
  - apply wp_some. rewrite R in *. destruct RR as (RX & RY & RZ & RP). split; [exact RX|]. split; [exact RY|]. split; [exact RZ|]. rewrite I. reflexivity.
  - fs. apply wp_some. eapply jok_intro; [exact X | exact Y | eassumption | lia | lia | lia |].
    eapply jpt_ext; [exact R | reflexivity | reflexivity | ring].
Qed.

(** ** The generator table: the entries picked by the hexadecimal digits of [g] *)
Fixpoint epicks (rows : list (list E)) (j g : Z) : list E :=
  match rows with [] => [] | row :: t => nth (Z.to_nat ((g / 16 ^ j) mod 16)) row e0 :: epicks t (j + 1) g end.
Lemma ecmult_gen_loop_any g : 0 <= g < 2 ^ 256 -> forall prec rows j adds r R, Forall2 (Forall2 asok) prec rows -> Forall (fun row => length row = 16%nat) rows -> 0 <= j ->
  j + Z.of_nat (length rows) = 64 -> jokw dbg f1 r R ->
  wp (ecmult_gen_loop dbg prec j (scalar_of g) adds r) (fun r' => jok f1 r R \/ prec <> [] -> jok f1 r' (eadd R (esum (epicks rows j g)))).
Proof.
  intros HG. induction prec as [|row prec IH]; intros rows j adds r R HP LR J0 JL HR.
  - destruct rows; [|inversion HP]. cbn [ecmult_gen_loop]. apply wp_some. cbn [esum epicks]. rewrite eadd_0_r. intros [K|K]; [exact K | contradiction].
  - destruct rows as [|er rows]; [inversion HP|]. apply Forall2_inv in HP. destruct HP as [HROW HREST]. inversion LR as [|? ? L16 LREST]; subst. cbn [ecmult_gen_loop].
    cbn [length] in JL. assert (J64 : j < 64) by lia.
    eapply wp_bind. { apply s_bits_ok; [apply scalar_of_u | lia | lia | lia | Z.to_euclidean_division_equations; lia]. }
    cbv beta. intros bits BITS. rewrite scalar_of_sv in BITS by exact HG. rewrite (Z.mul_comm j 4), Z.pow_mul_r in BITS by lia. change (2 ^ 4) with 16 in BITS.
    pose proof (Z.mod_pos_bound (g / 16 ^ j) 16 ltac:(lia)) as BB. rewrite <- BITS in BB.
    change (bind (Some ?x) ?f) with (f x). cbv beta.
    destruct (Forall2_nth _ _ _ HROW (Z.to_nat bits) (nth (Z.to_nat bits) er e0)) as (a & NA & HA).
    { apply nth_error_nth'. lia. }
    rewrite (gen_select_ok row 0 bits adds a) by (rewrite ?Z.sub_0_r; assumption || lia).
    destruct (af_from_storage_ok _ _ HA) as [AF AI].
    eapply wp_bind; [apply j_add_ge_ok; [exact HR | exact (aok_mono _ 6 _ _ _ AF ltac:(lia)) | exact AI]|]. cbv beta. intros r1 R1.
    eapply wp_mono; [apply (IH rows (j + 1) a r1 _ HREST LREST ltac:(lia) ltac:(lia) (jok_w _ _ _ _ R1))|]. cbv beta zeta.
    cbn [epicks esum]. rewrite <- BITS, eadd_assoc. intros r2 R2 _. apply R2. left. exact R1.
Qed.
Lemma ecmult_gen_value prec rows b ini I k : Forall2 (Forall2 asok) prec rows -> Forall (fun row => length row = 16%nat) rows -> length rows = 64%nat ->
  jlok ini I -> 0 <= b < n -> 0 <= k < n ->
  wp (ecmult_gen dbg (GCtx prec (scalar_of b) ini) (scalar_of k)) (fun r => jok f1 r (eadd I (esum (epicks rows 0 ((k + b) mod n))))).
Proof.
  intros HP LR L HI HB HK. unfold ecmult_gen. rewrite s_add_eq by assumption. cbn [bind]. pose proof n_lt as NL. pose proof (Z.mod_pos_bound (k + b) n ltac:(lia)).
  eapply wp_mono; [apply (ecmult_gen_loop_any ((k + b) mod n) ltac:(lia) prec rows 0 as_default ini I HP LR); [lia | rewrite L; reflexivity | exact (jlok_w dbg _ _ HI)]|].
  cbv beta. intros r R. apply R. right. intros ->. inversion HP; subst; discriminate L.
Qed.
End B.

(** ** Digits *)
Lemma digit_lo g i j m : 0 <= m < j -> (g + i * 16 ^ j) / 16 ^ m mod 16 = (g / 16 ^ m) mod 16.
Proof.
  intros M. replace (i * 16 ^ j) with ((i * 16 ^ (j - m - 1) * 16) * 16 ^ m).
  2:{ replace j with (m + (1 + (j - m - 1))) at 2 by lia. rewrite !Z.pow_add_r by lia. ring. }
  rewrite Z.div_add by (apply Z.pow_nonzero; lia). apply Z.mod_add. lia.
Qed.
Lemma digit_hi g i j m : 0 <= j < m -> g mod 16 ^ (j + 1) < 16 ^ j -> 0 <= i < 16 -> (g + i * 16 ^ j) / 16 ^ m = g / 16 ^ m.
Proof.
  intros M H I. replace m with (j + 1 + (m - (j + 1))) by lia. rewrite Z.pow_add_r by lia. assert (0 < 16 ^ j) by (apply Z.pow_pos_nonneg; lia).
  assert (PJ : 16 ^ (j + 1) = 16 * 16 ^ j) by (rewrite Z.pow_add_r by lia; ring). assert (0 < 16 ^ (m - (j + 1))) by (apply Z.pow_pos_nonneg; lia).
  rewrite <- !Z.div_div by lia. f_equal. pose proof (Z.div_mod g (16 ^ (j + 1)) ltac:(lia)) as DM. pose proof (Z.mod_pos_bound g (16 ^ (j + 1)) ltac:(lia)).
  symmetry. apply (Z.div_unique _ _ _ (g mod 16 ^ (j + 1) + i * 16 ^ j)); [left; nia | lia].
Qed.
Lemma digit_at g i j : 0 <= j -> 0 <= g -> g mod 16 ^ (j + 1) < 16 ^ j -> 0 <= i < 16 -> (g + i * 16 ^ j) / 16 ^ j mod 16 = i.
Proof.
  intros J G0 H I. assert (0 < 16 ^ j) by (apply Z.pow_pos_nonneg; lia). assert (PJ : 16 ^ (j + 1) = 16 ^ j * 16) by (rewrite Z.pow_add_r by lia; ring).
  rewrite Z.div_add by lia. rewrite PJ, Z.rem_mul_r in H by lia. pose proof (Z.mod_pos_bound g (16 ^ j) ltac:(lia)). pose proof (Z.mod_pos_bound (g / 16 ^ j) 16 ltac:(lia)).
  rewrite Z.add_mod by lia. replace ((g / 16 ^ j) mod 16) with 0 by nia. rewrite Z.add_0_l, Z.mod_mod, Z.mod_small by lia. reflexivity.
Qed.

(** ** Sums that differ in one row *)
Lemma epicks_same rows : forall j g g', (forall m, j <= m -> g / 16 ^ m mod 16 = g' / 16 ^ m mod 16) -> epicks rows j g = epicks rows j g'.
Proof. induction rows as [|row rows IH]; intros j g g' H; [reflexivity|]. cbn [epicks]. rewrite (H j) by lia. f_equal. apply IH. intros m M. apply H. lia. Qed.
Lemma eadd_swap3 A B C : eadd (eadd A B) C = eadd (eadd C B) A.
Proof. rewrite (eadd_comm _ C), (eadd_comm A B), eadd_assoc. reflexivity. Qed.
Lemma epicks_diff rows : forall q j g g' row, nth_error rows q = Some row -> (forall m, j <= m -> m <> j + Z.of_nat q -> g / 16 ^ m mod 16 = g' / 16 ^ m mod 16) ->
  eadd (esum (epicks rows j g)) (nth (Z.to_nat ((g' / 16 ^ (j + Z.of_nat q)) mod 16)) row e0) =
  eadd (esum (epicks rows j g')) (nth (Z.to_nat ((g / 16 ^ (j + Z.of_nat q)) mod 16)) row e0).
Proof.
  induction rows as [|r0 rows IH]; intros [|q] j g g' row NR H; try discriminate NR; cbn [nth_error epicks esum] in *.
  - apply Some_inv in NR. subst r0. change (Z.of_nat 0) with 0 in *. rewrite Z.add_0_r in *. rewrite (epicks_same rows (j + 1) g g') by (intros m M; apply H; lia).
    apply eadd_swap3.
  - rewrite (H j) by lia. rewrite <- !eadd_assoc. f_equal. replace (j + Z.of_nat (Datatypes.S q)) with (j + 1 + Z.of_nat q) in * by lia. apply IH; [exact NR|]. intros m M N. apply H; lia.
Qed.

Lemma nth_error_ext {X} (l : list X) : forall m, (forall i, nth_error l i = nth_error m i) -> l = m.
Proof.
  induction l as [|x l IH]; intros [|y m] H; [reflexivity | discriminate (H 0%nat) | discriminate (H 0%nat)|].
  pose proof (H 0%nat) as H0. apply Some_inv in H0. subst y. f_equal. apply IH. intros i. exact (H (Datatypes.S i)).
Qed.

(** ** A table that gives the right multiple for all scalars but one holds the right points *)
Section C.
Variables (rows : list (list E)) (b : Z) (I : E).
Hypotheses (L : length rows = 64%nat) (LR : Forall (fun row => length row = 16%nat) rows) (HB : 0 <= b < n).
Hypothesis H : forall g, 0 <= g < n -> g <> b -> eadd I (esum (epicks rows 0 g)) = emul (g - b) eG.

Lemma row_step q row i : nth_error rows q = Some row -> (1 <= i < 16)%nat -> nth i row e0 = eadd (nth 0 row e0) (emul (Z.of_nat i * 16 ^ Z.of_nat q) eG).
Proof.
  intros NR IR. assert (QL : (q < 64)%nat) by (rewrite <- L; apply nth_error_Some; congruence).
  set (j := Z.of_nat q). assert (J : 0 <= j < 64) by (unfold j; lia). set (iz := Z.of_nat i). assert (IZ : 1 <= iz < 16) by (unfold iz; lia).
  assert (PJ : 1 <= 16 ^ j <= 16 ^ 63) by (split; [change 1 with (16 ^ 0); apply Z.pow_le_mono_r; lia | apply Z.pow_le_mono_r; lia]).
  assert (NB : 15 * 16 ^ 63 + 16 < n) by (rewrite n_eq; reflexivity).
  (* two candidate pairs of scalars; the blinding scalar is in at most one of them *)
  assert (PAIR : exists g, (g = 0 \/ g = (if q then 16 else 1)) /\ g <> b /\ g + iz * 16 ^ j <> b).
  { destruct (Z.eq_dec 0 b) as [E0|N0]; [|destruct (Z.eq_dec (0 + iz * 16 ^ j) b) as [E1|N1]].
    - exists (if q then 16 else 1). split; [right; reflexivity|]. destruct q; nia.
    - exists (if q then 16 else 1). split; [right; reflexivity|]. split; [|destruct q; lia]. rewrite <- E1. destruct q as [|q']; unfold j.
      + change (16 ^ Z.of_nat 0) with 1. lia.
      + replace (Z.of_nat (Datatypes.S q')) with (1 + Z.of_nat q') by lia. rewrite Z.pow_add_r by lia. assert (0 < 16 ^ Z.of_nat q') by (apply Z.pow_pos_nonneg; lia). nia.
    - exists 0. auto. }
  destruct PAIR as (g & HG & N1 & N2). assert (G0 : 0 <= g <= 16) by (destruct HG as [->| ->]; [lia | destruct q; lia]).
  assert (GM : g mod 16 ^ (j + 1) < 16 ^ j).
  { destruct HG as [->| ->]; [rewrite Z.mod_0_l by (apply Z.pow_nonzero; lia); lia|]. unfold j. destruct q as [|q'].
    - reflexivity.
    - replace (Z.of_nat (Datatypes.S q')) with (1 + Z.of_nat q') by lia. assert (1 <= 16 ^ Z.of_nat q') by (change 1 with (16 ^ 0); apply Z.pow_le_mono_r; lia).
      rewrite !Z.pow_add_r by lia. change (16 ^ 1) with 16. rewrite Z.mod_small by lia. lia. }
  assert (R1 : 0 <= g < n) by nia. assert (R2 : 0 <= g + iz * 16 ^ j < n) by nia.
  pose proof (H g R1 N1) as E1. pose proof (H _ R2 N2) as E2.
  pose proof (epicks_diff rows q 0 (g + iz * 16 ^ j) g row NR) as D. fold j in D. rewrite Z.add_0_l in D.
  specialize (D ltac:(intros m M NM; destruct (Z.lt_ge_cases m j); [apply digit_lo; lia | rewrite digit_hi by lia; reflexivity])).
  rewrite digit_at in D by lia. pose proof (digit_at g 0 j ltac:(lia) ltac:(lia) GM ltac:(lia)) as D0. rewrite Z.mul_0_l, Z.add_0_r in D0. rewrite D0 in D. clear D0.
  change (Z.to_nat 0) with 0%nat in D. unfold iz in D at 2. rewrite Nat2Z.id in D.
  apply (f_equal (eadd I)) in D. rewrite !eadd_assoc, E1, E2 in D.
  replace (g + iz * 16 ^ j - b) with (g - b + iz * 16 ^ j) in D by ring. rewrite emul_add, <- eadd_assoc in D. apply eadd_cancel_l in D. rewrite <- D, eadd_comm. reflexivity.
Qed.
Lemma rows_grows : rows = grows (map (fun row => nth 0 row e0) rows) 0.
Proof.
  apply nth_error_ext. intros q. destruct (nth_error rows q) as [row|] eqn:NR.
  - rewrite (grows_nth _ 0 q (nth 0 row e0)) by (apply map_nth_error with (f := fun row => nth 0 row e0), NR). f_equal.
    assert (L16 : length row = 16%nat) by (rewrite Forall_forall in LR; apply LR; eapply nth_error_In; exact NR).
    apply nth_error_ext. intros i. destruct (Nat.lt_ge_cases i 16) as [LI|GE].
    + rewrite gpts_nth by exact LI. rewrite (nth_error_nth' row e0) by lia. f_equal. rewrite !Z.add_0_l, <- emul_mul. destruct i as [|i].
      * change (Z.of_nat 0) with 0. rewrite Z.mul_0_l, emul_0, eadd_0_r. reflexivity.
      * apply row_step; [exact NR | lia].
    + rewrite (proj2 (nth_error_None row i)) by lia. symmetry. apply nth_error_None. rewrite gpts_len. lia.
  - symmetry. apply nth_error_None. rewrite grows_len, map_length. apply nth_error_None, NR.
Qed.
End C.
Lemma esum_picks g : 0 <= g -> forall bs j, 0 <= j -> g < 16 ^ (j + Z.of_nat (length bs)) -> esum (epicks (grows bs j) j g) = eadd (esum bs) (emul (16 ^ j * (g / 16 ^ j)) eG).
Proof.
  intros G0. induction bs as [|a bs IH]; intros j J L; cbn [grows epicks esum length] in *.
  - change (Z.of_nat 0) with 0 in L. rewrite Z.add_0_r in L. rewrite Z.div_small by lia. rewrite Z.mul_0_r, emul_0, eadd_0_r. reflexivity.
  - rewrite IH by (try lia; replace (j + 1 + Z.of_nat (length bs)) with (j + Z.of_nat (Datatypes.S (length bs))) by lia; exact L).
    pose proof (Z.mod_pos_bound (g / 16 ^ j) 16 ltac:(lia)) as BB. set (d := (g / 16 ^ j) mod 16) in *.
    erewrite (nth_error_nth _ _ e0) by (apply gpts_nth; lia). rewrite Z2Nat.id, Z.add_0_l by lia. rewrite (digit16 g j J). fold d. rewrite emul_add, <- emul_mul, (Z.mul_comm d).
    set (X := emul (16 ^ j * d) eG). set (Y := emul (16 ^ (j + 1) * (g / 16 ^ (j + 1))) eG). rewrite <- !eadd_assoc. f_equal. rewrite !eadd_assoc. f_equal. apply eadd_comm.
Qed.
Lemma offsets_sum rows b I : length rows = 64%nat -> Forall (fun row => length row = 16%nat) rows -> 0 <= b < n ->
  (forall g, 0 <= g < n -> g <> b -> eadd I (esum (epicks rows 0 g)) = emul (g - b) eG) -> eadd I (esum (map (fun row => nth 0 row e0) rows)) = eopp (emul b eG).
Proof.
  intros L LR HB H. pose proof (rows_grows rows b I L LR HB H) as RG. assert (NB : 2 < n) by (rewrite n_eq; reflexivity). pose proof n_lt.
  assert (EX : exists g, 0 <= g < n /\ g <> b) by (destruct (Z.eq_dec b 0) as [->|]; [exists 1 | exists 0]; lia). destruct EX as (g & G0 & NE).
  specialize (H g G0 NE). rewrite RG in H. rewrite esum_picks in H by (rewrite ?map_length, ?L; change (16 ^ (0 + Z.of_nat 64)) with (2 ^ 256); lia).
  rewrite Z.pow_0_r, Z.div_1_r, Z.mul_1_l, eadd_assoc in H. set (S0 := eadd I _) in *. replace (g - b) with (- b + g) in H by ring. rewrite emul_add, (eadd_comm S0), (eadd_comm (emul (- b) eG)) in H.
  apply eadd_cancel_l in H. rewrite H, emul_opp. reflexivity.
Qed.
(** ** A table for another generator *)
Section D.
Variable dbg : bool.
Lemma ecmult_loop_at v z A B tg ta wa wg ba bg : v <> f0 -> frep 6 z v ->
  Forall2 asok tg (odds B ECMULT_TABLE_SIZE_G 1) -> Forall2 (aokf 6 v) ta (odds A 8 1) ->
  Z.of_nat (length wa) = 256 -> Z.of_nat (length wg) = 256 ->
  (forall i, ba <= i -> digit wa i = 0) -> (forall i, bg <= i -> digit wg i = 0) ->
  (forall i, 0 <= i -> wdigit 5 (digit wa i)) -> (forall i, 0 <= i -> wdigit 16 (digit wg i)) ->
  forall k r, Z.of_nat k <= 256 -> jok v r (eadd (emul (wsum 2 (skipn k wa)) A) (emul (wsum 2 (skipn k wg)) B)) ->
  wp (ecmult_loop dbg k tg ta z wa wg ba bg r) (fun r' => jok v r' (eadd (emul (wsum 2 wa) A) (emul (wsum 2 wg) B))).
Proof.
  intros NV ZV TG TA LA LG ZA ZG DA DG. induction k; intros r HK H; [exact H|].
  cbn [ecmult_loop]. change (bind (Some ?x) ?f) with (f x). cbv beta.
  set (i := Z.of_nat k). assert (KI : k = Z.to_nat i) by (unfold i; lia).
  eapply wp_bind; [apply j_double_ok; exact H|]. cbv beta. intros r1 [R1 _].
  rewrite idx_digit by lia. cbn [bind].
  pose proof (skipn_digit wa i ltac:(lia)) as SA. pose proof (skipn_digit wg i ltac:(lia)) as SG.
  replace (Z.to_nat (i + 1)) with (S k) in SA, SG by lia. rewrite <- KI in SA, SG.
  eapply (wp_bind _ _ (fun r => jok v r (eadd (emul (wsum 2 (skipn k wa)) A) (emul (2 * wsum 2 (skipn (S k) wg)) B)))).
  { rewrite SA. cbn [wsum]. set (da := digit wa i) in *.
    assert (R1' : jok v r1 (eadd (emul (2 * wsum 2 (skipn (S k) wa)) A) (emul (2 * wsum 2 (skipn (S k) wg)) B))).
    { rewrite !emul_double, <- eadd_4. exact R1. }
    destruct (Z.eqb_spec da 0) as [E0|NE].
    - rewrite Bool.andb_false_r. apply wp_some. rewrite E0, Z.add_0_l. exact R1'.
    - destruct (Z.ltb_spec i ba) as [LT|GE]; [|elim NE; apply ZA; lia]. cbn [andb negb].
      destruct (DA i ltac:(lia)) as [E0|[O R]]; [contradiction|]; change (digit wa i) with da in O, R.
      eapply wp_bind; [apply (table_get_ge_ok dbg v ta A 8 5 da); [lia | reflexivity | exact TA | exact O | exact R]|]. cbv beta. intros t T.
      eapply wp_mono; [apply j_add_ge_v_ok; [exact R1' | exact T]|]. cbv beta. intros r2 R2.
      rewrite emul_add. rewrite <- eadd_assoc, (eadd_comm (emul _ B)), eadd_assoc in R2. rewrite (eadd_comm (emul da A)). exact R2. }
  cbv beta. intros r2 R2. rewrite idx_digit by lia. cbn [bind].
  eapply (wp_bind _ _ (fun r => jok v r (eadd (emul (wsum 2 (skipn k wa)) A) (emul (wsum 2 (skipn k wg)) B)))).
  { rewrite SG. cbn [wsum]. set (dg := digit wg i) in *.
    destruct (Z.eqb_spec dg 0) as [E0|NE].
    - rewrite Bool.andb_false_r. apply wp_some. rewrite E0, Z.add_0_l. exact R2.
    - destruct (Z.ltb_spec i bg) as [LT|GE]; [|elim NE; apply ZG; lia]. cbn [andb negb].
      destruct (DG i ltac:(lia)) as [E0|[O R]]; [contradiction|]; change (digit wg i) with dg in O, R.
      eapply wp_bind; [apply (table_get_ge_storage_ok dbg tg B ECMULT_TABLE_SIZE_G 16 dg); [lia | unfold ECMULT_TABLE_SIZE_G; rewrite Z2Nat.id by lia; reflexivity | exact TG | exact O | exact R]|].
      cbv beta. intros t T.
      eapply wp_mono; [apply (j_add_zinv_var_ok dbg v _ _ z); [exact R2 | exact T | exact ZV | exact NV]|]. cbv beta. intros r3 R3.
      rewrite emul_add. rewrite <- eadd_assoc in R3. rewrite (eadd_comm (emul dg B)). exact R3. }
  cbv beta. intros r3 R3. apply IHk; [lia | exact R3].
Qed.
Lemma ecmult_at tg B j A na ng sa sg : Forall2 asok tg (odds B ECMULT_TABLE_SIZE_G 1) -> jok f1 j A -> A <> e0 -> recodes dbg WINDOW_A sa na -> recodes dbg WINDOW_G sg ng ->
  wp (ecmult dbg (Ctx tg) j sa sg) (fun r => jok f1 r (eadd (emul na A) (emul ng B))).
Proof.
  intros HC HJ N HA HG. unfold ecmult.
  eapply wp_bind; [exact HA|]. cbv beta. intros [wa ba] (LA & BA & SA & ZA & DA).
  eapply wp_bind; [apply table_windowa_ok; [exact HJ | exact N]|]. cbv beta. intros [ta z] (v & NV & ZV & TA).
  eapply wp_bind; [exact HG|]. cbv beta. intros [wg bg] (LG & BG & SG & ZG & DG).
  change (bind (Some ?x) ?f) with (f x). cbv beta. set (bits := if ba <? bg then bg else ba).
  assert (HB : ba <= bits /\ bg <= bits /\ 0 <= bits <= 256) by (unfold bits; destruct (Z.ltb_spec ba bg); lia).
  eapply wp_bind.
  { apply (ecmult_loop_at v z A B tg ta wa wg ba bg NV ZV HC TA LA LG ZA ZG DA DG (Z.to_nat bits)); [lia|].
    rewrite !wsum_skip_zero by (intros i Hi; first [apply ZA; lia | apply ZG; lia]).
    rewrite !emul_0, eadd_0_l. apply jok_default. reflexivity. }
  cbv beta. intros r R. rewrite (emul_wnaf _ _ _ SA), (emul_wnaf _ _ _ SG) in R.
  pose proof R as RR. apply jok_elim in R. destruct R as (x & y & zz & X & Y & ZZ & R).
  destruct (j_inf r) eqn:I.
  - apply wp_some. rewrite R in *. destruct RR as (RX & RY & RZ & RP). split; [exact RX|]. split; [exact RY|]. split; [exact RZ|]. rewrite I. reflexivity.
  - fs. apply wp_some. eapply jok_intro; [exact X | exact Y | eassumption | lia | lia | lia |].
    eapply jpt_ext; [exact R | reflexivity | reflexivity | ring].
Qed.
Definition vpoint_at (B A : E) (z r s : Z) : E := eadd (emul ((inv_mod n s * r) mod n) A) (emul ((inv_mod n s * z) mod n) B).
Lemma verify_raw_at tg B k A r s z : Forall2 asok tg (odds B ECMULT_TABLE_SIZE_G 1) -> aok 6 f1 k A -> A <> e0 -> 0 <= r < p -> 0 <= s < 2 ^ 256 -> 0 <= z < 2 ^ 256 ->
  wp (verify_raw dbg (Ctx tg) (scalar_of r) (scalar_of s) k (scalar_of z)) (fun b => b = true <-> r <> 0 /\ s <> 0 /\ xis (vpoint_at B A z r s) r).
Proof.
  intros HC HK NA R S Z. pose proof n_lt as NL. pose proof n_pos as NP. pose proof pnx as (PN & _ & P2). unfold verify_raw. rewrite !s_is_zero_eq by lia.
  destruct (Z.eqb_spec r 0) as [->|NR]; [cbn [orb]; apply wp_some; split; [discriminate | intros (H & _); contradiction]|].
  destruct (Z.eqb_spec s 0) as [->|NS]; [cbn [orb]; apply wp_some; split; [discriminate | intros (_ & H & _); contradiction]|]. cbn [orb].
  pose proof (inv_n_rng s) as WR. rewrite s_inv_eq by lia. cbn [bind]. rewrite s_mul_eq by lia. cbn [bind]. rewrite s_mul_eq by lia. cbn [bind].
  eapply wp_bind; [apply j_set_ge_ok; exact HK|]. cbv beta. intros j (J & _).
  assert (M1 : 0 <= (inv_mod n s * r) mod n < n) by (apply Z.mod_pos_bound; lia). assert (M2 : 0 <= (inv_mod n s * z) mod n < n) by (apply Z.mod_pos_bound; lia).
  eapply wp_bind; [apply (ecmult_at tg B j A ((inv_mod n s * r) mod n) ((inv_mod n s * z) mod n)); [exact HC | exact J | exact NA | apply recodes_ok; [exact M1 | unfold WINDOW_A; lia] | apply recodes_ok; [exact M2 | unfold WINDOW_G; lia]]|]. cbv beta. intros pr PR.
  fold (vpoint_at B A z r s) in PR. set (T := vpoint_at B A z r s) in *.
  assert (V : r <> 0 /\ s <> 0 /\ xis T r <-> xis T r) by tauto.
  destruct (j_inf pr) eqn:I.
  { apply wp_some. split; [discriminate|]. intros H. apply V in H. destruct H as (x & y & P & _). apply (jok_inf _ _ _ PR) in I. rewrite I in P. discriminate P. }
  assert (NT : T <> e0) by (intros E0; apply (jok_inf _ _ _ PR) in E0; congruence).
  destruct (pt T) as [|X Y] eqn:PT; [elim NT; apply pt_inj; exact PT|]. pose proof (val_range X) as XR.
  assert (V' : r <> 0 /\ s <> 0 /\ xis T r <-> val X = r \/ val X = r + n).
  { rewrite V. unfold xis. rewrite PT. split; [intros (x & y & E0 & H); injection E0 as -> ->; exact H | intros H; exists X, Y; auto]. }
  rewrite s_b32_eq by lia. cbn [bind]. eapply wp_bind; [apply f_set_b32_rep; apply be32_bytes|]. cbv beta. intros [xr ov] (_ & XF). rewrite be32_val in XF by lia. specialize (XF ltac:(lia)).
  eapply wp_bind; [eapply (j_eq_x_var_ok dbg pr T xr); [exact PR | exact PT | eapply fcrep_frep; [exact XF | lia]]|]. cbv beta. intros e ->.
  destruct (feqb_spec (toF r) X) as [EX|NX].
  { apply wp_some. split; [|reflexivity]. intros _. apply V'. left. rewrite <- EX. apply val_small. lia. }
  assert (NX' : val X <> r) by (intros E0; apply NX; rewrite <- E0; apply toF_val).
  eapply wp_bind; [eapply f_ge_rep; [exact XF | exact P_MINUS_ORDER_rep]|]. cbv beta. intros g ->. rewrite !val_small by lia.
  destruct (Z.leb_spec (p - n) r) as [GE|LT].
  { apply wp_some. split; [discriminate|]. intros H. apply V' in H. lia. }
  eapply wp_bind; [eapply (f_add_rep dbg _ _ _ _ 1 1); [apply fcrep_frep; [exact XF | lia] | apply fcrep_frep; [exact ORDER_AS_FE_rep | lia] | lia]|]. cbv beta. intros xr2 XF2.
  eapply wp_bind; [eapply (j_eq_x_var_ok dbg pr T xr2); [exact PR | exact PT | eapply frep_mono; [exact XF2 | lia]]|]. cbv beta. intros e ->.
  rewrite <- toF_add. destruct (feqb_spec (toF (r + n)) X) as [EX|NX2]; apply wp_some.
  - split; [|reflexivity]. intros _. apply V'. right. rewrite <- EX. apply val_small. lia.
  - split; [discriminate|]. intros H. apply V' in H. destruct H as [H|H]; [contradiction|]. elim NX2. rewrite <- H. apply toF_val.
Qed.
End D.
