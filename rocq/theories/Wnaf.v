(** The two wNAF recodings represent the scalar. *)
From Verif Require Import Word MField MScalar MGroup MEcmult WP Spec Fp Bits ScalarAcc ScalarMul ScalarOps ScalarRed ScalarMore ScalarBits Denote ApiScalar.

(** the integer with digits [l], least significant first, in base [B] *)
Fixpoint wsum (B : Z) (l : list Z) : Z := match l with [] => 0 | d :: t => d + B * wsum B t end.
(** digit at position [i] *)
Definition digit (l : list Z) (i : Z) : Z := nth (Z.to_nat i) l 0.

Lemma upd_nat_ok (l : list Z) : forall i v, (i < length l)%nat ->
  exists l', upd_nat l i v = Some l' /\ length l' = length l /\
    (forall j, nth j l' 0 = if Nat.eqb j i then v else nth j l 0) /\
    (forall B, wsum B l' = wsum B l + (v - nth i l 0) * B ^ Z.of_nat i).
Proof.
  induction l as [|d l IH]; intros i v H; [cbn in H; lia|]. destruct i as [|i]; cbn [upd_nat].
  - eexists. split; [reflexivity|]. split; [reflexivity|]. split.
    + intros [|j]; reflexivity.
    + intros B. cbn [wsum nth]. rewrite Z.pow_0_r. ring.
  - destruct (IH i v ltac:(cbn in H; lia)) as (l' & -> & L & N & W). eexists. split; [reflexivity|]. split; [cbn; lia|]. split.
    + intros [|j]; cbn; [reflexivity | apply N].
    + intros B. cbn [wsum nth]. rewrite W. rewrite Nat2Z.inj_succ, Z.pow_succ_r by lia. ring.
Qed.
Lemma upd_ok l i v : 0 <= i < Z.of_nat (length l) ->
  exists l', upd l i v = Some l' /\ length l' = length l /\
    (forall j, 0 <= j -> digit l' j = if j =? i then v else digit l j) /\
    (forall B, wsum B l' = wsum B l + (v - digit l i) * B ^ i).
Proof.
  intros H. destruct (upd_nat_ok l (Z.to_nat i) v ltac:(lia)) as (l' & E & L & N & W). exists l'. unfold upd, digit.
  rewrite (proj2 (Z.ltb_ge i 0)) by lia. split; [exact E|]. split; [exact L|]. split.
  - intros j Hj. rewrite N. destruct (Z.eqb_spec j i) as [->|NE]; [rewrite Nat.eqb_refl; reflexivity|].
    rewrite (proj2 (Nat.eqb_neq _ _)) by lia. reflexivity.
  - intros B. rewrite W. rewrite Z2Nat.id by lia. reflexivity.
Qed.
Lemma wsum_zeros B k : wsum B (repeat 0 k) = 0.
Proof. induction k; cbn; [reflexivity | rewrite IHk; ring]. Qed.
Lemma digit_zeros k i : digit (repeat 0 k) i = 0.
Proof. unfold digit. destruct (Nat.lt_ge_cases (Z.to_nat i) k); [apply nth_repeat | rewrite nth_overflow; [reflexivity | rewrite repeat_length; lia]]. Qed.

Lemma mod_split S a c : 0 <= a -> 0 <= c -> S mod 2 ^ (a + c) = S mod 2 ^ a + 2 ^ a * ((S / 2 ^ a) mod 2 ^ c).
Proof.
  intros. rewrite Z.pow_add_r by lia. rewrite Z.rem_mul_r; [reflexivity | |]; try apply Z.pow_nonzero; try lia; apply Z.pow_pos_nonneg; lia.
Qed.
Lemma mod2_cases S : S mod 2 = 0 \/ S mod 2 = 1. Proof. pose proof (Z.mod_pos_bound S 2). lia. Qed.
Lemma shl_i32_pow c w : (c = 0 \/ c = 1) -> 0 <= w <= 30 -> shl_i32 c w = c * 2 ^ w.
Proof.
  intros C W. unfold shl_i32. rewrite Z.shiftl_mul_pow2 by lia.
  assert (0 < 2 ^ w <= 2 ^ 30) by (split; [apply Z.pow_pos_nonneg; lia | apply Z.pow_le_mono_r; lia]).
  change (2 ^ 30) with 1073741824 in *. change (2 ^ 31) with 2147483648. change (2 ^ 32) with 4294967296.
  rewrite Z.mod_small by nia. lia.
Qed.
Lemma ichk_small dbg v : -2147483648 <= v <= 2147483647 -> ichk dbg v = Some v.
Proof. intros. apply ichk_ok. change (2 ^ 31) with 2147483648. lia. Qed.

(** the digit after subtracting the carry; for w = 31 the release build relies on wrap-around and the debug build panics *)
Lemma ichk_digit dbg word c w : (c = 0 \/ c = 1) -> (2 <= w <= 30 \/ (w = 31 /\ dbg = false)) -> 0 <= word < 2 ^ w ->
  ichk dbg (word - shl_i32 c w) = Some (word - c * 2 ^ w).
Proof.
  intros C [W|[-> ->]] H.
  - assert (0 < 2 ^ w <= 2 ^ 30) by (split; [apply Z.pow_pos_nonneg; lia | apply Z.pow_le_mono_r; lia]). change (2 ^ 30) with 1073741824 in *.
    rewrite shl_i32_pow by lia. apply ichk_small. destruct C as [-> | ->]; lia.
  - change (2 ^ 31) with 2147483648 in *. destruct C as [-> | ->].
    + change (shl_i32 0 31) with 0. rewrite Z.mul_0_l. apply ichk_small. lia.
    + change (shl_i32 1 31) with (-2147483648). unfold ichk. change (2 ^ 31) with 2147483648. change (2 ^ 32) with 4294967296.
      replace (word - -2147483648) with (word + 2147483648) by ring. rewrite (proj2 (Z.ltb_ge (word + 2147483648) _)) by lia. rewrite andb_false_r. f_equal.
      replace (word + 2147483648 + 2147483648) with (word + 1 * 4294967296) by ring. rewrite Z.mod_add, Z.mod_small by lia. lia.
Qed.

(** a digit is 0, or odd and of absolute value below 2^(w-1) *)
Definition wdigit (w d : Z) : Prop := d = 0 \/ (d mod 2 = 1 /\ - 2 ^ (w - 1) < d < 2 ^ (w - 1)).

Lemma odd_sign d : d mod 2 = 1 -> (- d) mod 2 = 1.
Proof. intros. Z.to_euclidean_division_equations; lia. Qed.

Section B.
Variable dbg : bool.

Section L.
Variables (s : scalar) (w sign : Z).
Hypothesis (SU : s_u s) (Hw : 2 <= w <= 31) (Hw2 : w = 31 -> dbg = false) (Hsign : sign = 1 \/ sign = -1) (HS : sv s < 2 ^ 255).
Let S := sv s.

Definition winv (bit carry last : Z) (l : list Z) : Prop :=
  0 <= bit <= 256 /\ (carry = 0 \/ carry = 1) /\ -1 <= last < Z.max 1 bit /\ Z.of_nat (length l) = 256 /\
  sign * wsum 2 l + carry * 2 ^ bit = S mod 2 ^ bit /\
  (carry = 1 -> 1 <= bit /\ 2 ^ (bit - 1) <= S mod 2 ^ bit) /\
  (forall i, bit <= i -> digit l i = 0) /\ (forall i, last < i -> digit l i = 0) /\
  (forall i, 0 <= i -> wdigit w (digit l i)) /\
  (forall i, 0 <= i -> digit l i <> 0 -> i + w <= bit \/ bit = 256) /\
  (forall i j, 0 <= i < j -> digit l i <> 0 -> digit l j <> 0 -> i + w <= j).

Lemma wnaf_loop_ok : forall fuel bit carry last l, winv bit carry last l -> 256 - bit <= Z.of_nat fuel ->
  wp (wnaf_loop dbg fuel s 256 w sign bit carry last l) (fun '(l', bit', carry', last') =>
    bit' = 256 /\ winv 256 carry' last' l').
Proof.
  induction fuel; intros bit carry last l H HF; pose proof H as (B & C & LA & LEN & SUM & TOP & Z1 & Z2 & DG & SP1 & SP2).
  { assert (bit = 256) by lia. subst bit. cbn [wnaf_loop]. rewrite Z.ltb_irrefl. split; [reflexivity | exact H]. }
  cbn [wnaf_loop]. destruct (Z.ltb_spec bit 256) as [LT|GE]; [|assert (bit = 256) by lia; subst bit; split; [reflexivity | exact H]].
  eapply wp_bind; [apply s_bits_ok; [exact SU | lia | lia | lia |]|]; [f_equal; lia|]. fold S. change (2 ^ 1) with 2. cbv beta. intros b ->.
  pose proof (mod_split S bit 1 ltac:(lia) ltac:(lia)) as MS. change (2 ^ 1) with 2 in MS.
  assert (P : 0 < 2 ^ bit) by (apply Z.pow_pos_nonneg; lia).
  assert (PS : 2 ^ (bit + 1) = 2 * 2 ^ bit) by (rewrite Z.pow_add_r by lia; change (2 ^ 1) with 2; ring).
  pose proof (Z.mod_pos_bound S (2 ^ bit) ltac:(lia)) as MB.
  destruct (Z.eqb_spec ((S / 2 ^ bit) mod 2) carry) as [EQ|NE].
  - apply IHfuel; [|lia]. rewrite EQ in MS.
    assert (PB : carry = 1 -> 2 ^ bit <= S mod 2 ^ (bit + 1)) by (intros ->; rewrite MS; lia).
    unfold winv. split; [lia|]. split; [exact C|]. split; [lia|]. split; [exact LEN|]. split; [rewrite MS, <- SUM, PS; ring|].
    split; [intros C1; split; [lia|]; replace (bit + 1 - 1) with bit by lia; apply PB, C1|].
    split; [intros i Hi; apply Z1; lia|]. split; [exact Z2|]. split; [exact DG|]. split; [|exact SP2].
    intros i Hi Di. destruct (SP1 i Hi Di); lia.
  - cbv [bind]. fold (@bind Z (list Z * Z * Z * Z)). set (now := if 256 - bit <? w then 256 - bit else w).
    assert (HN : 1 <= now <= w /\ bit + now <= 256 /\ (now < w -> bit + now = 256)).
    { unfold now. destruct (Z.ltb_spec (256 - bit) w); lia. }
    pose proof (s_bits_var_ok dbg s bit now SU ltac:(lia) ltac:(lia) ltac:(lia)) as BV. apply wp_inv in BV. destruct BV as (bv & -> & BV). fold S in BV.
    pose proof (mod_split S bit now ltac:(lia) ltac:(lia)) as MN.
    assert (PN : 0 < 2 ^ now) by (apply Z.pow_pos_nonneg; lia).
    assert (PNW : 2 ^ now <= 2 ^ w <= 2 ^ 31) by (split; apply Z.pow_le_mono_r; lia). change (2 ^ 31) with 2147483648 in PNW.
    assert (PW : 2 ^ w = 2 * 2 ^ (w - 1)) by (rewrite <- Z.pow_succ_r by lia; f_equal; lia).
    assert (PW1 : 2 <= 2 ^ (w - 1)) by (change 2 with (2 ^ 1) at 1; apply Z.pow_le_mono_r; lia).
    assert (PW2 : 2 ^ (w - 1) mod 2 = 0).
    { replace (2 ^ (w - 1)) with (2 ^ (w - 2) * 2) by (rewrite Z.mul_comm, <- Z.pow_succ_r by lia; f_equal; lia). apply Z.mod_mul. lia. }
    rewrite <- BV in MN.
    assert (B0 : 0 <= bv < 2 ^ now) by (rewrite BV; apply Z.mod_pos_bound; lia).
    (* the lowest bit of bv is the bit at position bit *)
    assert (BL : bv mod 2 = (S / 2 ^ bit) mod 2).
    { rewrite BV. replace (2 ^ now) with (2 * 2 ^ (now - 1)) by (rewrite <- Z.pow_succ_r by lia; f_equal; lia).
      rewrite Z.rem_mul_r by (try apply Z.pow_pos_nonneg; lia). rewrite (Z.mul_comm 2), Z.mod_add, Z.mod_mod by lia. reflexivity. }
    assert (BE : 2 ^ now mod 2 = 0).
    { replace (2 ^ now) with (2 ^ (now - 1) * 2) by (rewrite Z.mul_comm, <- Z.pow_succ_r by lia; f_equal; lia). apply Z.mod_mul. lia. }
    assert (WO : (bv + carry) mod 2 = 1).
    { destruct (mod2_cases (S / 2 ^ bit)) as [M0|M0]; rewrite M0 in *; destruct C as [->| ->]; try lia; rewrite Z.add_mod, BL by lia; reflexivity. }
    assert (WR : 0 <= bv + carry < 2 ^ now).
    { destruct C as [C0|C0]; [lia|]. split; [lia|]. assert (bv + carry <> 2 ^ now) by congruence. lia. }
    set (word := bv + carry) in *.
    rewrite ichk_small by lia. change (bind (Some word)) with (fun f : Z -> option (list Z * Z * Z * Z) => f word). cbv beta.
    set (cn := Z.land (Z.shiftr word (w - 1)) 1).
    assert (CN : cn = word / 2 ^ (w - 1)).
    { unfold cn. rewrite Z.shiftr_div_pow2 by lia. rewrite (land_mod _ 1 1) by (reflexivity || lia). change (2 ^ 1) with 2.
      apply Z.mod_small. split; [apply Z.div_pos; lia|]. apply Z.div_lt_upper_bound; lia. }
    assert (CC : (cn = 0 /\ word < 2 ^ (w - 1)) \/ (cn = 1 /\ 2 ^ (w - 1) < word)).
    { rewrite CN. destruct (Z.lt_ge_cases word (2 ^ (w - 1))).
      - left. split; [apply Z.div_small; lia | lia].
      - right. split; [|assert (word <> 2 ^ (w - 1)) by congruence; lia].
        apply Z.le_antisymm; [assert (word / 2 ^ (w - 1) < 2); [apply Z.div_lt_upper_bound; lia | lia] | apply Z.div_le_lower_bound; lia]. }
    assert (WW : 2 <= w <= 30 \/ (w = 31 /\ dbg = false)) by (clear - Hw Hw2; destruct (Z.eq_dec w 31) as [W31|W31]; [right; auto | left; lia]).
    rewrite (ichk_digit dbg word cn w ltac:(clear - CC; tauto) WW ltac:(clear - WR PNW; lia)).
    set (dg := word - cn * 2 ^ w) in *.
    assert (DR : - 2 ^ (w - 1) < dg < 2 ^ (w - 1)) by (unfold dg; clear - CC WR PW PNW; destruct CC as [[-> ?]|[-> ?]]; lia).
    assert (DO : dg mod 2 = 1).
    { unfold dg. rewrite PW. replace (word - cn * (2 * 2 ^ (w - 1))) with (word + (- cn * 2 ^ (w - 1)) * 2) by ring. rewrite Z.mod_add by lia. exact WO. }
    change (bind (Some dg)) with (fun f : Z -> option (list Z * Z * Z * Z) => f dg). cbv beta.
    rewrite (ichk_small _ (sign * dg)) by (clear - Hsign DR PW PNW; destruct Hsign as [-> | ->]; lia).
    change (bind (Some (sign * dg))) with (fun f : Z -> option (list Z * Z * Z * Z) => f (sign * dg)). cbv beta.
    destruct (upd_ok l bit (sign * dg) ltac:(clear - B LT LEN; lia)) as (l' & -> & LEN' & D' & W').
    apply IHfuel; [|clear - HF HN; lia]. specialize (W' 2). rewrite (Z1 bit ltac:(clear; lia)) in W'.
    assert (PBN : 2 ^ (bit + now) = 2 ^ bit * 2 ^ now) by (apply Z.pow_add_r; lia).
    assert (SS : sign * sign = 1) by (destruct Hsign as [-> | ->]; reflexivity).
    assert (EQS : sign * wsum 2 l' + cn * 2 ^ (bit + now) = S mod 2 ^ (bit + now)).
    { rewrite MN, W'. replace (sign * (wsum 2 l + (sign * dg - 0) * 2 ^ bit)) with (sign * wsum 2 l + (sign * sign) * dg * 2 ^ bit) by ring.
      rewrite SS. replace (sign * wsum 2 l) with (S mod 2 ^ bit - carry * 2 ^ bit) by (clear - SUM; lia). unfold dg, word.
      destruct CC as [[-> ?]|[-> WB]]; [ring|].
      assert (now = w) as ->.
      { destruct (Z.eq_dec now w); [assumption|]. assert (2 ^ now <= 2 ^ (w - 1)) by (apply Z.pow_le_mono_r; lia). lia. }
      rewrite Z.pow_add_r by lia. ring. }
    unfold winv. split; [clear - HN B; lia|]. split; [clear - CC; lia|]. split; [clear - HN B; lia|]. split; [clear - LEN LEN'; lia|]. split; [exact EQS|]. split.
    { intros C1. destruct CC as [[C2 _]|[_ WB]]; [clear - C1 C2; lia|]. split; [clear - HN B; lia|]. rewrite MN.
      assert (now = w) as NW.
      { destruct (Z.eq_dec now w); [assumption|]. assert (2 ^ now <= 2 ^ (w - 1)) by (apply Z.pow_le_mono_r; lia). lia. }
      replace (bit + now - 1) with (bit + (w - 1)) by lia. rewrite Z.pow_add_r by lia.
      assert (K : 2 ^ (w - 1) <= bv) by (unfold word in WB; clear - WB C; lia).
      apply (Z.mul_le_mono_nonneg_l _ _ (2 ^ bit)) in K; clear - K MB P; lia. }
    split; [intros i Hi; clear - D' Z1 Hi HN B; rewrite D' by lia; rewrite (proj2 (Z.eqb_neq i bit)) by lia; apply Z1; lia|].
    split; [intros i Hi; clear - D' Z1 Hi HN B; rewrite D' by lia; rewrite (proj2 (Z.eqb_neq i bit)) by lia; apply Z1; lia|].
    split.
    2:{ clear - D' SP1 SP2 Z1 HN B LT Hw. split.
      - intros i Hi. rewrite D' by lia. destruct (Z.eqb_spec i bit) as [->|NI]; [lia|]. intros Di. destruct (SP1 i Hi Di); lia.
      - intros i j Hij. rewrite !D' by lia. destruct (Z.eqb_spec i bit) as [->|NI], (Z.eqb_spec j bit) as [->|NJ]; try lia.
        + intros _ Dj. elim Dj. apply Z1. lia.
        + intros Di _. destruct (SP1 i ltac:(lia) Di); lia.
        + intros Di Dj. apply SP2; assumption. }
    intros i Hi. rewrite D' by lia. destruct (Z.eqb_spec i bit); [|apply DG; lia].
    right. destruct Hsign as [-> | ->]; [rewrite Z.mul_1_l; split; assumption|].
    replace (-1 * dg) with (- dg) by ring. split; [apply odd_sign, DO | lia].
Qed.
End L.

Lemma n_big : 2 ^ 255 < n. Proof. rewrite n_eq. reflexivity. Qed.

Lemma ecmult_wnaf_ok a w : 0 <= a < n -> 2 <= w <= 31 -> (w = 31 -> dbg = false) ->
  wp (ecmult_wnaf dbg 256 (scalar_of a) w) (fun '(l, bits) =>
    Z.of_nat (length l) = 256 /\ 0 <= bits <= 256 /\ (wsum 2 l) mod n = a mod n /\
    (forall i, bits <= i -> digit l i = 0) /\ (forall i, 0 <= i -> wdigit w (digit l i)) /\
    (forall i j, 0 <= i < j -> digit l i <> 0 -> digit l j <> 0 -> i + w <= j)).
Proof.
  intros A W W31. unfold ecmult_wnaf. pose proof n_big. pose proof n_lt.
  assert (P255 : 2 ^ 256 = 2 * 2 ^ 255) by reflexivity.
  apply wp_dassert; [reflexivity|]. apply wp_dassert; [apply andb_true_intro; split; apply Z.leb_le; lia|].
  eapply wp_bind; [apply s_bits_ok; [apply scalar_of_u | lia | lia | lia | reflexivity]|].
  rewrite scalar_of_val by lia. change (2 ^ 1) with 2. cbv beta. intros top TOP.
  assert (T : top = a / 2 ^ 255).
  { rewrite TOP. apply Z.mod_small. split; [apply Z.div_pos; lia|]. apply Z.div_lt_upper_bound; lia. }
  eapply (wp_bind _ _ (fun '(s, sign) => s_u s /\ (sign = 1 \/ sign = -1) /\ sv s < 2 ^ 255 /\ (sign * sv s) mod n = a mod n)).
  { destruct (Z.ltb_spec 0 top) as [T0|T0].
    - assert (2 ^ 255 <= a). { destruct (Z.lt_ge_cases a (2 ^ 255)); [|assumption]. rewrite T, Z.div_small in T0 by lia. lia. }
      rewrite s_neg_eq by lia. cbn [bind wp]. rewrite neg_mod_n by lia.
      split; [apply scalar_of_u|]. split; [right; reflexivity|]. rewrite scalar_of_val by lia.
      split; [lia|]. replace (-1 * (n - a)) with (a + (-1) * n) by ring. apply Z.mod_add. lia.
    - assert (a < 2 ^ 255). { destruct (Z.lt_ge_cases a (2 ^ 255)); [assumption|]. assert (1 <= a / 2 ^ 255) by (apply Z.div_le_lower_bound; lia). lia. }
      cbn [wp]. split; [apply scalar_of_u|]. split; [left; reflexivity|]. rewrite scalar_of_val by lia. split; [lia|]. rewrite Z.mul_1_l. reflexivity. }
  cbv beta. intros [s sign] (SU & SG & SB & SV).
  assert (I0 : winv s w sign 0 0 (-1) (repeat 0 (Z.to_nat 256))).
  { unfold winv. rewrite wsum_zeros, repeat_length. rewrite Z.pow_0_r, Z.mod_1_r. split; [lia|]. split; [lia|]. split; [lia|]. split; [lia|]. split; [lia|]. split; [lia|].
    split; [intros; apply digit_zeros|]. split; [intros; apply digit_zeros|]. split; [intros; left; apply digit_zeros|]. split; intros *; rewrite !digit_zeros; congruence. }
  eapply wp_bind; [apply (wnaf_loop_ok s w sign SU W W31 SG (Z.to_nat 256) 0 0 (-1) _ I0); lia|].
  cbv beta. intros [[[l bit] carry] last] (-> & B & C & LA & LEN & SUM & TOPC & Z1 & Z2 & DG & _ & SP2).
  assert (SM : sv s mod 2 ^ 256 = sv s) by (apply Z.mod_small; pose proof (sv_range s SU); lia).
  rewrite SM in *.
  assert (C0 : carry = 0). { destruct C as [C|C]; [exact C|]. destruct (TOPC C) as [_ TC]. change (2 ^ (256 - 1)) with (2 ^ 255) in TC. lia. }
  apply wp_dassert; [rewrite C0; reflexivity|].
  assert (HB : high_bits_zero dbg 256 s 256 = Some true) by reflexivity.
  eapply (wp_bind _ _ (fun _ => True)).
  { rewrite HB. destruct dbg; exact Logic.I. }
  intros _ _. apply wp_some. split; [exact LEN|]. split; [lia|]. split.
  - rewrite <- SV. f_equal. rewrite <- SUM, C0. destruct SG as [-> | ->]; ring.
  - split; [intros i Hi; apply Z2; lia|]. split; [exact DG | exact SP2].
Qed.
End B.
