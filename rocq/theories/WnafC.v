(** The fixed-length recoding of [ecmult_wnaf_const]. *)
From Verif Require Import Word MField MScalar MGroup MEcmult WP Spec Fp Bits ScalarAcc ScalarMul ScalarOps ScalarRed ScalarMore ScalarBits Denote ApiScalar Wnaf.

Definition odd15 (d : Z) : Prop := d mod 2 = 1 /\ -16 < d < 16.

Section B.
Variable dbg : bool.
Section L.
Variables (gs S : Z).
Hypothesis (GS : gs = 1 \/ gs = -1) (HS : 0 <= S < 2 ^ 256).

Definition cinv (word u_last u : Z) (s : scalar) (l : list Z) : Prop :=
  0 <= word <= 64 /\ Z.of_nat (length l) = 65 /\ s_u s /\ sv s = S / 16 ^ (word + 1) /\
  gs * wsum 16 l + u_last * 16 ^ word + 16 ^ (word + 1) * sv s = S /\
  u_last mod 2 = 1 /\ -1 <= u_last <= 15 /\ (0 < word -> u = u_last) /\
  (forall i, word <= i -> digit l i = 0) /\ (forall i, 0 <= i < word -> odd15 (digit l i)).

Lemma wnaf_const_loop_ok : forall fuel word u_last u s l, cinv word u_last u s l -> 64 - word <= Z.of_nat fuel ->
  wp (wnaf_const_loop dbg fuel 4 gs s word u_last u l) (fun '(l', word', u', s') =>
    word' = 64 /\ exists u_last', cinv 64 u_last' u' s' l').
Proof.
  induction fuel; intros word u_last u s l H HF; pose proof H as (B & LEN & SU & SV & SUM & UO & UR & UU & Z1 & DG).
  { assert (word = 64) by lia. subst word. cbn [wnaf_const_loop]. split; [reflexivity | eauto]. }
  cbn [wnaf_const_loop]. unfold WNAF_BITS. destruct (Z.ltb_spec (word * 4) 256) as [LT|GE]; [|assert (word = 64) by lia; subst word; split; [reflexivity | eauto]].
  eapply wp_bind; [apply s_shr_int_ok; [exact SU | lia]|]. change (2 ^ 4) with 16. cbv beta. intros [s' b] (SU' & SV' & EB).
  cbv [bind]. fold (@bind Z (list Z * Z * Z * scalar)).
  pose proof (Z.mod_pos_bound (sv s) 16 ltac:(lia)) as BB. rewrite <- EB in BB.
  set (even := b2z (Z.land b 1 =? 0)). set (sg := 2 * b2z (0 <? u_last) - 1).
  assert (EV : (even = 0 /\ b mod 2 = 1) \/ (even = 1 /\ b mod 2 = 0)).
  { unfold even. rewrite (land_mod _ 1 1) by (reflexivity || lia). change (2 ^ 1) with 2.
    destruct (mod2_cases b) as [-> | ->]; [right | left]; split; reflexivity. }
  assert (SG : (sg = 1 /\ 0 < u_last) \/ (sg = -1 /\ u_last = -1)).
  { unfold sg. destruct (Z.ltb_spec 0 u_last); [left | right]; (split; [reflexivity|]); [lia|].
    assert (u_last <> 0) by (intros ->; discriminate UO). lia. }
  assert (SH : shl_i32 1 4 = 16) by reflexivity. rewrite SH.
  set (u1 := b + sg * even). set (ul := u_last - sg * even * 16).
  assert (U1 : u1 mod 2 = 1 /\ -1 <= u1 <= 15).
  { unfold u1. destruct EV as [[-> E0]|[-> E0]]; [rewrite Z.mul_0_r, Z.add_0_r; split; [exact E0 | lia]|].
    rewrite Z.mul_1_r. assert (b <> 15) by (intros ->; discriminate E0).
    destruct SG as [[-> _]|[-> _]]; (split; [Z.to_euclidean_division_equations; lia | lia]). }
  assert (ULO : ul mod 2 = 1).
  { unfold ul. replace (u_last - sg * even * 16) with (u_last + (- sg * even * 8) * 2) by ring. rewrite Z.mod_add by lia. exact UO. }
  assert (ULR : -16 < ul < 16).
  { unfold ul. destruct EV as [[-> E0]|[-> E0]]; destruct SG as [[-> ?]|[-> ?]]; lia. }
  rewrite !ichk_small by (clear - U1 ULR GS; destruct GS as [-> | ->]; lia).
  cbn [bind].
  destruct (upd_ok l word (ul * gs) ltac:(lia)) as (l' & -> & LEN' & D' & W').
  apply IHfuel; [|lia]. specialize (W' 16). rewrite (Z1 word ltac:(lia)) in W'.
  assert (P1 : 16 ^ (word + 1) = 16 * 16 ^ word) by (rewrite Z.pow_add_r by lia; change (16 ^ 1) with 16; ring).
  assert (P2 : 16 ^ (word + 1 + 1) = 16 * (16 * 16 ^ word)) by (rewrite Z.pow_add_r, P1 by lia; change (16 ^ 1) with 16; ring).
  assert (GG : gs * gs = 1) by (destruct GS as [-> | ->]; reflexivity).
  unfold cinv. split; [lia|]. split; [lia|]. split; [exact SU'|]. split.
  { rewrite SV', SV, P2, <- P1, (Z.mul_comm 16). apply Z.div_div; [apply Z.pow_nonzero; lia | lia]. }
  split.
  { rewrite W', P2, P1. pose proof (Z.div_mod (sv s) 16 ltac:(lia)) as DM. rewrite <- SV', <- EB in DM.
    rewrite <- SUM, DM, P1. unfold u1, ul.
    replace (gs * (wsum 16 l + ((u_last - sg * even * 16) * gs - 0) * 16 ^ word)) with (gs * wsum 16 l + (gs * gs) * (u_last - sg * even * 16) * 16 ^ word) by ring.
    rewrite GG. ring. }
  split; [apply U1|]. split; [apply U1|]. split; [reflexivity|]. split.
  - intros i Hi. rewrite D' by lia. rewrite (proj2 (Z.eqb_neq i word)) by lia. apply Z1. lia.
  - intros i Hi. rewrite D' by lia. destruct (Z.eqb_spec i word); [|apply DG; lia].
    destruct GS as [-> | ->]; [rewrite Z.mul_1_r; split; assumption|].
    replace (ul * -1) with (- ul) by ring. split; [apply odd_sign, ULO | lia].
Qed.
End L.

Lemma Zeven_mod v : Z.even v = (v mod 2 =? 0).
Proof. rewrite Zmod_even. destruct (Z.even v); reflexivity. Qed.
Lemma n_odd : n mod 2 = 1. Proof. rewrite n_eq. reflexivity. Qed.

(** recoding of an odd number S with sign gs *)
Lemma wnaf_const_tail gs S (sk : Z) : gs = 1 \/ gs = -1 -> 0 < S < 2 ^ 256 -> S mod 2 = 1 ->
  wp (let* '(s, u_last) := s_shr_int dbg (scalar_of S) 4 in
      let* '(wnaf, word, u, s) := wnaf_const_loop dbg 257 4 gs s 0 u_last 0 (repeat 0 (Z.to_nat 65)) in
      let* v := ichk dbg (u * gs) in
      let* wnaf := upd wnaf word v in
      dassert dbg (s_is_zero s) ;;
      dassert dbg (word =? (WNAF_BITS + 4 - 1) / 4) ;;
      Some (wnaf, sk)) (fun '(l, skew) => Z.of_nat (length l) = 65 /\ skew = sk /\ (forall i, 0 <= i < 65 -> odd15 (digit l i)) /\ wsum 16 l = gs * S).
Proof.
  intros GS SR' SO.
  eapply wp_bind; [apply s_shr_int_ok; [apply scalar_of_u | lia]|]. rewrite scalar_of_sv by lia. change (2 ^ 4) with 16.
  cbv beta. intros [s1 ul] (SU1 & SV1 & UL).
  assert (I0 : cinv gs S 0 ul 0 s1 (repeat 0 (Z.to_nat 65))).
  { unfold cinv. rewrite wsum_zeros, repeat_length. change (16 ^ (0 + 1)) with 16. change (16 ^ 0) with 1.
    pose proof (Z.div_mod S 16 ltac:(lia)). pose proof (Z.mod_pos_bound S 16 ltac:(lia)).
    split; [lia|]. split; [lia|]. split; [exact SU1|]. split; [exact SV1|]. split; [rewrite UL, SV1; lia|].
    split; [rewrite UL, (Z.mod_eq S 16) by lia; replace (S - 16 * (S / 16)) with (S + (-8 * (S / 16)) * 2) by ring; rewrite Z.mod_add by lia; exact SO|]. split; [lia|]. split; [lia|].
    split; [intros; apply digit_zeros | lia]. }
  pose proof (wnaf_const_loop_ok gs S GS 257 0 ul 0 s1 _ I0 ltac:(lia)) as LP. apply wp_inv in LP.
  destruct LP as ([[[l word] u] s2] & -> & -> & ul' & B & LEN & SU & SV & SUM & UO & UR & UU & Z1 & DG).
  assert (Z2 : sv s2 = 0).
  { rewrite SV. apply Z.div_small. change (16 ^ (64 + 1)) with (16 * 2 ^ 256). lia. }
  rewrite (UU ltac:(lia)). cbn [bind]. rewrite ichk_small by (destruct GS as [-> | ->]; lia). cbn [bind].
  destruct (upd_ok l 64 (ul' * gs) ltac:(lia)) as (l' & -> & LEN' & D' & W'). cbn [bind].
  rewrite s_is_zero_ok, Z2 by exact SU. change ((WNAF_BITS + 4 - 1) / 4) with 64. rewrite !Z.eqb_refl.
  assert (DA : dassert dbg true = Some tt) by (destruct dbg; reflexivity). rewrite DA. apply wp_some.
  specialize (W' 16). rewrite (Z1 64 ltac:(lia)) in W'. rewrite Z2 in SUM.
  assert (EQ : wsum 16 l' = gs * S) by (rewrite W', <- SUM; destruct GS as [-> | ->]; ring).
  split; [lia|]. split; [reflexivity|]. split; [|exact EQ].
  intros i Hi. rewrite D' by lia. destruct (Z.eqb_spec i 64); [|apply DG; lia].
  destruct GS as [-> | ->]; [rewrite Z.mul_1_r; split; [exact UO | lia]|]. replace (ul' * -1) with (- ul') by ring. split; [apply odd_sign, UO | lia].
Qed.
(** what is added to the scalar to make the recoded number odd: 2 when exactly one of "high" and "odd" holds *)
Definition wskew (a : Z) : Z := if xorb ((n - 1) / 2 <=? a) (negb (Z.even a)) then 2 else 1.
Lemma ecmult_wnaf_const_full a : 0 <= a < n ->
  wp (ecmult_wnaf_const dbg 65 (scalar_of a) 4) (fun '(l, skew) =>
    Z.of_nat (length l) = 65 /\ (skew = 1 \/ skew = 2) /\
    (forall i, 0 <= i < 65 -> odd15 (digit l i)) /\ - n < wsum 16 l < n /\ (wsum 16 l) mod n = (a + skew) mod n /\
    2 * Z.abs (wsum 16 l) <= n + 1 /\ skew = wskew a).
Proof.
  intros A. unfold ecmult_wnaf_const. pose proof n_big. pose proof n_lt. pose proof n_odd as NO.
  assert (P255 : 2 ^ 256 = 2 * 2 ^ 255) by reflexivity.
  assert (PB : 100 < 2 ^ 255) by reflexivity.
  assert (HH : 0 < (n - 1) / 2 < n - 10) by (rewrite n_eq; split; reflexivity).
  rewrite s_is_high_eq by lia. rewrite s_is_even_ok by apply scalar_of_u. rewrite s_neg_eq by lia. rewrite scalar_of_val by lia.
  cbv [bind]. fold (@bind scalar (list Z * Z)). fold (@bind (scalar * Z) (list Z * Z)). fold (@bind (list Z * Z * Z * scalar) (list Z * Z)).
  fold (@bind Z (list Z * Z)). fold (@bind (list Z) (list Z * Z)). fold (@bind unit (list Z * Z)).
  rewrite s_is_one_ok by apply scalar_of_u. rewrite scalar_of_val by apply modn_range.
  set (flip := (n - 1) / 2 <=? a). set (bit := xorb flip (negb (Z.even a))).
  assert (NN : ((- a) mod n =? 1) = (a =? n - 1)).
  { destruct (Z.eq_dec a 0) as [->|NZ]; [|rewrite neg_mod_n by lia; destruct (Z.eqb_spec (n - a) 1) as [?EQ|?NE], (Z.eqb_spec a (n - 1)) as [?EQ|?NE]; lia].
    change (- 0) with 0. rewrite Z.mod_0_l by lia. destruct (Z.eqb_spec 0 (n - 1)) as [?EQ|?NE]; [lia | reflexivity]. }
  rewrite NN. set (nno := negb (a =? n - 1)).
  set (sk := if bit then 2 else 1).
  assert (SK : sk = 2 ^ b2z bit) by (unfold sk; destruct bit; reflexivity).
  assert (SR : sk = 1 \/ sk = 2) by (unfold sk; destruct bit; lia).
  (* parity: after the addition the number to recode is odd *)
  assert (PAR : (a + sk) mod 2 = if flip then 0 else 1).
  { unfold sk, bit. rewrite Zeven_mod. destruct (mod2_cases a) as [E0|E0]; rewrite E0; destruct flip; cbn [Z.eqb negb xorb Z.pos_sub];
      cbn; rewrite Z.add_mod, E0 by lia; reflexivity. }
  assert (NL : a = n - 1 -> flip = true) by (intros ->; apply Z.leb_le; lia).
  assert (LS : a <> n - 1 -> a + sk < n).
  { intros NE. destruct (Z.eq_dec (a + sk) n) as [EQ|]; [exfalso|lia].
    rewrite EQ, NO in PAR. assert (flip = true) by (apply Z.leb_le; lia). rewrite H1 in PAR. discriminate PAR. }
  pose proof (s_cadd_bit_ok dbg (scalar_of a) (b2z bit) nno (scalar_of_u a)) as CA.
  assert (BR : 0 <= b2z bit < 256) by (destruct bit; cbn; lia). specialize (CA BR). rewrite scalar_of_val in CA by lia.
  rewrite <- SK in CA.
  assert (CA1 : a + b2z nno * sk < n).
  { unfold nno. destruct (Z.eqb_spec a (n - 1)) as [?EQ|NE]; cbn [negb b2z]; [lia | specialize (LS NE); lia]. }
  specialize (CA CA1). apply wp_scalar in CA. rewrite CA. cbn [bind]. rewrite s_cond_neg_eq by (unfold nno in *; destruct (a =? n - 1); cbn [negb b2z] in *; lia).
  cbn [bind].
  (* the value to recode and its sign *)
  set (gs := (if flip then -1 else 1) * (b2z nno * 2 - 1)). set (S := if flip then (- (a + b2z nno * sk)) mod n else a + b2z nno * sk).
  assert (FL : if flip then n - 1 <= 2 * a else 2 * a + 2 <= n - 1).
  { unfold flip. destruct (Z.leb_spec ((n - 1) / 2) a) as [LE|LT].
    - revert LE NO. Z.to_euclidean_division_equations; lia.
    - revert LT NO. Z.to_euclidean_division_equations; lia. }
  assert (FACT : (gs = 1 \/ gs = -1) /\ 0 < S < n /\ S mod 2 = 1 /\ (gs * S) mod n = (a + sk) mod n /\ 2 * S <= n + 1).
  { unfold gs, S, nno. destruct (Z.eqb_spec a (n - 1)) as [EQ|NE]; cbn [negb b2z].
    - rewrite (NL EQ). replace (- (a + 0 * sk)) with (1 + (-1) * n) by lia. rewrite Z.mod_add, Z.mod_small by lia.
      split; [left; reflexivity|]. split; [lia|]. split; [reflexivity|].
      assert (sk = 2).
      { destruct SR as [E0|E0]; [exfalso|exact E0]. rewrite E0, EQ in PAR. replace (n - 1 + 1) with n in PAR by lia.
        rewrite NO, (NL EQ) in PAR. clear - PAR. lia. }
      rewrite H1, EQ. replace (n - 1 + 2) with (1 + 1 * n) by lia. rewrite Z.mod_add by lia. split; [reflexivity | lia].
    - specialize (LS NE). rewrite !Z.mul_1_l. destruct flip.
      + rewrite neg_mod_n by lia. split; [right; reflexivity|]. split; [lia|]. split.
        * Z.to_euclidean_division_equations; lia.
        * split; [|lia]. match goal with |- ?x mod n = _ => replace x with (a + sk + (-1) * n) by ring end. apply Z.mod_add. lia.
      + split; [left; reflexivity|]. split; [lia|]. split; [exact PAR|]. split; [f_equal; ring | lia]. }
  clearbody gs S. clear CA CA1 NN NL LS PAR FL. destruct FACT as (GS & SR' & SO & SE & SB).
  eapply wp_mono; [apply (wnaf_const_tail gs S sk GS); [lia | exact SO]|]. cbv beta. intros [l skew] (LEN & -> & DG & EQ).
  split; [exact LEN|]. split; [exact SR|]. split; [exact DG|].
  rewrite EQ. split; [destruct GS as [-> | ->]; lia|]. split; [exact SE|]. split; [destruct GS as [-> | ->]; lia | reflexivity].
Qed.
Lemma ecmult_wnaf_const_ok a : 0 <= a < n ->
  wp (ecmult_wnaf_const dbg 65 (scalar_of a) 4) (fun '(l, skew) =>
    Z.of_nat (length l) = 65 /\ (skew = 1 \/ skew = 2) /\
    (forall i, 0 <= i < 65 -> odd15 (digit l i)) /\ - n < wsum 16 l < n /\ (wsum 16 l) mod n = (a + skew) mod n).
Proof.
  intros A. eapply wp_mono; [apply ecmult_wnaf_const_full, A|]. intros [l skew] (L & SK & D & R & S & _). auto 6.
Qed.
End B.
