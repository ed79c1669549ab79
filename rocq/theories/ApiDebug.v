(** What the [{:?}] text of a value tells about it. *)
From Coq Require Import String Ascii.
From Verif Require Import Word MField MScalar MGroup MGenSrc MApi MDebug WP FieldMul FieldNorm FieldZero Spec Fp Bits FieldOps FieldCodec FieldStore ScalarAcc ScalarMul ScalarOps Denote Curve Group Chain Order Jac JacOps Lift Key Ctx ApiScalar ApiPub ApiGroup ApiArith ApiMore ApiGen.
Open Scope string_scope.
Open Scope list_scope.
Open Scope Z_scope.

(** The decimal numbers that occur in a text, in order; [cur] is the number being read. *)
Definition flush_num (cur : option Z) : list Z := match cur with Some v => [v] | None => [] end.
Fixpoint numbers_from (s : string) (cur : option Z) : list Z :=
  match s with
  | EmptyString => flush_num cur
  | String c t =>
      let k := Z.of_nat (nat_of_ascii c) - 48 in
      if (0 <=? k) && (k <? 10) then numbers_from t (Some (10 * match cur with Some v => v | None => 0 end + k))
      else flush_num cur ++ numbers_from t None
  end.
Definition numbers (s : string) : list Z := numbers_from s None.

Definition nm (s : string) (st : option Z) (out : list Z) (st' : option Z) : Prop :=
  forall t, numbers_from (s ++ t)%string st = out ++ numbers_from t st'.
Lemma nm_app s1 s2 st st1 st2 a b : nm s1 st a st1 -> nm s2 st1 b st2 -> nm (s1 ++ s2) st (a ++ b) st2.
Proof. intros H K t. rewrite str_app_assoc, H, K, app_assoc. reflexivity. Qed.
Lemma nm_digit d st : 0 <= d < 10 -> nm (String (digit d) "") st [] (Some (10 * match st with Some v => v | None => 0 end + d)).
Proof.
  intros H t. assert (C : d = 0 \/ d = 1 \/ d = 2 \/ d = 3 \/ d = 4 \/ d = 5 \/ d = 6 \/ d = 7 \/ d = 8 \/ d = 9) by lia.
  repeat (destruct C as [C | C]; [rewrite C; reflexivity|]). rewrite C; reflexivity.
Qed.
Lemma nm_dec f : forall v t, 0 <= v < pow10 f -> numbers_from (dec f v t) None = numbers_from t (Some v).
Proof.
  induction f as [|f IH]; intros v t H; cbn [dec pow10] in *; pose proof (Z.mod_pos_bound v 10 ltac:(lia)).
  - pose proof (nm_digit (v mod 10) None ltac:(lia) t) as D. cbn [append app] in D. rewrite D. replace (10 * 0 + v mod 10) with v by (rewrite Z.mod_small by lia; reflexivity). reflexivity.
  - destruct (Z.ltb_spec v 10).
    + pose proof (nm_digit (v mod 10) None ltac:(lia) t) as D. cbn [append app] in D. rewrite D. replace (10 * 0 + v mod 10) with v by (rewrite Z.mod_small by lia; reflexivity). reflexivity.
    + rewrite IH by (split; [apply Z.div_pos; lia | apply Z.div_lt_upper_bound; lia]).
      pose proof (nm_digit (v mod 10) (Some (v / 10)) ltac:(lia) t) as D. cbn [append app] in D. rewrite D. rewrite <- Z.div_mod by lia. reflexivity.
Qed.
Lemma nm_u32 v : u32b v -> nm (dec_u32 v) None [] (Some v).
Proof. intros H t. unfold dec_u32. rewrite dec_app. cbn [app append]. apply nm_dec. unfold u32b in H. cbn [pow10]. lia. Qed.
Lemma nm_flush v s out st' : nm s None out st' -> (forall t, numbers_from (s ++ t)%string (Some v) = v :: numbers_from (s ++ t)%string None) -> nm s (Some v) (v :: out) st'.
Proof. intros H K t. rewrite K, H. reflexivity. Qed.
Ltac lit := intros ?t; reflexivity.
Lemma nm_elems l : l <> [] -> Forall u32b l -> forall t, numbers_from (dbg_elems l ++ "]" ++ t)%string None = l ++ numbers_from t None.
Proof.
  induction l as [|v l IH]; intros N U t; [congruence|]. apply Forall_cons_iff in U. destruct U as [U0 U]. destruct l as [|w l].
  - cbn [dbg_elems]. rewrite (nm_u32 v U0). reflexivity.
  - change (dbg_elems (v :: w :: l)) with (dec_u32 v ++ ", " ++ dbg_elems (w :: l))%string. rewrite !str_app_assoc. rewrite (nm_u32 v U0).
    change (numbers_from (", " ++ ?x)%string (Some v)) with (v :: numbers_from x None). rewrite IH; [reflexivity | congruence | exact U].
Qed.
Lemma nm_array l : Forall u32b l -> nm (dbg_array l) None l None.
Proof.
  intros U t. unfold dbg_array. rewrite !str_app_assoc. change (numbers_from ("[" ++ ?x)%string None) with (numbers_from x None). destruct l as [|v l]; [reflexivity|].
  apply nm_elems; [congruence | exact U].
Qed.
Lemma limbs_u32 v : Forall u32b (s_limbs (scalar_of v)).
Proof. unfold scalar_of. cbn [s_limbs]. repeat apply Forall_cons; try apply Forall_nil; apply Z.mod_pos_bound; lia. Qed.
Lemma nm_scalar v : nm (s_debug (scalar_of v)) None (s_limbs (scalar_of v)) None.
Proof. intros t. unfold s_debug. rewrite !str_app_assoc. change (numbers_from ("Scalar(" ++ ?x)%string None) with (numbers_from x None). rewrite (nm_array _ (limbs_u32 v)). reflexivity. Qed.
Lemma limbs_val v : 0 <= v < 2 ^ 256 -> digits_val (2 ^ 32) (s_limbs (scalar_of v)) = v.
Proof.
  intros H. rewrite <- (scalar_of_sv v H) at 2. unfold scalar_of. cbn [s_limbs digits_val sv]. unfold val8.
  set (a0 := v mod 2 ^ 32). set (a1 := v / 2 ^ 32 mod 2 ^ 32). set (a2 := v / 2 ^ 64 mod 2 ^ 32). set (a3 := v / 2 ^ 96 mod 2 ^ 32). set (a4 := v / 2 ^ 128 mod 2 ^ 32).
  set (a5 := v / 2 ^ 160 mod 2 ^ 32). set (a6 := v / 2 ^ 192 mod 2 ^ 32). set (a7 := v / 2 ^ 224 mod 2 ^ 32). clearbody a0 a1 a2 a3 a4 a5 a6 a7. clear H. p2. lia.
Qed.
Lemma numbers_sk v : numbers (sk_debug (scalar_of v)) = s_limbs (scalar_of v).
Proof. unfold numbers, sk_debug. change (numbers_from ("SecretKey(" ++ ?x)%string None) with (numbers_from x None). rewrite (nm_scalar v). cbn [numbers_from flush_num]. cbn. reflexivity. Qed.
Lemma numbers_msg v : numbers (msg_debug (scalar_of v)) = s_limbs (scalar_of v).
Proof. unfold numbers, msg_debug. change (numbers_from ("Message(" ++ ?x)%string None) with (numbers_from x None). rewrite (nm_scalar v). cbn. reflexivity. Qed.
Lemma numbers_sig r s : numbers (sig_debug (Sig (scalar_of r) (scalar_of s))) = s_limbs (scalar_of r) ++ s_limbs (scalar_of s).
Proof.
  unfold numbers, sig_debug. cbn [sig_r sig_s]. change (numbers_from ("Signature { r: " ++ ?x)%string None) with (numbers_from x None). rewrite (nm_scalar r).
  change (numbers_from (", s: " ++ ?x)%string None) with (numbers_from x None). rewrite (nm_scalar s). reflexivity.
Qed.

(** * C81 *)
(** The text of a secret key discloses it: the numbers in it are the base-2^32 digits of the key, least significant first. *)
Lemma C81_secret_pf : forall dbg b sk, length b = 32%nat -> bytes b -> sk_parse dbg b = Some (Ok sk) -> be_bytes 32 (digits_val (2 ^ 32) (numbers (sk_debug sk))) = b.
Proof.
  intros dbg b sk L B E. rewrite (C01_seckey_parse_pf dbg b L B) in E. pose proof (be_val_32 b L B) as R. destruct ((1 <=? be_val b) && (be_val b <? n)); [|discriminate E].
  apply some_inv in E. assert (sk = scalar_of (be_val b)) as -> by congruence. rewrite numbers_sk, limbs_val by exact R. apply be_bytes_32; assumption.
Qed.
Lemma C81_secret_example_pf : sk_parse true (be_bytes 32 (2 ^ 32 * 7 + 5)) = Some (Ok (scalar_of (2 ^ 32 * 7 + 5))) /\
  sk_debug (scalar_of (2 ^ 32 * 7 + 5)) = "SecretKey(Scalar([5, 7, 0, 0, 0, 0, 0, 0]))".
Proof. split; vm_compute; reflexivity. Qed.
(** Messages, signatures, recovery ids, shared secrets and errors have the same text exactly if they are equal, for every value they can hold. *)
Lemma C81_text_equal_pf :
  (forall a b, 0 <= a < 2 ^ 256 -> 0 <= b < 2 ^ 256 -> (sk_debug (scalar_of a) = sk_debug (scalar_of b) <-> a = b) /\ (msg_debug (scalar_of a) = msg_debug (scalar_of b) <-> a = b)) /\
  (forall r s r' s', 0 <= r < 2 ^ 256 -> 0 <= s < 2 ^ 256 -> 0 <= r' < 2 ^ 256 -> 0 <= s' < 2 ^ 256 ->
     (sig_debug (Sig (scalar_of r) (scalar_of s)) = sig_debug (Sig (scalar_of r') (scalar_of s')) <-> r = r' /\ s = s')) /\
  (forall a b, 0 <= a < 256 -> 0 <= b < 256 -> (rid_debug a = rid_debug b <-> a = b)) /\
  (forall a b, bytes a -> bytes b -> (ss_debug a = ss_debug b <-> a = b)) /\
  (forall a b, error_debug a = error_debug b <-> a = b).
Proof.
  split; [|split; [|split; [|split]]].
  - intros a b A B. split; (split; [|intros ->; reflexivity]); intros H; apply (f_equal numbers) in H; rewrite ?numbers_sk, ?numbers_msg in H; apply (f_equal (digits_val (2 ^ 32))) in H; rewrite !limbs_val in H by assumption; exact H.
  - intros r s r' s' R S R' S'. split; [|intros [-> ->]; reflexivity]. intros H. apply (f_equal numbers) in H. rewrite !numbers_sig in H.
    assert (H1 : s_limbs (scalar_of r) = s_limbs (scalar_of r')) by exact (f_equal (firstn 8) H). assert (H2 : s_limbs (scalar_of s) = s_limbs (scalar_of s')) by exact (f_equal (skipn 8) H).
    apply (f_equal (digits_val (2 ^ 32))) in H1, H2. rewrite !limbs_val in H1, H2 by assumption. auto.
  - assert (N : forall a, 0 <= a < 256 -> numbers (rid_debug a) = [a]).
    { intros a A. unfold numbers, rid_debug. change (numbers_from ("RecoveryId(" ++ ?x)%string None) with (numbers_from x None). rewrite (nm_u32 a) by (unfold u32b; lia). reflexivity. }
    intros a b A B. split; [|intros ->; reflexivity]. intros H. apply (f_equal numbers) in H. rewrite !N in H by assumption. congruence.
  - assert (N : forall a, bytes a -> numbers (ss_debug a) = a).
    { intros a A. unfold numbers, ss_debug. change (numbers_from ("SharedSecret(" ++ ?x)%string None) with (numbers_from x None). rewrite (nm_array a); [apply app_nil_r|]. eapply Forall_impl; [|exact A]. cbv beta. unfold is_byte, u32b. intros. lia. }
    intros a b A B. split; [|intros ->; reflexivity]. intros H. apply (f_equal numbers) in H. rewrite !N in H by assumption. exact H.
  - intros a b. split; [|intros ->; reflexivity]. destruct a, b; intros H; first [reflexivity | discriminate H].
Qed.
Lemma C81_text_equal_example_pf : sig_debug (Sig (scalar_of 1) (scalar_of 2)) = "Signature { r: Scalar([1, 0, 0, 0, 0, 0, 0, 0]), s: Scalar([2, 0, 0, 0, 0, 0, 0, 0]) }" /\
  rid_debug 3 = "RecoveryId(3)" /\ ss_debug [12; 255] = "SharedSecret([12, 255])" /\ error_debug InvalidSignature = "InvalidSignature".
Proof. repeat split; vm_compute; reflexivity. Qed.

(** ** public keys *)
Definition f_limbs (f : field) : list Z := match f with Fe n0 n1 n2 n3 n4 n5 n6 n7 n8 n9 _ _ => [n0; n1; n2; n3; n4; n5; n6; n7; n8; n9] end.
Lemma nm_field f : Forall u32b (f_limbs f) -> u32b (f_mag f) -> nm (f_debug f) None (f_limbs f ++ [f_mag f]) None.
Proof.
  destruct f as [n0 n1 n2 n3 n4 n5 n6 n7 n8 n9 m b]. cbn [f_limbs f_mag f_debug]. intros L M t. rewrite !str_app_assoc.
  change (numbers_from ("Field { n: " ++ ?x)%string None) with (numbers_from x None). rewrite (nm_array _ L). rewrite <- app_assoc. f_equal.
  change (numbers_from (", magnitude: " ++ ?x)%string None) with (numbers_from x None). rewrite (nm_u32 m M). cbn [app].
  change (numbers_from (", normalized: " ++ ?x)%string (Some m)) with (m :: numbers_from x None). destruct b; reflexivity.
Qed.
Lemma numbers_pk k : Forall u32b (f_limbs (af_x k)) -> u32b (f_mag (af_x k)) -> Forall u32b (f_limbs (af_y k)) -> u32b (f_mag (af_y k)) ->
  numbers (pk_debug k) = f_limbs (af_x k) ++ [f_mag (af_x k)] ++ f_limbs (af_y k) ++ [f_mag (af_y k)].
Proof.
  intros LX MX LY MY. unfold numbers, pk_debug, af_debug. rewrite !str_app_assoc. change (numbers_from ("PublicKey(" ++ "Affine { x: " ++ ?x)%string None) with (numbers_from x None).
  rewrite (nm_field _ LX MX). change (numbers_from (", y: " ++ ?x)%string None) with (numbers_from x None). rewrite (nm_field _ LY MY).
  replace (numbers_from _ None) with (@nil Z) by (destruct (af_inf k); reflexivity). rewrite app_nil_r, <- app_assoc. reflexivity.
Qed.
Lemma fok_u32 f : fok 6 f -> Forall u32b (f_limbs f) /\ u32b (f_mag f) /\ digits_val (2 ^ 26) (f_limbs f) = fv f.
Proof.
  intros H. apply C44_contract_pf in H. destruct f as [n0 n1 n2 n3 n4 n5 n6 n7 n8 n9 m b]. cbn [contract] in H. destruct H as (M & _ & L & L9 & _). cbn [f_limbs f_mag]. unfold u32b. split; [|split].
  - apply (Forall_app _ [_; _; _; _; _; _; _; _; _] [_]). split; [eapply Forall_impl; [|exact L]; cbv beta; intros; destruct b; lia | repeat constructor; destruct b; lia].
  - lia.
  - rewrite radix_fv. cbn [radix fold_right digits_val]. lia.
Qed.
Lemma key_numbers k x y : key_at k (Aff x y) -> exists lx mx ly my, numbers (pk_debug k) = lx ++ [mx] ++ ly ++ [my] /\
  length lx = 10%nat /\ length ly = 10%nat /\ digits_val (2 ^ 26) lx mod p = x /\ digits_val (2 ^ 26) ly mod p = y /\ mx = f_mag (af_x k) /\ my = f_mag (af_y k).
Proof.
  intros (X & Y & _ & _ & VX & VY). apply fok_u32 in X, Y. destruct X as (LX & MX & EX), Y as (LY & MY & EY). exists (f_limbs (af_x k)), (f_mag (af_x k)), (f_limbs (af_y k)), (f_mag (af_y k)).
  split; [apply numbers_pk; assumption|]. split; [destruct (af_x k); reflexivity|]. split; [destruct (af_y k); reflexivity|]. rewrite EX, EY. auto.
Qed.
(** The text of a public key gives its coordinates: the numbers in it are ten base-2^26 digits of x, a bookkeeping number, ten digits of y and another such number;
    the values of the digits are the coordinates modulo p. *)
Lemma C81_public_pf : forall k x y, key_at k (Aff x y) -> exists lx mx ly my, numbers (pk_debug k) = lx ++ [mx] ++ ly ++ [my] /\
  length lx = 10%nat /\ length ly = 10%nat /\ digits_val (2 ^ 26) lx mod p = x /\ digits_val (2 ^ 26) ly mod p = y.
Proof. intros k x y K. destruct (key_numbers k x y K) as (lx & mx & ly & my & H). exists lx, mx, ly, my. tauto. Qed.
Lemma C81_public_example_pf : key_at AFFINE_G (Aff gx gy) /\
  numbers (pk_debug AFFINE_G) = [49813400; 10507973; 42833311; 57456440; 50502652; 60932801; 33958236; 49197398; 41875932; 1994649; 1;
                                 51434680; 32777214; 21076420; 19044885; 16586676; 58999338; 38780864; 51484022; 41363107; 1183414; 1].
Proof. split; [exact G_key | vm_compute; reflexivity]. Qed.
Lemma bind_inv {A B} (o : option A) (f : A -> option B) r : bind o f = Some r -> exists x, o = Some x /\ f x = Some r.
Proof. destruct o as [x|]; [intros H; exists x; auto | discriminate]. Qed.
Ltac peel H := repeat (apply bind_inv in H; let x := fresh "x" in let E := fresh "E" in destruct H as (x & E & H); cbv beta in H; clear E).
Ltac peelf H := repeat (apply bind_inv in H; let x := fresh "x" in let E := fresh "E" in destruct H as (x & E & H); cbv beta in H; match type of E with _ = @Some field _ => idtac | _ => clear E end).
Lemma set_b32_flags dbg old l r : f_set_b32 dbg old l = Some (r, true) -> f_mag r = 1 /\ f_norm r = true.
Proof.
  unfold f_set_b32. intros H. do 33 (destruct l as [|? l]; try discriminate H). peel H. destruct x9; [discriminate H|].
  apply bind_inv in H. destruct H as (q & E & H). apply some_inv in E. subst q. peel H. apply some_inv in H. assert (Q : forall (a b : field), (a, true) = (b, true) -> a = b) by congruence. apply Q in H. subst r. split; reflexivity.
Qed.
Lemma norm_var_flags dbg f r : f_normalize_var dbg f = Some r -> f_mag r = 1 /\ f_norm r = true.
Proof.
  unfold f_normalize_var. destruct f as [t0 t1 t2 t3 t4 t5 t6 t7 t8 t9 m b]. intros H.
  peelf H. apply some_inv in H. subst r. match goal with E : (if ?c then _ else _) = _ |- _ => destruct c; rename E into K end; [peelf K|]; apply some_inv in K; subst; split; reflexivity.
Qed.
Lemma limbs_same a b : fcan a -> fcan b -> f_mag a = f_mag b -> fv a mod p = fv b mod p -> a = b.
Proof.
  destruct a as [n0 n1 n2 n3 n4 n5 n6 n7 n8 n9 m nb], b as [a0 a1 a2 a3 a4 a5 a6 a7 a8 a9 m' b']. intros A B M V. pose proof (proj2 A) as NA. pose proof (proj2 B) as NB. cbn [f_norm f_mag] in *. subst nb b' m'.
  pose proof (C44_canonical_pf _ _ _ _ _ _ _ _ _ _ _ _ _ _ _ _ _ _ _ _ _ _ A B V) as H. congruence.
Qed.
(** the two parsers on the two encodings of one point *)
Lemma two_parsers dbg x y : on_curve (Aff x y) -> exists kc kf, pk_parse_compressed dbg (sec1_compressed x y) = Some (Ok kc) /\ pk_parse dbg (sec1_full x y) = Some (Ok kf) /\
  key_at kc (Aff x y) /\ key_at kf (Aff x y) /\ f_mag (af_y kf) = 1 /\ ((square y /\ kc = kf) \/ (~ square y /\ f_mag (af_y kc) = 2)).
Proof.
  intros O. pose proof O as (RX & RY & _). assert (P2 : p < 2 ^ 256) by vmr. set (bx := be_bytes 32 x). set (b_y := be_bytes 32 y).
  assert (LX : length bx = 32%nat) by apply be_len. assert (LY : length b_y = 32%nat) by apply be_len. assert (BX : bytes bx) by apply bytes_be. assert (BY : bytes b_y) by apply bytes_be.
  assert (VX : be_val bx = x) by (apply val_be_bytes_32; lia). assert (VY : be_val b_y = y) by (apply val_be_bytes_32; lia).
  pose proof (Z.mod_pos_bound y 2 ltac:(lia)) as YM.
  destruct (C04_pubkey_parse_compressed_pf dbg (2 + y mod 2) bx LX) as [HC _]; [apply Forall_cons; [unfold is_byte; lia | exact BX]|]. rewrite VX in HC. destruct (HC y O eq_refl) as (kc & EC & KC).
  destruct (C03_pubkey_parse_pf dbg 4 bx b_y LX LY) as [HF _]; [apply Forall_cons; [unfold is_byte; lia | apply Forall_app; auto]|]. rewrite VX, VY in HF. destruct (HF (or_introl eq_refl) O) as (kf & EF & KF). clear HC HF.
  exists kc, kf. split; [exact EC|]. split; [exact EF|]. split; [exact KC|]. split; [exact KF|].
  (* the full form *)
  assert (SF : exists fx fy, kf = Af fx fy false /\ f_set_b32 dbg f_default bx = Some (fx, true) /\ f_set_b32 dbg f_default b_y = Some (fy, true)).
  { clear EC KC. unfold pk_parse in EF. change FULL_PUBLIC_KEY_SIZE with 65%nat in EF. cbn [length] in EF. rewrite app_length, LX, LY in EF. cbn [Nat.eqb negb Nat.add] in EF.
    change (idx (4 :: bx ++ b_y) 0) with (Some 4) in EF. cbn [bind] in EF. change (negb _) with false in EF at 1. cbv iota in EF.
    rewrite (sub_array_l bx b_y LX : sub_array (4 :: bx ++ b_y) 1 32 = bx), (sub_array_r bx b_y LX LY : sub_array (4 :: bx ++ b_y) 33 32 = b_y) in EF.
    apply bind_inv in EF. destruct EF as ([fx okx] & E1 & EF). destruct okx; cbn [negb] in EF; [|discriminate EF].
    apply bind_inv in EF. destruct EF as ([fy oky] & E2 & EF). destruct oky; cbn [negb] in EF; [|discriminate EF]. exists fx, fy. split; [|auto].
    apply bind_inv in EF. destruct EF as (el & E3 & EF). apply some_inv in E3. subst el. apply bind_inv in EF. destruct EF as (v & _ & EF). destruct v; apply some_inv in EF; [unfold af_set_xy in EF; congruence | discriminate EF]. }
  destruct SF as (fx & fy & -> & E1 & E2). destruct (set_b32_flags _ _ _ _ E1) as [MX NX]. destruct (set_b32_flags _ _ _ _ E2) as [MY NY]. cbn [af_y]. split; [exact MY|].
  (* the compressed form *)
  assert (SC : exists a ok, af_set_xo_var dbg fx (2 + y mod 2 =? 3) = Some (a, ok) /\ kc = a).
  { unfold pk_parse_compressed in EC. change COMPRESSED_PUBLIC_KEY_SIZE with 33%nat in EC. unfold sec1_compressed in EC. fold bx in EC. cbn [length] in EC. rewrite LX in EC. cbn [Nat.eqb negb] in EC.
    change (idx (2 + y mod 2 :: bx) 0) with (Some (2 + y mod 2)) in EC. cbn [bind] in EC. unfold TAG_PUBKEY_EVEN, TAG_PUBKEY_ODD in EC. destruct (negb _) in EC; [discriminate EC|].
    assert (S1 : sub_array (2 + y mod 2 :: bx) 1 32 = bx) by (unfold sub_array; cbn [skipn]; rewrite <- LX; apply firstn_all). rewrite S1, E1 in EC. cbn [bind negb] in EC.
    apply bind_inv in EC. destruct EC as ([a ok] & E3 & EC). exists a, ok. split; [exact E3|]. destruct (af_inf a); [discriminate EC|]. apply bind_inv in EC. destruct EC as (v & _ & EC). destruct v; apply some_inv in EC; congruence. }
  destruct SC as (a & ok & E3 & <-). pose proof KF as (FX & FY & _ & _ & VFX & VFY). cbn [af_x af_y] in FX, FY, VFX, VFY.
  assert (CX : fcan fx) by (pose proof (f_set_b32_rep dbg f_default bx LX BX) as W; rewrite E1 in W; destruct W as [_ W]; rewrite VX in W; exact (proj1 (W ltac:(lia)))).
  assert (CY : fcan fy) by (pose proof (f_set_b32_rep dbg f_default b_y LY BY) as W; rewrite E2 in W; destruct W as [_ W]; rewrite VY in W; exact (proj1 (W ltac:(lia)))).
  assert (F8 : fok 8 fx) by (eapply fok_mono; [exact FX | lia]).
  destruct (C61_set_xquad_pf dbg fx F8) as (a0 & ok0 & E4 & O1 & O2). rewrite VFX in O1, O2. assert (ok0 = true) as -> by (apply O1; exists y; exact O). destruct (O2 eq_refl) as (y0 & A0 & SQ & UN). clear O1 O2.
  unfold af_set_xo_var in E3. rewrite E4 in E3. cbn [bind negb] in E3. apply bind_inv in E3. destruct E3 as (w & E5 & E3).
  pose proof A0 as (_ & A0Y & A0C & _ & A0X & A0V). assert (A31 : fok 31 (af_y a0)) by (eapply fok_mono; [exact A0Y | lia]). pose proof (f_normalize_var_rep dbg (af_y a0) _ (fok_frep _ _ A31)) as W. rewrite E5 in W. change (wp (Some ?x) ?P) with (P x) in W. cbv beta in W.
  pose proof (f_is_odd_rep dbg w _ W) as OD. apply bind_inv in E3. destruct E3 as (o & E6 & E3). rewrite E6 in OD. change (wp (Some ?x) ?P) with (P x) in OD. cbv beta in OD. subst o.
  assert (VW : val (fe (af_y a0)) = y0) by (unfold fe; rewrite val_toF; exact A0V). rewrite VW in E3.
  destruct (norm_var_flags _ _ _ E5) as [MW NW]. assert (XA : af_x a0 = fx /\ af_inf a0 = false).
  { unfold af_set_xquad in E4. peelf E4. clear - E4. match type of E4 with context [let (_, _) := ?q in _] => destruct q end. apply some_inv in E4. assert (Q : forall (u v : affine) c d, (u, c) = (v, d : bool) -> u = v) by congruence. apply Q in E4. subst a0. split; reflexivity. }
  destruct XA as [XA IA]. apply bind_inv in E3. destruct E3 as (yr & E7 & E3). apply some_inv in E3. assert (KA : kc = Af (af_x a0) yr (af_inf a0)) by congruence. clear E3. subst kc. rewrite XA, IA in *. cbn [af_y].
  assert (PAR : forall z, on_curve (Aff x z) -> z mod 2 = y mod 2 -> z = y).
  { intros z OZ PZ. pose proof OZ as (_ & RZ & _). destruct (on_aff _ _ O) as (A & HA & PA & _). destruct (on_aff _ _ OZ) as (B & HB & PB & _).
    assert (A = B) by (apply (lifts_fun (toF x) (Z.odd y)); [exists (toF y) | exists (toF z)]; (split; [assumption|]); rewrite val_toF, Z.mod_small by lia; [reflexivity|]; rewrite !odd_mod, PZ; reflexivity).
    congruence. }
  assert (T3 : (2 + y mod 2 =? 3) = Z.odd y) by (rewrite odd_mod; destruct (Z.eqb_spec (2 + y mod 2) 3), (Z.eqb_spec (y mod 2) 1); try reflexivity; lia). rewrite T3 in E7.
  destruct (Bool.eqb (Z.odd y0) (Z.odd y)) eqn:EB.
  - apply some_inv in E7. subst yr. apply eqb_prop in EB. assert (HY : y0 = y).
    { apply PAR; [exact A0C|]. rewrite !Zmod_odd, EB. reflexivity. }
    rewrite HY in *. left. split; [exact SQ|]. f_equal. apply limbs_same; [exact (proj1 W) | exact CY | congruence |]. rewrite VFY. pose proof (proj2 W) as WV. rewrite <- VW, <- WV. unfold fe. rewrite val_toF. reflexivity.
  - right. split.
    + intros S. assert (HY : y = y0) by (apply UN; assumption). rewrite <- HY, eqb_reflx in EB. discriminate EB.
    + unfold f_neg in E7. apply bind_inv in E7. destruct E7 as (u1 & _ & E7). apply bind_inv in E7. destruct E7 as (u2 & _ & E7). destruct w as [w0 w1 w2 w3 w4 w5 w6 w7 w8 w9 wm wb].
      apply bind_inv in E7. destruct E7 as (m1 & EM & E7). assert (m1 = 2) by (destruct dbg; vm_compute in EM; congruence). subst m1. clear EM.
      do 10 (apply bind_inv in E7; destruct E7 as (? & _ & E7)). apply bind_inv in E7. destruct E7 as (q & EQ & E7). apply bind_inv in E7. destruct E7 as (? & _ & E7). apply some_inv in E7. apply some_inv in EQ. subst q. rewrite <- E7. reflexivity.
Qed.
(** The same public key parsed from its two standard encodings compares equal. The two values print the same text exactly when the y coordinate is a square modulo p:
    otherwise the compressed parser leaves y as a negated, unnormalised square root. *)
Lemma C81_forms_pf : forall dbg x y, on_curve (Aff x y) -> exists kc kf, pk_parse_compressed dbg (sec1_compressed x y) = Some (Ok kc) /\ pk_parse dbg (sec1_full x y) = Some (Ok kf) /\
  pk_eq dbg kc kf = Some true /\ (pk_debug kc = pk_debug kf <-> square y).
Proof.
  intros dbg x y O. destruct (two_parsers dbg x y O) as (kc & kf & EC & EF & KC & KF & MF & D). exists kc, kf. split; [exact EC|]. split; [exact EF|].
  split; [destruct (C07_equality_pf dbg kc kf x y x y KC KF) as (e & E & IFF & _); rewrite E; f_equal; apply IFF; auto|].
  destruct D as [[S <-]|[NS MC]]; [tauto|]. split; [|intros S; elim (NS S)]. intros E. exfalso.
  destruct (key_numbers _ _ _ KC) as (l1 & m1 & l2 & m2 & N1 & L1 & L2 & _ & _ & _ & M2). destruct (key_numbers _ _ _ KF) as (l3 & m3 & l4 & m4 & N3 & L3 & L4 & _ & _ & _ & M4).
  rewrite E, N3 in N1. apply (f_equal (fun l => last l 0)) in N1. rewrite !app_assoc, !last_last in N1. lia.
Qed.
Lemma gy_square : square gy.
Proof. exists 65905178935660155284462022142075717170485136974784532884405716975433538830339. vm_compute. reflexivity. Qed.
Lemma C81_forms_example_pf : on_curve (Aff gx gy) /\ on_curve (Aff gx (p - gy)) /\ square gy /\ ~ square (p - gy).
Proof.
  assert (O : on_curve (Aff gx gy)) by apply G_key. assert (RG : 0 < gy < p) by vmr.
  split; [exact O|]. split; [|split; [exact gy_square|]].
  - destruct O as (A & B & C). split; [exact A|]. split; [lia|]. rewrite <- C. replace ((p - gy) * (p - gy)) with (gy * gy + (p - 2 * gy) * p) by ring. apply Z.mod_add. lia.
  - intros (t & T). destruct gy_square as (s & S). apply (neg_square (toF gy)).
    + intros E. apply (f_equal val) in E. rewrite val_toF in E. change (val f0) with 0 in E. rewrite Z.mod_small in E by lia. lia.
    + exists (toF s). rewrite <- toF_mul. apply toF_eq. exact S.
    + exists (toF t). rewrite <- toF_mul, <- toF_opp. apply toF_eq. rewrite T. replace (p - gy) with (- gy + 1 * p) by ring. apply Z.mod_add. lia.
Qed.
(** "Equal public keys print the same text" is false. *)
Lemma C81_public_refuted_pf : forall dbg, exists kc kf, key_at kc (Aff gx (p - gy)) /\ key_at kf (Aff gx (p - gy)) /\ pk_eq dbg kc kf = Some true /\ pk_debug kc <> pk_debug kf.
Proof.
  intros dbg. destruct C81_forms_example_pf as (_ & O & _ & N). destruct (two_parsers dbg _ _ O) as (kc0 & kf0 & EC0 & EF0 & KC0 & KF0 & _).
  destruct (C81_forms_pf dbg _ _ O) as (kc & kf & EC & EF & E & IFF). rewrite EC in EC0. rewrite EF in EF0. apply some_inv in EC0. apply some_inv in EF0. assert (kc = kc0) as <- by congruence. assert (kf = kf0) as <- by congruence.
  exists kc, kf. tauto.
Qed.

(** The text with every run of decimal digits replaced by #; [inn] says that a run is being read. *)
Fixpoint shape_from (s : string) (inn : bool) : string :=
  match s with
  | EmptyString => ""
  | String c t =>
      let k := Z.of_nat (nat_of_ascii c) - 48 in
      if (0 <=? k) && (k <? 10) then (if inn then shape_from t true else String "#" (shape_from t true))
      else String c (shape_from t false)
  end.
Definition shape (s : string) : string := shape_from s false.

Lemma sh_digit d t b : 0 <= d < 10 -> shape_from (String (digit d) t) b = ((if b then "" else "#") ++ shape_from t true)%string.
Proof.
  intros H. assert (C : d = 0 \/ d = 1 \/ d = 2 \/ d = 3 \/ d = 4 \/ d = 5 \/ d = 6 \/ d = 7 \/ d = 8 \/ d = 9) by lia.
  repeat (destruct C as [C | C]; [rewrite C; destruct b; reflexivity|]). rewrite C; destruct b; reflexivity.
Qed.
Lemma sh_dec f : forall v t b, shape_from (dec f v t) b = ((if b then "" else "#") ++ shape_from t true)%string.
Proof.
  induction f as [|f IH]; intros v t b; cbn [dec]; pose proof (Z.mod_pos_bound v 10 ltac:(lia)).
  - apply sh_digit. lia.
  - destruct (v <? 10); [apply sh_digit; lia|]. rewrite IH, sh_digit by lia. destruct b; reflexivity.
Qed.
Lemma sh_u32 v t : shape_from (dec_u32 v ++ t)%string false = String "#" (shape_from t true).
Proof. unfold dec_u32. rewrite dec_app. cbn [append]. rewrite sh_dec. reflexivity. Qed.
(** [k] times # with commas between *)
Fixpoint hashes (k : nat) : string := match k with O => "" | 1%nat => "#" | Datatypes.S j => ("#, " ++ hashes j)%string end.
Lemma sh_elems l t : shape_from (dbg_elems l ++ "]" ++ t)%string false = (hashes (length l) ++ "]" ++ shape_from t false)%string.
Proof.
  induction l as [|v l IH]; [reflexivity|]. destruct l as [|w l].
  - cbn [dbg_elems length hashes]. rewrite sh_u32. reflexivity.
  - change (dbg_elems (v :: w :: l)) with (dec_u32 v ++ ", " ++ dbg_elems (w :: l))%string. rewrite !str_app_assoc, sh_u32.
    change (shape_from (", " ++ ?x)%string true) with (", " ++ shape_from x false)%string. rewrite IH. change (length (v :: w :: l)) with (Datatypes.S (length (w :: l))).
    change (hashes (Datatypes.S (length (w :: l)))) with ("#, " ++ hashes (length (w :: l)))%string. rewrite str_app_assoc. reflexivity.
Qed.
Lemma sh_array l t : shape_from (dbg_array l ++ t)%string false = ("[" ++ hashes (length l) ++ "]" ++ shape_from t false)%string.
Proof. unfold dbg_array. rewrite !str_app_assoc. change (shape_from ("[" ++ ?x)%string false) with ("[" ++ shape_from x false)%string. rewrite sh_elems. reflexivity. Qed.
Definition scalar_text : string := "Scalar([#, #, #, #, #, #, #, #])".
Definition field_text (nrm : bool) : string := ("Field { n: [#, #, #, #, #, #, #, #, #, #], magnitude: #, normalized: " ++ (if nrm then "true" else "false") ++ " }")%string.
Definition storage_text : string := "FieldStorage([#, #, #, #, #, #, #, #])".
Lemma sh_scalar s t : shape_from (s_debug s ++ t)%string false = (scalar_text ++ shape_from t false)%string.
Proof.
  unfold s_debug. rewrite !str_app_assoc. change (shape_from ("Scalar(" ++ ?x)%string false) with ("Scalar(" ++ shape_from x false)%string. rewrite sh_array. destruct s. reflexivity.
Qed.
Lemma sh_field f t : shape_from (f_debug f ++ t)%string false = (field_text (f_norm f) ++ shape_from t false)%string.
Proof.
  destruct f as [n0 n1 n2 n3 n4 n5 n6 n7 n8 n9 m b]. unfold f_debug. rewrite !str_app_assoc. change (shape_from ("Field { n: " ++ ?x)%string false) with ("Field { n: " ++ shape_from x false)%string.
  rewrite sh_array. change (shape_from (", magnitude: " ++ ?x)%string false) with (", magnitude: " ++ shape_from x false)%string. rewrite sh_u32. destruct b; reflexivity.
Qed.
Lemma sh_storage s t : shape_from (fs_debug s ++ t)%string false = (storage_text ++ shape_from t false)%string.
Proof.
  destruct s. unfold fs_debug. rewrite !str_app_assoc. change (shape_from ("FieldStorage(" ++ ?x)%string false) with ("FieldStorage(" ++ shape_from x false)%string. rewrite sh_array. reflexivity.
Qed.
Definition affine_text (nx ny inf : bool) : string := ("Affine { x: " ++ field_text nx ++ ", y: " ++ field_text ny ++ ", infinity: " ++ (if inf then "true" else "false") ++ " }")%string.
Lemma sh_affine a t : shape_from (af_debug a ++ t)%string false = (affine_text (f_norm (af_x a)) (f_norm (af_y a)) (af_inf a) ++ shape_from t false)%string.
Proof.
  unfold af_debug, affine_text. rewrite !str_app_assoc. change (shape_from ("Affine { x: " ++ ?x)%string false) with ("Affine { x: " ++ shape_from x false)%string. rewrite sh_field.
  change (shape_from (", y: " ++ ?x)%string false) with (", y: " ++ shape_from x false)%string. rewrite sh_field. destruct (af_inf a); reflexivity.
Qed.
Lemma str_nil s : (s ++ "")%string = s. Proof. induction s as [|c s IH]; [reflexivity | cbn; rewrite IH; reflexivity]. Qed.
(** The words, names and punctuation of each text, with # for each number: they depend only on the flags of field elements and points. *)
Lemma C81_shape_pf :
  (forall s, shape (sk_debug s) = "SecretKey(Scalar([#, #, #, #, #, #, #, #]))") /\
  (forall s, shape (msg_debug s) = "Message(Scalar([#, #, #, #, #, #, #, #]))") /\
  (forall r s, shape (sig_debug (Sig r s)) = "Signature { r: Scalar([#, #, #, #, #, #, #, #]), s: Scalar([#, #, #, #, #, #, #, #]) }") /\
  (forall v, shape (rid_debug v) = "RecoveryId(#)") /\
  (forall l, shape (ss_debug l) = ("SharedSecret([" ++ hashes (length l) ++ "])")%string) /\
  (forall f, shape (f_debug f) = field_text (f_norm f)) /\
  (forall a, shape (pk_debug a) = ("PublicKey(Affine { x: " ++ field_text (f_norm (af_x a)) ++ ", y: " ++ field_text (f_norm (af_y a)) ++ ", infinity: " ++ (if af_inf a then "true" else "false") ++ " })")%string) /\
  (forall a, shape (j_debug a) = ("Jacobian { x: " ++ field_text (f_norm (j_x a)) ++ ", y: " ++ field_text (f_norm (j_y a)) ++ ", z: " ++ field_text (f_norm (j_z a)) ++ ", infinity: " ++ (if j_inf a then "true" else "false") ++ " }")%string) /\
  (forall x y, shape (as_debug (As x y)) = "AffineStorage { x: FieldStorage([#, #, #, #, #, #, #, #]), y: FieldStorage([#, #, #, #, #, #, #, #]) }") /\
  (forall e, shape (error_debug e) = error_debug e).
Proof.
  unfold shape. repeat apply conj.
  - intros s. unfold sk_debug. change (shape_from ("SecretKey(" ++ ?x)%string false) with ("SecretKey(" ++ shape_from x false)%string. rewrite sh_scalar. reflexivity.
  - intros s. unfold msg_debug. change (shape_from ("Message(" ++ ?x)%string false) with ("Message(" ++ shape_from x false)%string. rewrite sh_scalar. reflexivity.
  - intros r s. unfold sig_debug. cbn [sig_r sig_s]. change (shape_from ("Signature { r: " ++ ?x)%string false) with ("Signature { r: " ++ shape_from x false)%string. rewrite sh_scalar.
    change (shape_from (", s: " ++ ?x)%string false) with (", s: " ++ shape_from x false)%string. rewrite sh_scalar. reflexivity.
  - intros v. unfold rid_debug. change (shape_from ("RecoveryId(" ++ ?x)%string false) with ("RecoveryId(" ++ shape_from x false)%string. rewrite sh_u32. reflexivity.
  - intros l. unfold ss_debug. change (shape_from ("SharedSecret(" ++ ?x)%string false) with ("SharedSecret(" ++ shape_from x false)%string. rewrite sh_array. reflexivity.
  - intros f. rewrite <- (str_nil (f_debug f)), sh_field. cbn [shape_from]. apply str_nil.
  - intros a. unfold pk_debug. change (shape_from ("PublicKey(" ++ ?x)%string false) with ("PublicKey(" ++ shape_from x false)%string. rewrite sh_affine. unfold affine_text. rewrite !str_app_assoc. reflexivity.
  - intros a. unfold j_debug. change (shape_from ("Jacobian { x: " ++ ?x)%string false) with ("Jacobian { x: " ++ shape_from x false)%string. rewrite sh_field.
    change (shape_from (", y: " ++ ?x)%string false) with (", y: " ++ shape_from x false)%string. rewrite sh_field. change (shape_from (", z: " ++ ?x)%string false) with (", z: " ++ shape_from x false)%string. rewrite sh_field.
    destruct (j_inf a); reflexivity.
  - intros x y. unfold as_debug. change (shape_from ("AffineStorage { x: " ++ ?x)%string false) with ("AffineStorage { x: " ++ shape_from x false)%string. rewrite sh_storage.
    change (shape_from (", y: " ++ ?x)%string false) with (", y: " ++ shape_from x false)%string. rewrite sh_storage. reflexivity.
  - intros e. destruct e; reflexivity.
Qed.
Lemma C81_shape_example_pf : shape "RecoveryId(13), 007" = "RecoveryId(#), #" /\ hashes 3 = "#, #, #" /\ shape (f_debug (f_default)) = field_text (f_norm f_default).
Proof. split; [reflexivity|]. split; [reflexivity | apply C81_shape_pf]. Qed.
(** The numbers of each text, in order: the limbs, least significant first, and for a field element then its magnitude. *)
Definition field_numbers (f : field) : list Z := f_limbs f ++ [f_mag f].
Definition storage_numbers (f : fstorage) : list Z := match f with Fs d0 d1 d2 d3 d4 d5 d6 d7 => [d0; d1; d2; d3; d4; d5; d6; d7] end.
Lemma nm_fields f t : Forall u32b (field_numbers f) -> numbers_from (f_debug f ++ t)%string None = field_numbers f ++ numbers_from t None.
Proof. intros H. apply Forall_app in H. destruct H as [L M]. apply Forall_inv in M. exact (nm_field f L M t). Qed.
Lemma nm_storage f t : Forall u32b (storage_numbers f) -> numbers_from (fs_debug f ++ t)%string None = storage_numbers f ++ numbers_from t None.
Proof.
  destruct f. cbn [storage_numbers]. intros L. unfold fs_debug. rewrite !str_app_assoc. change (numbers_from ("FieldStorage(" ++ ?x)%string None) with (numbers_from x None). rewrite (nm_array _ L). reflexivity.
Qed.
Lemma C81_numbers_pf :
  (forall s, Forall u32b (s_limbs s) -> numbers (s_debug s) = s_limbs s) /\
  (forall f, Forall u32b (field_numbers f) -> numbers (f_debug f) = field_numbers f) /\
  (forall a, Forall u32b (field_numbers (af_x a)) -> Forall u32b (field_numbers (af_y a)) -> numbers (af_debug a) = field_numbers (af_x a) ++ field_numbers (af_y a)) /\
  (forall a, Forall u32b (field_numbers (j_x a)) -> Forall u32b (field_numbers (j_y a)) -> Forall u32b (field_numbers (j_z a)) ->
     numbers (j_debug a) = field_numbers (j_x a) ++ field_numbers (j_y a) ++ field_numbers (j_z a)) /\
  (forall f, Forall u32b (storage_numbers f) -> numbers (fs_debug f) = storage_numbers f) /\
  (forall x y, Forall u32b (storage_numbers x) -> Forall u32b (storage_numbers y) -> numbers (as_debug (As x y)) = storage_numbers x ++ storage_numbers y).
Proof.
  unfold numbers. repeat apply conj.
  - intros s L. unfold s_debug. change (numbers_from ("Scalar(" ++ ?x)%string None) with (numbers_from x None). rewrite (nm_array _ L). apply app_nil_r.
  - intros f H. rewrite <- (str_nil (f_debug f)), (nm_fields f "" H). apply app_nil_r.
  - intros a X Y. unfold af_debug. change (numbers_from ("Affine { x: " ++ ?x)%string None) with (numbers_from x None). rewrite (nm_fields _ _ X). change (numbers_from (", y: " ++ ?x)%string None) with (numbers_from x None).
    rewrite (nm_fields _ _ Y). replace (numbers_from _ None) with (@nil Z) by (destruct (af_inf a); reflexivity). rewrite app_nil_r. reflexivity.
  - intros a X Y W. unfold j_debug. change (numbers_from ("Jacobian { x: " ++ ?x)%string None) with (numbers_from x None). rewrite (nm_fields _ _ X). change (numbers_from (", y: " ++ ?x)%string None) with (numbers_from x None).
    rewrite (nm_fields _ _ Y). change (numbers_from (", z: " ++ ?x)%string None) with (numbers_from x None). rewrite (nm_fields _ _ W).
    replace (numbers_from _ None) with (@nil Z) by (destruct (j_inf a); reflexivity). rewrite app_nil_r. reflexivity.
  - intros f H. rewrite <- (str_nil (fs_debug f)), (nm_storage f "" H). apply app_nil_r.
  - intros x y X Y. unfold as_debug. change (numbers_from ("AffineStorage { x: " ++ ?x)%string None) with (numbers_from x None). rewrite (nm_storage _ _ X). change (numbers_from (", y: " ++ ?x)%string None) with (numbers_from x None).
    rewrite (nm_storage _ _ Y). cbn. rewrite app_nil_r. reflexivity.
Qed.
Lemma C81_numbers_example_pf : Forall u32b (field_numbers (af_x AFFINE_G)) /\ Forall u32b (storage_numbers (Fs 4294967295 0 0 0 0 0 0 1)) /\
  fs_debug (Fs 4294967295 0 0 0 0 0 0 1) = "FieldStorage([4294967295, 0, 0, 0, 0, 0, 0, 1])".
Proof.
  assert (U : forall l, forallb (fun v => (0 <=? v) && (v <? 2 ^ 32)) l = true -> Forall u32b l).
  { intros l H. apply Forall_forall. intros v I. apply (proj1 (forallb_forall _ _) H) in I. apply andb_prop in I. destruct I as [A B]. apply Z.leb_le in A. apply Z.ltb_lt in B. split; assumption. }
  split; [apply U; vm_compute; reflexivity|]. split; [apply U; vm_compute; reflexivity | vm_compute; reflexivity].
Qed.
Lemma dec_head f : forall v t, 0 < v < pow10 f -> exists d r, 1 <= d < 10 /\ dec f v t = String (digit d) r.
Proof.
  induction f as [|f IH]; intros v t H; cbn [dec pow10] in *.
  - exists v, t. rewrite Z.mod_small by lia. split; [lia | reflexivity].
  - destruct (Z.ltb_spec v 10); [exists v, t; rewrite Z.mod_small by lia; split; [lia | reflexivity]|].
    apply IH. split; [apply Z.div_str_pos; lia | apply Z.div_lt_upper_bound; lia].
Qed.
(** A number is written in decimal without leading zeros. *)
Lemma C81_decimal_pf : forall v, 0 <= v < 2 ^ 32 -> numbers (dec_u32 v) = [v] /\ shape (dec_u32 v) = "#" /\ (v = 0 -> dec_u32 v = "0") /\ (v <> 0 -> exists c t, dec_u32 v = String c t /\ c <> "0"%char).
Proof.
  intros v H. unfold numbers, shape. split; [|split; [|split]].
  - rewrite <- (str_nil (dec_u32 v)). rewrite (nm_u32 v H ""). reflexivity.
  - rewrite <- (str_nil (dec_u32 v)), sh_u32. reflexivity.
  - intros ->. reflexivity.
  - intros N. destruct (dec_head 9 v "" ltac:(cbn [pow10]; lia)) as (d & r & D & E). exists (digit d), r. split; [exact E|].
    assert (C : d = 1 \/ d = 2 \/ d = 3 \/ d = 4 \/ d = 5 \/ d = 6 \/ d = 7 \/ d = 8 \/ d = 9) by lia. repeat (destruct C as [C | C]; [rewrite C; discriminate|]). rewrite C; discriminate.
Qed.
Lemma C81_decimal_example_pf : dec_u32 4294967295 = "4294967295" /\ dec_u32 10 = "10".
Proof. split; vm_compute; reflexivity. Qed.
