(** Byte and storage encodings of field elements. *)
From Verif Require Import Word MField WP FieldMul FieldNorm FieldZero Spec Fp Bits FieldOps.

(** a limb cut into 8-bit pieces at the four possible alignments *)
Lemma cut0 x : 0 <= x <= 67108863 ->
  x = x mod 256 + 256 * ((x / 256) mod 256) + 65536 * ((x / 65536) mod 256) + 16777216 * ((x / 16777216) mod 4).
Proof. intros. Z.to_euclidean_division_equations. lia. Qed.
Lemma cut6 x : 0 <= x <= 67108863 ->
  x = x mod 64 + 64 * ((x / 64) mod 256) + 16384 * ((x / 16384) mod 256) + 4194304 * ((x / 4194304) mod 16).
Proof. intros. Z.to_euclidean_division_equations. lia. Qed.
Lemma cut4 x : 0 <= x <= 67108863 ->
  x = x mod 16 + 16 * ((x / 16) mod 256) + 4096 * ((x / 4096) mod 256) + 1048576 * ((x / 1048576) mod 64).
Proof. intros. Z.to_euclidean_division_equations. lia. Qed.
Lemma cut2 x : 0 <= x <= 67108863 ->
  x = x mod 4 + 4 * ((x / 4) mod 256) + 1024 * ((x / 1024) mod 256) + 262144 * ((x / 262144) mod 256).
Proof. intros. Z.to_euclidean_division_equations. lia. Qed.

Lemma as_u8_byte x k : 0 <= k -> as_u8 (Z.land (Z.shiftr x k) 255) = (x / 2 ^ k) mod 256.
Proof.
  intros Hk. rewrite (land_mod _ 255 8) by (reflexivity || lia). rewrite Z.shiftr_div_pow2 by exact Hk.
  unfold as_u8. rewrite Z.mod_mod by discriminate. reflexivity.
Qed.
Lemma as_u8_byte0 x : as_u8 (Z.land x 255) = x mod 256.
Proof. rewrite (land_mod _ 255 8) by (reflexivity || lia). apply Z.mod_mod. discriminate. Qed.
(** a byte straddling two limbs *)
Lemma as_u8_straddle hi lo mh j k ml e :
  mh = 2 ^ e - 1 -> ml = 2 ^ j - 1 -> 0 <= j -> 0 <= e -> e + j = 8 -> 0 <= k ->
  as_u8 (Z.lor (shl32 (Z.land hi mh) j) (Z.land (Z.shiftr lo k) ml)) = (hi mod 2 ^ e) * 2 ^ j + (lo / 2 ^ k) mod 2 ^ j.
Proof.
  intros Hh Hl Hj He S Hk. rewrite (land_mod hi mh e) by assumption.
  rewrite (land_mod _ ml j) by assumption. rewrite Z.shiftr_div_pow2 by exact Hk.
  assert (0 < 2 ^ j) by (apply Z.pow_pos_nonneg; lia). assert (0 < 2 ^ e) by (apply Z.pow_pos_nonneg; lia).
  pose proof (Z.mod_pos_bound hi (2 ^ e) ltac:(lia)). pose proof (Z.mod_pos_bound (lo / 2 ^ k) (2 ^ j) ltac:(lia)).
  assert (2 ^ e * 2 ^ j = 256) by (rewrite <- Z.pow_add_r by lia; rewrite S; reflexivity).
  assert (2 ^ e <= 256) by nia.
  rewrite Z.lor_comm, lor_shl32; try lia; [|change (2 ^ 32) with 4294967296; nia].
  unfold as_u8. change (2 ^ 8) with 256. rewrite Z.mod_small by nia. lia.
Qed.

Ltac byte_goals := unfold bytes; repeat match goal with |- Forall _ (_ :: _) => apply Forall_cons | |- Forall _ [] => apply Forall_nil end;
  first [ apply Z.mod_pos_bound; reflexivity
        | match goal with |- 0 <= ?a mod ?m * ?c + ?b mod ?d < _ =>
            pose proof (Z.mod_pos_bound a m eq_refl); pose proof (Z.mod_pos_bound b d eq_refl);
            let m' := eval vm_compute in m in let d' := eval vm_compute in d in let c' := eval vm_compute in c in
            change m with m' in *; change d with d' in *; change c with c' in *; lia end ].

Section B.
Variable dbg : bool.

Lemma f_b32_rep f e : fcrep f e -> wp (f_b32 dbg f) (fun l => l = be_bytes 32 (val e)).
Proof.
  intros H. pose proof (fcrep_val _ _ H) as V. pose proof (fcan_lim _ (proj1 H)) as L.
  unfold f_b32. apply wp_dassert; [apply H|]. apply wp_dassert; [apply fcan_verify, H|].
  destruct f as [n0 n1 n2 n3 n4 n5 n6 n7 n8 n9 m nrm]. clear H. cbn [fv] in V.
  destruct L as [(L0 & L1 & L2 & L3 & L4 & L5 & L6 & L7 & L8) L9].
  apply wp_some.
  rewrite !as_u8_byte by lia. rewrite !as_u8_byte0.
  rewrite (as_u8_straddle n9 n8 63 2 24 3 6) by (reflexivity || lia).
  rewrite (as_u8_straddle n7 n6 3 6 20 63 2) by (reflexivity || lia).
  rewrite (as_u8_straddle n6 n5 15 4 22 15 4) by (reflexivity || lia).
  rewrite (as_u8_straddle n5 n4 63 2 24 3 6) by (reflexivity || lia).
  rewrite (as_u8_straddle n3 n2 3 6 20 63 2) by (reflexivity || lia).
  rewrite (as_u8_straddle n2 n1 15 4 22 15 4) by (reflexivity || lia).
  rewrite (as_u8_straddle n1 n0 63 2 24 3 6) by (reflexivity || lia).
  apply be_bytes_unique.
  - reflexivity.
  - byte_goals.
  - rewrite <- V. unfold val10.
    pose proof (cut0 n0 L0) as C0. pose proof (cut6 n1 L1) as C1. pose proof (cut4 n2 L2) as C2.
    pose proof (cut2 n3 L3) as C3. pose proof (cut0 n4 L4) as C4. pose proof (cut6 n5 L5) as C5.
    pose proof (cut4 n6 L6) as C6. pose proof (cut2 n7 L7) as C7. pose proof (cut0 n8 L8) as C8.
    pose proof (cut6 n9 ltac:(lia)) as C9.
    assert ((n9 / 4194304) mod 16 = 0) as T9 by (rewrite Z.div_small by lia; reflexivity).
    rewrite T9 in C9.
    cbn [be_val length]. 
    change (2 ^ 14) with 16384. change (2 ^ 6) with 64. change (2 ^ 24) with 16777216. change (2 ^ 16) with 65536.
    change (2 ^ 8) with 256. change (2 ^ 18) with 262144. change (2 ^ 10) with 1024. change (2 ^ 2) with 4.
    change (2 ^ 20) with 1048576. change (2 ^ 12) with 4096. change (2 ^ 4) with 16. change (2 ^ 22) with 4194304.
    repeat match goal with |- context [256 ^ Z.of_nat ?k] => let c := eval vm_compute in (256 ^ Z.of_nat k) in change (256 ^ Z.of_nat k) with c end.
    repeat match goal with |- context [2 ^ ?k] => let c := eval vm_compute in (2 ^ k) in change (2 ^ k) with c end.
    repeat match goal with |- context [?a mod ?b] => let x := fresh "u" in set (x := a mod b) in *; clearbody x end.
    lia.
Qed.

(** the over-the-modulus test of [set_b32] *)
Lemma over_flag n0 n1 n2 n3 n4 n5 n6 n7 n8 n9 : lim26 n0 n1 n2 n3 n4 n5 n6 n7 n8 -> 0 <= n9 <= 4194303 ->
  wp (if (n9 =? 4194303)
        && (Z.land (Z.land (Z.land (Z.land (Z.land (Z.land n8 n7) n6) n5) n4) n3) n2 =? 67108863)
     then let* q1 := add32 dbg n1 64 in
          let* q2 := add32 dbg n0 977 in
          let* q3 := add32 dbg q1 (Z.shiftr q2 26) in
          Some (67108863 <? q3)
     else Some false) (fun b => b = (fp <=? val10 n0 n1 n2 n3 n4 n5 n6 n7 n8 n9)).
Proof.
  intros L H9.
  assert (Hland : Z.land (Z.land (Z.land (Z.land (Z.land (Z.land n8 n7) n6) n5) n4) n3) n2
                = Z.land (Z.land (Z.land (Z.land (Z.land (Z.land n2 n3) n4) n5) n6) n7) n8).
  { apply Z.bits_inj'. intros i _. rewrite !Z.land_spec.
    destruct (Z.testbit n2 i), (Z.testbit n3 i), (Z.testbit n4 i), (Z.testbit n5 i), (Z.testbit n6 i), (Z.testbit n7 i), (Z.testbit n8 i); reflexivity. }
  rewrite Hland. pose proof L as L'. unfold lim26 in L'. destruct L' as (L0 & L1 & L2 & L3 & L4 & L5 & L6 & L7 & L8).
  destruct (n9 =? 4194303) eqn:E9; [apply Z.eqb_eq in E9; subst n9 | apply Z.eqb_neq in E9].
  - cbn [andb].
    destruct (_ =? 67108863) eqn:El.
    + apply land_chain_fwd in El; [|assumption..]. destruct El as (-> & -> & -> & -> & -> & -> & ->).
      pose proof (ge_p_low _ _ _ _ _ _ _ _ _ L eq_refl eq_refl eq_refl eq_refl eq_refl eq_refl eq_refl) as G.
      assert (0 <= Z.shiftr (n0 + 977) 26 <= 1).
      { rewrite Z.shiftr_div_pow2 by lia. change (2 ^ 26) with 67108864. split; [apply Z.div_pos; lia | apply Z.lt_succ_r; apply Z.div_lt_upper_bound; lia]. }
      unfold add32. repeat (rewrite uchk_ok by (change (2 ^ 32) with 4294967296; lia); cbn [bind]). apply wp_some. exact G.
    + apply wp_some. symmetry. apply Z.leb_gt. apply not_top_full; [exact L|].
      intros T. rewrite land_chain_bwd in El by exact T. discriminate.
  - cbn [andb]. apply wp_some. symmetry. apply Z.leb_gt. unfold val10, fp. lia.
Qed.

Lemma lor4 a b c d i j k : 0 <= a < 2 ^ i -> 0 <= b -> 0 <= c -> 0 <= d ->
  a + b * 2 ^ i < 2 ^ j -> a + b * 2 ^ i + c * 2 ^ j < 2 ^ k -> a + b * 2 ^ i + c * 2 ^ j + d * 2 ^ k < 2 ^ 32 ->
  0 <= i -> 0 <= j -> 0 <= k ->
  Z.lor (Z.lor (Z.lor a (shl32 b i)) (shl32 c j)) (shl32 d k) = a + b * 2 ^ i + c * 2 ^ j + d * 2 ^ k.
Proof.
  intros Ha Hb Hc Hd B1 B2 B3 Hi Hj Hk.
  assert (0 < 2 ^ i) by (apply Z.pow_pos_nonneg; lia). assert (0 < 2 ^ j) by (apply Z.pow_pos_nonneg; lia).
  assert (0 < 2 ^ k) by (apply Z.pow_pos_nonneg; lia).
  assert (0 <= b * 2 ^ i) by (apply Z.mul_nonneg_nonneg; lia). assert (0 <= c * 2 ^ j) by (apply Z.mul_nonneg_nonneg; lia). assert (0 <= d * 2 ^ k) by (apply Z.mul_nonneg_nonneg; lia).
  rewrite (lor_shl32 a b i) by lia. rewrite (lor_shl32 _ c j) by lia. rewrite (lor_shl32 _ d k) by lia. reflexivity.
Qed.
Lemma lor3 a b c i j : 0 <= a < 2 ^ i -> 0 <= b -> 0 <= c ->
  a + b * 2 ^ i < 2 ^ j -> a + b * 2 ^ i + c * 2 ^ j < 2 ^ 32 -> 0 <= i -> 0 <= j ->
  Z.lor (Z.lor a (shl32 b i)) (shl32 c j) = a + b * 2 ^ i + c * 2 ^ j.
Proof.
  intros Ha Hb Hc B1 B2 Hi Hj.
  assert (0 < 2 ^ i) by (apply Z.pow_pos_nonneg; lia). assert (0 < 2 ^ j) by (apply Z.pow_pos_nonneg; lia).
  assert (0 <= b * 2 ^ i) by (apply Z.mul_nonneg_nonneg; lia). assert (0 <= c * 2 ^ j) by (apply Z.mul_nonneg_nonneg; lia).
  rewrite (lor_shl32 a b i) by lia. rewrite lor_shl32 by lia. reflexivity.
Qed.
(** a byte split at bit [k] *)
Lemma byte_split b k m1 m2 : 0 <= b < 256 -> 0 <= k <= 8 -> m1 = 2 ^ k - 1 -> m2 = 2 ^ (8 - k) - 1 -> exists h l,
  Z.land b m1 = l /\ Z.land (Z.shiftr b k) m2 = h /\ b = h * 2 ^ k + l /\ 0 <= l <= m1 /\ 0 <= h <= m2.
Proof.
  intros Hb Hk -> ->. exists (b / 2 ^ k), (b mod 2 ^ k).
  assert (0 < 2 ^ k) by (apply Z.pow_pos_nonneg; lia). assert (0 < 2 ^ (8 - k)) by (apply Z.pow_pos_nonneg; lia).
  assert (2 ^ k * 2 ^ (8 - k) = 256) by (rewrite <- Z.pow_add_r by lia; replace (k + (8 - k)) with 8 by lia; reflexivity).
  rewrite !(land_mod _ _ _ (ltac:(lia) : 0 <= k) eq_refl). rewrite (land_mod _ _ (8 - k)) by (reflexivity || lia).
  rewrite Z.shiftr_div_pow2 by lia.
  pose proof (Z.mod_pos_bound b (2 ^ k) ltac:(lia)). pose proof (Z.div_mod b (2 ^ k) ltac:(lia)).
  assert (0 <= b / 2 ^ k < 2 ^ (8 - k)) by (split; [apply Z.div_pos; lia | apply Z.div_lt_upper_bound; lia]).
  repeat split; try lia. apply Z.mod_small. lia.
Qed.

Ltac p2 := repeat match goal with |- context [2 ^ ?k] => let c := eval vm_compute in (2 ^ k) in change (2 ^ k) with c end.
Ltac split_byte b k :=
  let m1 := eval vm_compute in (2 ^ k - 1) in let m2 := eval vm_compute in (2 ^ (8 - k) - 1) in
  match goal with H : 0 <= b < 256 |- _ =>
    let h := fresh "h" in let l := fresh "l" in let E1 := fresh in let E2 := fresh in let E3 := fresh "Eb" in
    destruct (byte_split b k m1 m2 H ltac:(lia) eq_refl eq_refl) as (h & l & E1 & E2 & E3 & ? & ?);
    rewrite E1, E2; clear E1 E2
  end.
Lemma wp_let_eq {A B} (e : A) (f : A -> option B) Q : (forall x, x = e -> wp (f x) Q) -> wp (bind (Some e) f) Q.
Proof. intros H. apply H. reflexivity. Qed.

Lemma f_set_b32_rep old l : length l = 32%nat -> bytes l ->
  wp (f_set_b32 dbg old l) (fun '(r, b) =>
    b = (be_val l <? p) /\ (be_val l < p -> fcrep r (toF (be_val l)))).
Proof.
  intros L B. destruct_len l. inv_bytes. unfold f_set_b32.
  split_byte a27 2. split_byte a24 4. split_byte a21 6. split_byte a14 2. split_byte a11 4. split_byte a8 6.
  split_byte a1 2.
  rewrite !lor4 by (p2; lia). rewrite lor3 by (p2; lia).
  do 10 (refine (wp_let_eq _ _ _ _); intros ? ?; cbv beta).
  match goal with |- wp (bind (if (?n9 =? _) && (Z.land (Z.land (Z.land (Z.land (Z.land (Z.land ?n8 ?n7) ?n6) ?n5) ?n4) ?n3) ?n2 =? _) then bind (add32 _ ?n1 _) _ else _) _) _ =>
    rename n9 into m9, n8 into m8, n7 into m7, n6 into m6, n5 into m5, n4 into m4, n3 into m3, n2 into m2, n1 into m1 end.
  match goal with |- context [Fe ?n0 m1 m2] => rename n0 into m0 end.
  assert (L : lim26 m0 m1 m2 m3 m4 m5 m6 m7 m8) by (unfold lim26; lia).
  assert (L9 : 0 <= m9 <= 4194303) by lia.
  eapply wp_bind; [apply over_flag; [exact L | exact L9]|]. intros b ->.
  match goal with |- context [be_val ?l] => assert (V : val10 m0 m1 m2 m3 m4 m5 m6 m7 m8 m9 = be_val l) end.
  { cbn [be_val length]. unfold val10.
    repeat match goal with |- context [256 ^ Z.of_nat ?k] => let c := eval vm_compute in (256 ^ Z.of_nat k) in change (256 ^ Z.of_nat k) with c end.
    p2. lia. }
  rewrite V, fp_p.
  destruct (Z.leb_spec p (be_val [a; a0; a1; a2; a3; a4; a5; a6; a7; a8; a9; a10; a11; a12; a13; a14; a15; a16; a17; a18; a19; a20; a21; a22; a23; a24; a25; a26; a27; a28; a29; a30])) as [O|O].
  - apply wp_some. split; [symmetry; apply Z.ltb_ge; exact O | intros; lia].
  - refine (wp_let_any _ _ _ _); cbv beta.
    assert (C : canon (Fe m0 m1 m2 m3 m4 m5 m6 m7 m8 m9 1 true)).
    { cbn [canon]. rewrite V, fp_p. tauto. }
    apply wp_dassert; [apply canon_verify, C|]. apply wp_some.
    split; [symmetry; apply Z.ltb_lt; exact O|]. intros _.
    split; [apply canon_fcan, C|]. unfold fe. cbn [fv]. rewrite V. reflexivity.
Qed.
(** On overflow the limbs are stored all the same; the flags are left as they were. *)
Lemma f_set_b32_over old l : length l = 32%nat -> bytes l -> p <= be_val l ->
  exists m0 m1 m2 m3 m4 m5 m6 m7 m8 m9, f_set_b32 dbg old l = Some (Fe m0 m1 m2 m3 m4 m5 m6 m7 m8 m9 (f_mag old) (f_norm old), false) /\
    lim26 m0 m1 m2 m3 m4 m5 m6 m7 m8 /\ 0 <= m9 <= 4194303 /\ val10 m0 m1 m2 m3 m4 m5 m6 m7 m8 m9 = be_val l.
Proof.
  intros L B OV.
  assert (W : wp (f_set_b32 dbg old l) (fun '(r, b) => b = false /\ exists m0 m1 m2 m3 m4 m5 m6 m7 m8 m9, r = Fe m0 m1 m2 m3 m4 m5 m6 m7 m8 m9 (f_mag old) (f_norm old) /\
    lim26 m0 m1 m2 m3 m4 m5 m6 m7 m8 /\ 0 <= m9 <= 4194303 /\ val10 m0 m1 m2 m3 m4 m5 m6 m7 m8 m9 = be_val l)).
  2:{ apply wp_inv in W. destruct W as ([r b] & -> & -> & m0 & m1 & m2 & m3 & m4 & m5 & m6 & m7 & m8 & m9 & -> & H). exists m0, m1, m2, m3, m4, m5, m6, m7, m8, m9. split; [reflexivity | exact H]. }
  destruct_len l. inv_bytes. unfold f_set_b32.
  split_byte a27 2. split_byte a24 4. split_byte a21 6. split_byte a14 2. split_byte a11 4. split_byte a8 6.
  split_byte a1 2.
  rewrite !lor4 by (p2; lia). rewrite lor3 by (p2; lia).
  do 10 (refine (wp_let_eq _ _ _ _); intros ? ?; cbv beta).
  match goal with |- wp (bind (if (?n9 =? _) && (Z.land (Z.land (Z.land (Z.land (Z.land (Z.land ?n8 ?n7) ?n6) ?n5) ?n4) ?n3) ?n2 =? _) then bind (add32 _ ?n1 _) _ else _) _) _ =>
    rename n9 into m9, n8 into m8, n7 into m7, n6 into m6, n5 into m5, n4 into m4, n3 into m3, n2 into m2, n1 into m1 end.
  match goal with |- context [Fe ?n0 m1 m2] => rename n0 into m0 end.
  assert (L : lim26 m0 m1 m2 m3 m4 m5 m6 m7 m8) by (unfold lim26; lia).
  assert (L9 : 0 <= m9 <= 4194303) by lia.
  eapply wp_bind; [apply over_flag; [exact L | exact L9]|]. intros b ->.
  match type of OV with _ <= be_val ?l => assert (V : val10 m0 m1 m2 m3 m4 m5 m6 m7 m8 m9 = be_val l) end.
  { cbn [be_val length]. unfold val10.
    repeat match goal with |- context [256 ^ Z.of_nat ?k] => let c := eval vm_compute in (256 ^ Z.of_nat k) in change (256 ^ Z.of_nat k) with c end.
    p2. lia. }
  rewrite V, fp_p, (proj2 (Z.leb_le _ _) OV). apply wp_some. split; [reflexivity|]. exists m0, m1, m2, m3, m4, m5, m6, m7, m8, m9. split; [reflexivity|]. split; [exact L|]. split; [exact L9|]. exact V.
Qed.
End B.
