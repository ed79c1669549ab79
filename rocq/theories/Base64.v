(** Base64 as a regrouping of bits, and the engine. *)
From Coq Require Import List.
From Verif Require Import Word MBase64 Spec Bits.
Import ListNotations.
Open Scope Z_scope.

(** * Specification: RFC 4648, section 4 *)
(** the w bits of v, most significant first *)
Definition bits (w : nat) (v : Z) : list bool := map (fun i => Z.testbit v (Z.of_nat i)) (rev (seq 0 w)).
(** the alphabet, as a string of codes *)
Definition alphabet : list Z :=
  map Z.of_nat (seq 65 26) ++ map Z.of_nat (seq 97 26) ++ map Z.of_nat (seq 48 10) ++ [43; 47].
(** [s] is the base64 form of [b]: the bits of [b], filled up with less than six zeros, cut into groups
    of six, each written as a letter; then as few = (code 61) as make the length a multiple of four. *)
Definition is_base64 (b s : list Z) : Prop :=
  exists ds fill pad, Forall (fun d => 0 <= d < 64) ds /\
    flat_map (bits 6) ds = flat_map (bits 8) b ++ repeat false fill /\ (fill < 6)%nat /\
    s = map (fun d => nth (Z.to_nat d) alphabet 0) ds ++ repeat 61 pad /\ (pad < 4)%nat /\ (length s mod 4 = 0)%nat.

Lemma bits_length w v : length (bits w v) = w.
Proof. unfold bits. rewrite map_length, rev_length, seq_length. reflexivity. Qed.
Lemma bits_inj w a b : 0 <= a < 2 ^ Z.of_nat w -> 0 <= b < 2 ^ Z.of_nat w -> bits w a = bits w b -> a = b.
Proof.
  intros A B H. apply Z.bits_inj'. intros i I. destruct (Z_lt_dec i (Z.of_nat w)) as [L|L].
  - unfold bits in H. apply (f_equal (fun l => nth (w - 1 - Z.to_nat i) l false)) in H.
    assert (X : forall v, nth (w - 1 - Z.to_nat i) (map (fun i => Z.testbit v (Z.of_nat i)) (rev (seq 0 w))) false = Z.testbit v i).
    { intros v. rewrite (nth_indep _ false (Z.testbit v (Z.of_nat 0))) by (rewrite map_length, rev_length, seq_length; lia).
      rewrite (map_nth (fun i => Z.testbit v (Z.of_nat i))). f_equal. rewrite rev_nth by (rewrite seq_length; lia). rewrite seq_length, seq_nth by lia. lia. }
    rewrite !X in H. exact H.
  - rewrite <- (Z.mod_small a (2 ^ Z.of_nat w)), <- (Z.mod_small b (2 ^ Z.of_nat w)) by assumption. rewrite !Z.mod_pow2_bits_high by lia. reflexivity.
Qed.
Lemma flat_bits_length w l : length (flat_map (bits w) l) = (w * length l)%nat.
Proof. induction l as [|a l IH]; cbn [flat_map length]; [lia|]. rewrite app_length, bits_length, IH. lia. Qed.
Lemma flat_bits_inj w : (0 < w)%nat -> forall l l', Forall (fun d => 0 <= d < 2 ^ Z.of_nat w) l -> Forall (fun d => 0 <= d < 2 ^ Z.of_nat w) l' ->
  flat_map (bits w) l = flat_map (bits w) l' -> l = l'.
Proof.
  intros W. induction l as [|a l IH]; intros [|b l'] A B H.
  - reflexivity.
  - apply (f_equal (@length bool)) in H. rewrite !flat_bits_length in H. cbn [length] in H. lia.
  - apply (f_equal (@length bool)) in H. rewrite !flat_bits_length in H. cbn [length] in H. lia.
  - apply Forall_cons_iff in A, B. destruct A as [A1 A2], B as [B1 B2]. cbn [flat_map] in H.
    assert (E : bits w a = bits w b /\ flat_map (bits w) l = flat_map (bits w) l').
    { split.
      - apply (f_equal (firstn w)) in H. rewrite !firstn_app, !bits_length, Nat.sub_diag in H. cbn [firstn] in H.
        rewrite !firstn_all2 in H by (rewrite bits_length; lia). rewrite !app_nil_r in H. exact H.
      - apply (f_equal (skipn w)) in H. rewrite !skipn_app, !bits_length, Nat.sub_diag in H. cbn [skipn] in H.
        rewrite !skipn_all2 in H by (rewrite bits_length; lia). exact H. }
    destruct E as [E1 E2]. f_equal; [eapply bits_inj; eassumption | apply IH; assumption].
Qed.
Lemma letter_char d : 0 <= d < 64 -> nth (Z.to_nat d) alphabet 0 = b64_char d.
Proof.
  intros D. assert (H : forall i, (i < 64)%nat -> nth i alphabet 0 = b64_char (Z.of_nat i)).
  { intros i I. do 64 (destruct i as [|i]; [vm_compute; reflexivity|]). lia. }
  rewrite H by lia. f_equal. lia.
Qed.
Lemma digit_char d : 0 <= d < 64 -> b64_digit (b64_char d) = Some d.
Proof.
  intros D. assert (H : forall i, (i < 64)%nat -> b64_digit (b64_char (Z.of_nat i)) = Some (Z.of_nat i)).
  { intros i I. do 64 (destruct i as [|i]; [vm_compute; reflexivity|]). lia. }
  rewrite <- (Z2Nat.id d) by lia. apply H. lia.
Qed.
Lemma digit_inv c v : b64_digit c = Some v -> 0 <= v < 64 /\ c = b64_char v.
Proof.
  unfold b64_digit, b64_char. intros H.
  destruct (Z.leb_spec 65 c), (Z.leb_spec c 90); cbn [andb] in H; try (injection H as <-; split; [lia|]; rewrite (proj2 (Z.ltb_lt _ _)) by lia; lia);
  destruct (Z.leb_spec 97 c), (Z.leb_spec c 122); cbn [andb] in H; try (injection H as <-; split; [lia|]; rewrite (proj2 (Z.ltb_ge _ 26)), (proj2 (Z.ltb_lt _ 52)) by lia; lia);
  destruct (Z.leb_spec 48 c), (Z.leb_spec c 57); cbn [andb] in H; try (injection H as <-; split; [lia|]; rewrite (proj2 (Z.ltb_ge _ 26)), (proj2 (Z.ltb_ge _ 52)), (proj2 (Z.ltb_lt _ 62)) by lia; lia);
  destruct (Z.eqb_spec c 43); try (injection H as <-; split; [lia|]; assumption);
  destruct (Z.eqb_spec c 47); try (injection H as <-; split; [lia|]; assumption); discriminate H.
Qed.
Lemma digit_pad : b64_digit b64_pad = None.
Proof. reflexivity. Qed.
Lemma char_not_pad d : 0 <= d < 64 -> b64_char d <> 61.
Proof. intros D E. pose proof (digit_char d D) as H. rewrite E in H. discriminate H. Qed.
Lemma char_inj a b : 0 <= a < 64 -> 0 <= b < 64 -> b64_char a = b64_char b -> a = b.
Proof. intros A B E. pose proof (digit_char a A) as H. rewrite E, digit_char in H by exact B. injection H as <-. reflexivity. Qed.

(** * The relation is one to one *)
Lemma letters_map ds : Forall (fun d => 0 <= d < 64) ds -> map (fun d => nth (Z.to_nat d) alphabet 0) ds = map b64_char ds.
Proof. induction 1 as [|d ds D _ IH]; cbn [map]; [reflexivity|]. rewrite letter_char, IH by exact D. reflexivity. Qed.
Lemma letters_inj ds : forall ds' k k', Forall (fun d => 0 <= d < 64) ds -> Forall (fun d => 0 <= d < 64) ds' ->
  map b64_char ds ++ repeat 61 k = map b64_char ds' ++ repeat 61 k' -> ds = ds' /\ k = k'.
Proof.
  assert (P : forall k c t, 0 <= c < 64 -> repeat 61 k <> b64_char c :: t).
  { intros [|k] c t C H; [discriminate H|]. cbn [repeat] in H. injection H as H _. symmetry in H. exact (char_not_pad c C H). }
  induction ds as [|d ds IH]; intros [|d' ds'] k k' D D' H; cbn [map app] in H.
  - split; [reflexivity|]. apply (f_equal (@length Z)) in H. rewrite !repeat_length in H. exact H.
  - apply Forall_inv in D'. elim (P _ _ _ D' H).
  - apply Forall_inv in D. symmetry in H. elim (P _ _ _ D H).
  - apply Forall_cons_iff in D, D'. destruct D as [D1 D2], D' as [D1' D2']. injection H as H1 H2. apply (char_inj _ _ D1 D1') in H1.
    destruct (IH _ _ _ D2 D2' H2) as [-> ->]. subst. auto.
Qed.
Lemma is_base64_string_unique b s s' : is_base64 b s -> is_base64 b s' -> s = s'.
Proof.
  intros (ds & f & q & D & E & F & S & Q & L) (ds' & f' & q' & D' & E' & F' & S' & Q' & L').
  pose proof (f_equal (@length bool) E) as LE. pose proof (f_equal (@length bool) E') as LE'.
  rewrite app_length, !flat_bits_length, repeat_length in LE, LE'.
  assert (f = f') by lia. subst f'. rewrite <- E in E'. apply (flat_bits_inj 6 ltac:(lia)) in E'; [|exact D' | exact D]. subst ds'.
  rewrite S, S'. f_equal. f_equal. rewrite S in L. rewrite S' in L'. rewrite !app_length, !repeat_length in L, L'. 
  apply Nat.mod_divides in L, L'; try lia. destruct L as [u L], L' as [u' L']. lia.
Qed.
Lemma is_base64_bytes_unique b b' s : bytes b -> bytes b' -> is_base64 b s -> is_base64 b' s -> b = b'.
Proof.
  intros B B' (ds & f & q & D & E & F & S & Q & L) (ds' & f' & q' & D' & E' & F' & S' & Q' & L').
  rewrite S in S'. rewrite !letters_map in S' by assumption. apply letters_inj in S'; [|assumption..]. destruct S' as [<- <-].
  pose proof (f_equal (@length bool) E) as LE. pose proof (f_equal (@length bool) E') as LE'.
  rewrite app_length, !flat_bits_length, repeat_length in LE, LE'. assert (f = f') by lia. subst f'. rewrite E in E'. apply app_inv_tail in E'.
  apply (flat_bits_inj 8 ltac:(lia)) in E'; [exact E' | exact B | exact B'].
Qed.

(** * The engine *)
Lemma bits_app w k x y : 0 <= y < 2 ^ Z.of_nat k -> bits (w + k) (x * 2 ^ Z.of_nat k + y) = bits w x ++ bits k y.
Proof.
  intros Y. unfold bits. rewrite Nat.add_comm, seq_app, rev_app_distr, map_app. f_equal.
  - rewrite !map_rev. f_equal. cbn [Nat.add].
    assert (S : forall a m, seq (k + a) m = map (fun i => (k + i)%nat) (seq a m)).
    { intros a m. revert a. induction m as [|m IH]; intros a; [reflexivity|]. cbn [seq map]. f_equal. rewrite <- IH. f_equal. lia. }
    replace (seq k w) with (seq (k + 0) w) by (f_equal; lia). rewrite S, map_map. apply map_ext_in. intros i I.
    replace (Z.of_nat (k + i)) with (Z.of_nat i + Z.of_nat k) by lia. rewrite <- Z.div_pow2_bits by lia. f_equal.
    rewrite Z.div_add_l by (apply Z.pow_nonzero; lia). rewrite (Z.div_small y) by exact Y. lia.
  - apply map_ext_in. intros i I. apply in_rev in I. apply in_seq in I.
    rewrite <- (Z.mod_pow2_bits_low _ (Z.of_nat k)) by lia. f_equal. rewrite Z.add_comm, Z.mod_add by (apply Z.pow_nonzero; lia).
    apply Z.mod_small, Y.
Qed.
Lemma bits_zero k : bits k 0 = repeat false k.
Proof.
  unfold bits. rewrite <- (seq_length k 0) at 2. rewrite <- rev_length. generalize (rev (seq 0 k)). intros l.
  induction l as [|a l IH]; [reflexivity|]. cbn [map repeat length]. rewrite Z.bits_0, IH. reflexivity.
Qed.
Lemma land_3 a : Z.land a 3 = a mod 4.
Proof. exact (Z.land_ones a 2 ltac:(lia)). Qed.
Lemma land_15 a : Z.land a 15 = a mod 16.
Proof. exact (Z.land_ones a 4 ltac:(lia)). Qed.
Lemma land_63 a : Z.land a 63 = a mod 64.
Proof. exact (Z.land_ones a 6 ltac:(lia)). Qed.
Lemma lor_shl a b k : 0 <= k -> 0 <= b < 2 ^ k -> Z.lor (Z.shiftl a k) b = a * 2 ^ k + b.
Proof. intros K B. rewrite Z.shiftl_mul_pow2, Z.lor_comm, lor_add by assumption. lia. Qed.
Ltac b64norm :=
  repeat rewrite ?land_3, ?land_15, ?land_63;
  repeat rewrite lor_shl by (rewrite ?Z.shiftr_div_pow2 by lia; change (2 ^ 4) with 16; change (2 ^ 2) with 4; change (2 ^ 6) with 64; Z.div_mod_to_equations; lia);
  repeat rewrite ?Z.shiftl_mul_pow2, ?Z.shiftr_div_pow2 by lia; change (2 ^ 4) with 16 in *; change (2 ^ 2) with 4 in *; change (2 ^ 6) with 64 in *.

Lemma bits_cat (w k : nat) x y (m : Z) : m = 2 ^ Z.of_nat k -> 0 <= y < m -> bits w x ++ bits k y = bits (w + k) (x * m + y).
Proof. intros -> Y. symmetry. apply bits_app, Y. Qed.
Lemma chunk3 a b c : 0 <= a < 256 -> 0 <= b < 256 -> 0 <= c < 256 ->
  bits 6 (a / 4) ++ bits 6 (a mod 4 * 16 + b / 16) ++ bits 6 (b mod 16 * 4 + c / 64) ++ bits 6 (c mod 64) = bits 8 a ++ bits 8 b ++ bits 8 c.
Proof.
  intros A B C. rewrite !app_assoc.
  rewrite (bits_cat 6 6 _ _ 64) by (reflexivity || (Z.div_mod_to_equations; lia)).
  rewrite (bits_cat _ 6 _ _ 64) by (reflexivity || (Z.div_mod_to_equations; lia)).
  rewrite (bits_cat _ 6 _ _ 64) by (reflexivity || (Z.div_mod_to_equations; lia)).
  rewrite (bits_cat 8 8 _ _ 256) by (reflexivity || lia). rewrite (bits_cat _ 8 _ _ 256) by (reflexivity || lia).
  cbn [Nat.add]. f_equal. Z.div_mod_to_equations; lia.
Qed.
Lemma chunk2 a b : 0 <= a < 256 -> 0 <= b < 256 ->
  bits 6 (a / 4) ++ bits 6 (a mod 4 * 16 + b / 16) ++ bits 6 (b mod 16 * 4) = bits 8 a ++ bits 8 b ++ repeat false 2.
Proof.
  intros A B. rewrite <- bits_zero, !app_assoc.
  rewrite (bits_cat 6 6 _ _ 64) by (reflexivity || (Z.div_mod_to_equations; lia)).
  rewrite (bits_cat _ 6 _ _ 64) by (reflexivity || (Z.div_mod_to_equations; lia)).
  rewrite (bits_cat 8 8 _ _ 256) by (reflexivity || lia). rewrite (bits_cat _ 2 _ _ 4) by (reflexivity || lia).
  cbn [Nat.add]. f_equal. Z.div_mod_to_equations; lia.
Qed.
Lemma chunk1 a : 0 <= a < 256 -> bits 6 (a / 4) ++ bits 6 (a mod 4 * 16) = bits 8 a ++ repeat false 4.
Proof.
  intros A. rewrite <- bits_zero.
  rewrite (bits_cat 6 6 _ _ 64) by (reflexivity || (Z.div_mod_to_equations; lia)).
  rewrite (bits_cat _ 4 _ _ 16) by (reflexivity || lia).
  cbn [Nat.add]. f_equal. Z.div_mod_to_equations; lia.
Qed.

(** induction three bytes at a time *)
Lemma list3_ind (P : list Z -> Prop) : P [] -> (forall a, P [a]) -> (forall a b, P [a; b]) -> (forall a b c t, P t -> P (a :: b :: c :: t)) -> forall l, P l.
Proof.
  intros H0 H1 H2 H3 l. remember (length l) as m eqn:E. assert (L : (length l <= m)%nat) by lia. clear E. revert l L.
  induction m as [|m IH]; intros [|a [|b [|c t]]] L; auto; cbn [length] in L; try lia.
  apply H3, IH. lia.
Qed.
Lemma list4_ind (P : list Z -> Prop) : P [] -> (forall a, P [a]) -> (forall a b, P [a; b]) -> (forall a b c, P [a; b; c]) -> (forall a b c d t, P t -> P (a :: b :: c :: d :: t)) -> forall l, P l.
Proof.
  intros H0 H1 H2 H3 H4 l. remember (length l) as m eqn:E. assert (L : (length l <= m)%nat) by lia. clear E. revert l L.
  induction m as [|m IH]; intros [|a [|b [|c [|d t]]]] L; auto; cbn [length] in L; try lia.
  apply H4, IH. lia.
Qed.

Lemma encode_spec b : bytes b -> is_base64 b (b64_encode b).
Proof.
  assert (Q : forall l, is_base64 l (b64_encode l) <-> exists ds fill pad, Forall (fun d => 0 <= d < 64) ds /\
    flat_map (bits 6) ds = flat_map (bits 8) l ++ repeat false fill /\ (fill < 6)%nat /\
    b64_encode l = map b64_char ds ++ repeat 61 pad /\ (pad < 4)%nat /\ (length (b64_encode l) mod 4 = 0)%nat).
  { intros l. unfold is_base64. split; intros (ds & f & q & D & E & F & S & R); exists ds, f, q; rewrite letters_map in * by exact D; auto. }
  induction b as [|a|a b|a b c t IH] using list3_ind; intros B; apply Q.
  - exists [], 0%nat, 0%nat. repeat split; [constructor | lia | lia].
  - apply Forall_inv in B. exists [a / 4; a mod 4 * 16], 4%nat, 2%nat. cbn [b64_encode]. b64norm.
    split; [repeat constructor; Z.div_mod_to_equations; lia|]. split; [cbn [flat_map]; rewrite !app_nil_r; apply chunk1, B|]. repeat split; lia.
  - apply Forall_cons_iff in B. destruct B as [A B]. apply Forall_inv in B. exists [a / 4; a mod 4 * 16 + b / 16; b mod 16 * 4], 2%nat, 1%nat. cbn [b64_encode]. b64norm.
    split; [repeat constructor; Z.div_mod_to_equations; lia|]. split; [cbn [flat_map]; rewrite !app_nil_r; rewrite <- app_assoc; apply chunk2; assumption|]. repeat split; lia.
  - apply Forall_cons_iff in B. destruct B as [A B]. apply Forall_cons_iff in B. destruct B as [B C]. apply Forall_cons_iff in C. destruct C as [C T].
    destruct (proj1 (Q t) (IH T)) as (ds & f & q & D & E & F & SE & P & L).
    exists (a / 4 :: a mod 4 * 16 + b / 16 :: b mod 16 * 4 + c / 64 :: c mod 64 :: ds), f, q. cbn [b64_encode]. b64norm.
    split; [repeat (constructor; [Z.div_mod_to_equations; lia|]); exact D|]. split.
    { cbn [flat_map]. rewrite E. rewrite !app_assoc. do 2 f_equal. rewrite <- !app_assoc. apply chunk3; assumption. }
    split; [exact F|]. split; [cbn [map app]; rewrite SE; reflexivity|]. split; [exact P|]. cbn [length].
    change (S (S (S (S (length (b64_encode t)))))) with (4 + length (b64_encode t))%nat. rewrite <- Nat.add_mod_idemp_l by lia. exact L.
Qed.
Lemma decode_encode b : bytes b -> b64_decode (b64_encode b) = Some b.
Proof.
  induction b as [|a|a b|a b c t IH] using list3_ind; intros B.
  - reflexivity.
  - apply Forall_inv in B. cbn [b64_encode]. b64norm. cbn [b64_decode]. rewrite !digit_char by (Z.div_mod_to_equations; lia). cbn [bind]. change (b64_digit b64_pad) with (@None Z).
    cbv iota. change (b64_pad =? b64_pad) with true. b64norm. rewrite (proj2 (Z.eqb_eq _ _)) by (Z.div_mod_to_equations; lia). cbn [andb]. do 2 f_equal. Z.div_mod_to_equations; lia.
  - apply Forall_cons_iff in B. destruct B as [A B]. apply Forall_inv in B. cbn [b64_encode]. b64norm. cbn [b64_decode]. rewrite !digit_char by (Z.div_mod_to_equations; lia). cbn [bind]. change (b64_digit b64_pad) with (@None Z).
    cbv iota. change (b64_pad =? b64_pad) with true. b64norm. rewrite (proj2 (Z.eqb_eq _ _)) by (Z.div_mod_to_equations; lia). cbn [andb]. f_equal. f_equal; [|f_equal]; Z.div_mod_to_equations; lia.
  - apply Forall_cons_iff in B. destruct B as [A B]. apply Forall_cons_iff in B. destruct B as [B C]. apply Forall_cons_iff in C. destruct C as [C T].
    cbn [b64_encode]. b64norm. cbn [b64_decode]. rewrite !digit_char by (Z.div_mod_to_equations; lia). cbn [bind]. rewrite (IH T). cbn [bind]. b64norm.
    f_equal. f_equal; [|f_equal; [|f_equal]]; Z.div_mod_to_equations; lia.
Qed.
Lemma decode_sound s : forall b, b64_decode s = Some b -> bytes b /\ s = b64_encode b.
Proof.
  induction s as [|c1|c1 c2|c1 c2 c3|c1 c2 c3 c4 t IH] using list4_ind; intros b H; cbn [b64_decode] in H; try discriminate H.
  - injection H as <-. split; [constructor | reflexivity].
  - destruct (b64_digit c1) as [v1|] eqn:E1; [|discriminate H]. destruct (b64_digit c2) as [v2|] eqn:E2; [|discriminate H]. cbn [bind] in H.
    apply digit_inv in E1, E2. destruct E1 as [R1 ->], E2 as [R2 ->].
    destruct (b64_digit c3) as [v3|] eqn:E3; destruct (b64_digit c4) as [v4|] eqn:E4; [| | discriminate H|].
    + apply digit_inv in E3, E4. destruct E3 as [R3 ->], E4 as [R4 ->]. destruct (b64_decode t) as [r|] eqn:T; [|discriminate H]. cbn [bind] in H.
      destruct (IH r eq_refl) as [BR ->]. assert (H' := f_equal (fun o => match o with Some l => l | None => [] end) H). cbv beta iota in H'. subst b. clear H.
      b64norm. split.
      { repeat (constructor; [Z.div_mod_to_equations; lia|]). exact BR. }
      cbn [b64_encode]. b64norm. f_equal; [|f_equal; [|f_equal; [|f_equal]]]; f_equal; Z.div_mod_to_equations; lia.
    + destruct t; [|discriminate H]. apply digit_inv in E3. destruct E3 as [R3 ->]. destruct (Z.eqb_spec c4 b64_pad); [|discriminate H]. subst c4. cbn [andb] in H.
      rewrite land_3 in H. destruct (Z.eqb_spec (v3 mod 4) 0); [|discriminate H]. assert (H' := f_equal (fun o => match o with Some l => l | None => [] end) H). cbv beta iota in H'. subst b. clear H.
      b64norm. split.
      { repeat (constructor; [Z.div_mod_to_equations; lia|]). constructor. }
      cbn [b64_encode]. b64norm. f_equal; [|f_equal; [|f_equal]]; f_equal; Z.div_mod_to_equations; lia.
    + destruct t; [|discriminate H]. destruct (Z.eqb_spec c3 b64_pad); [|discriminate H]. destruct (Z.eqb_spec c4 b64_pad); [|discriminate H]. subst c3 c4. cbn [andb] in H.
      rewrite land_15 in H. destruct (Z.eqb_spec (v2 mod 16) 0); [|discriminate H]. assert (H' := f_equal (fun o => match o with Some l => l | None => [] end) H). cbv beta iota in H'. subst b. clear H.
      b64norm. split.
      { repeat (constructor; [Z.div_mod_to_equations; lia|]). constructor. }
      cbn [b64_encode]. b64norm. f_equal; [|f_equal]; f_equal; Z.div_mod_to_equations; lia.
Qed.
Lemma decode_iff s b : b64_decode s = Some b <-> bytes b /\ is_base64 b s.
Proof.
  split.
  - intros H. apply decode_sound in H. destruct H as [B ->]. split; [exact B | apply encode_spec, B].
  - intros [B S]. rewrite (is_base64_string_unique b s (b64_encode b) S (encode_spec b B)). apply decode_encode, B.
Qed.
