(** DER serialization and parsing of signatures. *)
From Verif Require Import Word MScalar MDer MApi WP ScalarAcc ScalarMul Spec Fp Bits ScalarOps ScalarRed ScalarMore ScalarBits Denote ApiScalar.

Notation len l := (Z.of_nat (length l)).

(** ** minimal contents *)
Definition shape (c : list Z) : Prop :=
  match c with [] => False | [a] => a < 128 | a :: b :: _ => a < 128 /\ (a = 0 -> 128 <= b) end.
Lemma integer_slice_eq a b u : integer_slice (a :: b :: u) = if (a =? 0) && (b <? 128) then integer_slice (b :: u) else a :: b :: u.
Proof. reflexivity. Qed.
Lemma integer_slice_ok l : bytes l -> match l with [] => False | a :: _ => a < 128 end ->
  let c := integer_slice l in bytes c /\ be_val c = be_val l /\ shape c /\ (1 <= length c <= length l)%nat.
Proof.
  induction l as [|a t IH]; [contradiction|]. intros B A. unfold bytes in B. apply Forall_cons_iff in B. destruct B as [Ba Bt].
  destruct t as [|b u]; cbv zeta; [|rewrite integer_slice_eq].
  - cbn [integer_slice]. split; [apply Forall_cons; [exact Ba | apply Forall_nil]|]. split; [reflexivity|]. split; [exact A | cbn; lia].
  - destruct (Z.eqb_spec a 0) as [E|E]; cbn [andb].
    + destruct (Z.ltb_spec b 128) as [L|L].
      * destruct (IH Bt L) as (I1 & I2 & I3 & I4). split; [exact I1|]. split; [rewrite I2; subst a; cbn [be_val length]; lia|].
        split; [exact I3 | cbn [length] in *; lia].
      * split; [apply Forall_cons; assumption|]. split; [reflexivity|]. split; [split; [exact A | intros _; exact L] | cbn [length]; lia].
    + split; [apply Forall_cons; assumption|]. split; [reflexivity|]. split; [split; [exact A | intros X; contradiction] | cbn [length]; lia].
Qed.
Lemma der_content_shape v c : der_content v c <-> bytes c /\ be_val c = v /\ shape c.
Proof. reflexivity. Qed.

Lemma pow256_pos k : 0 < 256 ^ Z.of_nat k. Proof. apply Z.pow_pos_nonneg; lia. Qed.
Lemma shape_upper c : bytes c -> shape c -> be_val c < 128 * 256 ^ (len c - 1).
Proof.
  intros B S. destruct c as [|a t]; [contradiction|]. unfold bytes in B. apply Forall_cons_iff in B. destruct B as [Ba Bt].
  cbn [be_val]. pose proof (be_val_range t Bt) as R. pose proof (pow256_pos (length t)).
  replace (len (a :: t) - 1) with (len t) by (cbn [length]; lia).
  assert (a < 128) by (destruct t; cbn in S; lia). nia.
Qed.
Lemma shape_lower c : bytes c -> shape c -> (2 <= length c)%nat -> 128 * 256 ^ (len c - 2) <= be_val c.
Proof.
  intros B S L. destruct c as [|a [|b t]]; cbn [length] in L; try lia. unfold bytes in B. apply Forall_cons_iff in B. destruct B as [Ba Bt].
  apply Forall_cons_iff in Bt. destruct Bt as [Bb Bt].
  cbn [be_val]. pose proof (be_val_range t Bt) as R. pose proof (pow256_pos (length t)).
  replace (len (a :: b :: t) - 2) with (len t) by (cbn [length]; lia).
  replace (len (b :: t)) with (Z.succ (len t)) by (cbn [length]; lia). rewrite Z.pow_succ_r by lia.
  destruct S as [S1 S2]. destruct (Z.eq_dec a 0) as [E|E]; [specialize (S2 E); subst a; nia | nia].
Qed.
Lemma content_len_le c c' : bytes c -> bytes c' -> shape c -> shape c' -> be_val c = be_val c' -> (length c <= length c')%nat.
Proof.
  intros B B' S S' E. destruct (le_lt_dec (length c) (length c')) as [L|L]; [exact L|]. exfalso.
  assert (L1 : (1 <= length c')%nat) by (destruct c'; [contradiction | cbn; lia]).
  pose proof (shape_upper c' B' S') as U. pose proof (shape_lower c B S ltac:(lia)) as V.
  assert (256 ^ (len c' - 1) <= 256 ^ (len c - 2)) by (apply Z.pow_le_mono_r; lia). lia.
Qed.
Lemma der_content_unique v c c' : der_content v c -> der_content v c' -> c = c'.
Proof.
  intros (B & E & S) (B' & E' & S'). assert (EV : be_val c = be_val c') by congruence.
  pose proof (content_len_le c c' B B' S S' EV). pose proof (content_len_le c' c B' B S' S (eq_sym EV)).
  apply be_val_inj; [lia | assumption | assumption | assumption].
Qed.

Definition content (v : Z) : list Z := integer_slice (0 :: be_bytes 32 v).
Lemma content_ok v : 0 <= v < 2 ^ 256 -> der_content v (content v) /\ (1 <= length (content v) <= 33)%nat.
Proof.
  intros V. destruct (integer_slice_ok (0 :: be_bytes 32 v)) as (I1 & I2 & I3 & I4).
  - apply Forall_cons; [lia | apply be_bytes_bytes].
  - lia.
  - fold (content v) in *. split.
    + split; [exact I1|]. split; [|exact I3]. rewrite I2. cbn [be_val]. rewrite val_be_bytes_32 by exact V. lia.
    + cbn [length] in I4. rewrite be_bytes_length in I4. lia.
Qed.

Lemma serialize_der_eq r s : 0 <= r < n -> 0 <= s < n ->
  sig_serialize_der (Sig (scalar_of r) (scalar_of s)) =
  48 :: (4 + len (content r) + len (content s)) :: 2 :: len (content r) :: content r ++ 2 :: len (content s) :: content s.
Proof.
  intros R S. nlt. unfold sig_serialize_der. cbn [sig_r sig_s]. rewrite !s_b32_eq by lia. fold (content r) (content s).
  destruct (content_ok r ltac:(lia)) as [_ Lr]. destruct (content_ok s ltac:(lia)) as [_ Ls].
  unfold as_u8. change (2 ^ 8) with 256. rewrite (Z.mod_small (len (content r))), (Z.mod_small (len (content s))) by lia.
  rewrite Z.mod_small by lia. reflexivity.
Qed.

(** * C12 *)
(** [serialize_der] writes the DER encoding of (r, s), between 8 and 72 bytes long; there is only one such encoding. *)
Lemma C12_serialize_der_pf : forall r s, 0 <= r < n -> 0 <= s < n ->
  let l := sig_serialize_der (Sig (scalar_of r) (scalar_of s)) in
  der_sig r s l /\ (8 <= length l <= 72)%nat /\ forall l', der_sig r s l' -> l' = l.
Proof.
  intros r s R S. nlt. cbv zeta. rewrite serialize_der_eq by assumption.
  destruct (content_ok r ltac:(lia)) as [Cr Lr]. destruct (content_ok s ltac:(lia)) as [Cs Ls].
  split; [|split].
  - exists (content r), (content s). split; [exact Cr|]. split; [exact Cs|]. split; [lia|]. split; [lia|]. split; [lia | reflexivity].
  - cbn [length]. rewrite app_length. cbn [length]. lia.
  - intros l' (cr & cs & Dr & Ds & _ & _ & _ & ->).
    rewrite (der_content_unique r cr (content r) Dr Cr), (der_content_unique s cs (content s) Ds Cs). reflexivity.
Qed.
Lemma C12_serialize_der_example_pf : sig_serialize_der (Sig (scalar_of 128) (scalar_of 1)) = [48; 7; 2; 2; 0; 128; 2; 1; 1] /\ 0 <= 128 < n.
Proof. repeat apply conj; vmr. Qed.

(** ** totality *)
Definition wpr {A} (o : option (result A)) (Q : A -> Prop) : Prop :=
  match o with Some (Ok a) => Q a | Some (Err e) => e = InvalidSignature | None => False end.
Lemma wpr_bind {A B} (o : option (result A)) (f : A -> option (result B)) P Q :
  wpr o P -> (forall a, P a -> wpr (f a) Q) -> wpr (rbind o f) Q.
Proof. destruct o as [[a|e]|]; cbn; auto. Qed.
Lemma wpr_mono {A} (o : option (result A)) (P Q : A -> Prop) : wpr o P -> (forall a, P a -> Q a) -> wpr o Q.
Proof. destruct o as [[a|e]|]; cbn; auto. Qed.
Lemma wpr_derr {A} (Q : A -> Prop) : wpr derr Q. Proof. reflexivity. Qed.
Lemma wpr_wp {A B} (o : option A) (f : A -> option (result B)) P Q :
  wp o P -> (forall a, P a -> wpr (f a) Q) -> wpr (bind o f) Q.
Proof. intros H F. apply wp_inv in H. destruct H as (a & -> & Pa). cbn. apply F, Pa. Qed.
Lemma wpr_let {A B} (e : A) (f : A -> option (result B)) Q : wpr (f e) Q -> wpr (bind (Some e) f) Q.
Proof. exact (fun H => H). Qed.

Lemma d_read_wp d : bytes d -> wpr (d_read d) (fun '(v, t) => 0 <= v < 256 /\ bytes t /\ d = v :: t).
Proof. destruct d as [|v t]; intros B; [reflexivity|]. apply Forall_cons_iff in B. destruct B. cbn. auto. Qed.
Lemma d_peek_wp d k : bytes d -> wpr (d_peek d k) (fun v => 0 <= v < 256).
Proof.
  intros B. unfold d_peek. destruct (nth_error d k) eqn:E; [|reflexivity]. cbn. apply nth_error_In in E. unfold bytes in B. rewrite Forall_forall in B. apply B, E.
Qed.
Lemma bytes_skipn k d : bytes d -> bytes (skipn k d).
Proof. intros B. unfold bytes in *. rewrite <- (firstn_skipn k d) in B. apply Forall_app in B. apply B. Qed.
Lemma bytes_firstn k d : bytes d -> bytes (firstn k d).
Proof. intros B. unfold bytes in *. rewrite <- (firstn_skipn k d) in B. apply Forall_app in B. apply B. Qed.
Lemma bytes_repeat0 k : bytes (repeat 0 k).
Proof. induction k; [apply Forall_nil | apply Forall_cons; [lia | assumption]]. Qed.
Lemma bytes_app a b : bytes a -> bytes b -> bytes (a ++ b).
Proof. intros. apply Forall_app. auto. Qed.
Lemma be_val_zeros k l : be_val (repeat 0 k ++ l) = be_val l.
Proof. induction k; [reflexivity|]. cbn [repeat app be_val]. lia. Qed.

Section B.
Variable dbg : bool.

Lemma read_scalar_wp d k : bytes d -> 0 <= k <= 32 ->
  wpr (read_scalar dbg d k) (fun '(s, d') => exists c, len c = k /\ d = c ++ d' /\ (c ++ d' <> []) /\
     s = scalar_of (if be_val c <? n then be_val c else 0)).
Proof.
  intros B K. unfold read_scalar, d_peek_slice, d_skip. destruct (bad_span d k) eqn:E; [reflexivity|]. cbn [rbind].
  unfold bad_span, remaining_len in E. apply orb_false_iff in E. destruct E as [E1 E2]. apply Z.ltb_ge in E2.
  cbn [bind]. set (c := firstn (Z.to_nat k) d).
  assert (Lc : length c = Z.to_nat k) by (unfold c; rewrite firstn_length; lia).
  assert (Bc : bytes c) by (apply bytes_firstn, B).
  rewrite s_set_b32_eq; [|rewrite app_length, repeat_length, Lc; lia | apply bytes_app; [apply bytes_repeat0 | exact Bc]].
  cbn [bind]. rewrite be_val_zeros. cbn [wpr]. exists c. split; [rewrite Lc; lia|].
  assert (Ed : d = c ++ skipn (Z.to_nat k) d) by (symmetry; apply firstn_skipn).
  split; [exact Ed|]. split.
  - rewrite <- Ed. intros ->. cbn in E1, E2. assert (k = 0) by lia. subst k. discriminate E1.
  - pose proof (be_val_range c Bc). destruct (Z.leb_spec n (be_val c)), (Z.ltb_spec (be_val c) n); try lia; [reflexivity|].
    rewrite Z.mod_small by lia. reflexivity.
Qed.
Lemma skip_zeros_wp d k : bytes d -> 0 <= k -> wpr (skip_zeros d k) (fun '(d', k') => exists j, d = repeat 0 j ++ d' /\ k = Z.of_nat j + k' /\ 0 <= k' /\ (0 < k' -> match d' with [] => False | a :: _ => a <> 0 end)).
Proof.
  intros B. revert k. induction B as [|a t Ha Ht IH]; intros k K; cbn [skip_zeros].
  - destruct (Z.ltb_spec 0 k); [reflexivity|]. exists 0%nat. cbn. repeat split; lia.
  - destruct (Z.ltb_spec 0 k); [|exists 0%nat; cbn [repeat app]; repeat split; lia].
    destruct (Z.eqb_spec a 0) as [->|NE].
    + eapply wpr_mono; [apply IH; lia|]. intros [d' k'] (j & -> & E & K' & H1). exists (S j). cbn [repeat app]. repeat split; try lia; exact H1.
    + exists 0%nat. cbn [repeat app]. repeat split; try lia; intros; exact NE.
Qed.

Lemma read_len_loop_wp k : forall ret d, (k <= 8)%nat -> bytes d -> 0 <= ret < 2 ^ 55 -> len d < 2 ^ 55 ->
  wpr (read_len_loop dbg k ret d) (fun '(r, d') => 0 <= r < 2 ^ 55 /\ bytes d' /\ (length d' <= length d)%nat /\ (k = 0%nat -> r = ret /\ d' = d) /\ ((0 < k)%nat -> r + 1 <= len d')).
Proof.
  induction k as [|k IH]; intros ret d K B R L; cbn [read_len_loop].
  - cbn [wpr]. split; [exact R|]. split; [exact B|]. split; [lia|]. split; [intros _; split; reflexivity | lia].
  - eapply wpr_bind; [apply d_read_wp, B|]. intros [v t] (V & Bt & ->). apply wpr_let.
    assert (S : Z.shiftl ret 8 mod 2 ^ 64 = ret * 256).
    { rewrite Z.shiftl_mul_pow2 by lia. change (2 ^ 8) with 256. apply Z.mod_small. change (2 ^ 55) with 36028797018963968 in R. change (2 ^ 64) with 18446744073709551616. lia. }
    assert (O : Z.lor (Z.shiftl ret 8 mod 2 ^ 64) v = ret * 256 + v).
    { rewrite S, Z.lor_comm. change 256 with (2 ^ 8). rewrite lor_add by (change (2 ^ 8) with 256; lia). lia. }
    rewrite O. unfold add64. rewrite uchk_ok by (change (2 ^ 55) with 36028797018963968 in R; change (2 ^ 64) with 18446744073709551616; lia).
    cbn [bind]. unfold remaining_len. destruct (Z.ltb_spec (len t) (ret * 256 + v + Z.of_nat (Datatypes.S k))); [reflexivity|].
    cbn [length] in L. eapply wpr_mono; [apply IH; try lia; exact Bt|].
    intros [r d'] (H1 & H2 & H3 & H4 & H5). cbn [length]. split; [exact H1|]. split; [exact H2|]. split; [lia|]. split; [discriminate|]. intros _.
    destruct k; [|apply H5; lia]. destruct (H4 eq_refl) as [-> ->]. lia.
Qed.
Lemma land128 b : 0 <= b < 256 -> (Z.land b 128 =? 0) = (b <? 128).
Proof.
  intros B. assert (E : Z.land b 128 = 128 * (b / 128)).
  { replace b with (b mod 128 + 128 * (b / 128)) at 1 by (rewrite Z.add_comm; symmetry; apply Z.div_mod; lia).
    assert (b / 128 = 0 \/ b / 128 = 1) as [-> | ->] by (Z.to_euclidean_division_equations; lia).
    - rewrite Z.mul_0_r, Z.add_0_r. apply Z.bits_inj'. intros i Hi. rewrite Z.land_spec, Z.bits_0.
      change 128 with (2 ^ 7). rewrite Z.pow2_bits_eqb by lia. destruct (Z.eqb_spec 7 i) as [?EQ|?NE]; [|apply andb_false_r].
      subst i. rewrite <- Z.land_ones, Z.land_spec, Z.ones_spec_high by lia. rewrite andb_false_r. reflexivity.
    - rewrite Z.mul_1_r. change (b mod 128) with (b mod 2 ^ 7). change 128 with (1 * 2 ^ 7). rewrite <- lor_add by (try lia; apply Z.mod_pos_bound; lia).
      apply Z.bits_inj'. intros i Hi. rewrite Z.land_spec, Z.lor_spec, Z.mul_1_l. rewrite Z.pow2_bits_eqb by lia. destruct (Z.eqb_spec 7 i) as [?EQ|?NE]; [|apply andb_false_r].
      rewrite andb_true_r. apply orb_true_r. }
  rewrite E. destruct (Z.eqb_spec (128 * (b / 128)) 0), (Z.ltb_spec b 128); try reflexivity; Z.to_euclidean_division_equations; lia.
Qed.
Lemma land128' b : 0 <= b < 256 -> (Z.land b 128 =? 128) = negb (b <? 128).
Proof.
  intros B. pose proof (land128 b B) as E. assert (Z.land b 128 = 0 \/ Z.land b 128 = 128) as [H|H].
  { destruct (Z.testbit b 7) eqn:T; [right | left]; apply Z.bits_inj'; intros i Hi; rewrite Z.land_spec; change 128 with (2 ^ 7);
    rewrite Z.pow2_bits_eqb by lia; destruct (Z.eqb_spec 7 i) as [<-|]; rewrite ?T, ?andb_false_r, ?Z.bits_0; reflexivity. }
  - rewrite H in *. rewrite <- E. reflexivity.
  - rewrite H in *. rewrite <- E. reflexivity.
Qed.
Lemma d_read_len_wp d : bytes d -> len d < 2 ^ 55 ->
  wpr (d_read_len dbg d) (fun '(r, d') => 0 <= r < 2 ^ 55 /\ bytes d' /\ (length d' < length d)%nat /\ ((r < 128 /\ d = r :: d') \/ (128 <= r /\ r + 1 <= len d'))).
Proof.
  intros B L. unfold d_read_len. eapply wpr_bind; [apply d_read_wp, B|]. intros [b1 t] (V & Bt & ->).
  destruct (Z.eqb_spec b1 255) as [?EQ|?NE]; [reflexivity|]. rewrite land128 by exact V.
  destruct (Z.ltb_spec b1 128).
  - cbn [wpr]. split; [change (2 ^ 55) with 36028797018963968; lia|]. split; [exact Bt|]. split; [cbn; lia|]. left. split; [assumption | reflexivity].
  - destruct (Z.eqb_spec b1 128) as [?EQ|?NE]; [reflexivity|]. apply wpr_let.
    unfold remaining_len. destruct (len t <? Z.land b1 127); [reflexivity|].
    eapply wpr_bind; [apply d_peek_wp, Bt|]. intros b _. destruct (b =? 0); [reflexivity|].
    destruct (Z.ltb_spec 8 (Z.land b1 127)); [reflexivity|].
    assert (LL : Z.land b1 127 = b1 - 128).
    { change 127 with (Z.ones 7). rewrite Z.land_ones by lia. symmetry. apply (Z.mod_unique _ _ 1); lia. }
    rewrite LL in *. cbn [length] in L.
    eapply wpr_bind; [apply read_len_loop_wp; [lia | exact Bt | lia | lia]|].
    intros [r d'] (H1 & H2 & H3 & _ & H5). destruct (Z.ltb_spec r 128); [reflexivity|]. cbn [wpr length].
    split; [exact H1|]. split; [exact H2|]. split; [lia|]. right. split; [lia|]. apply H5. lia.
Qed.

Lemma d_read_integer_wp d : bytes d -> len d < 2 ^ 55 ->
  wpr (d_read_integer dbg d) (fun '(s, d') => bytes d' /\ (length d' < length d)%nat /\ exists v, s = scalar_of v /\ 0 <= v < n /\
     (v <> 0 -> exists c, der_content v c /\ (length c <= 33)%nat /\ d = 2 :: len c :: c ++ d')).
Proof.
  intros B L. nlt. unfold d_read_integer. eapply wpr_bind; [apply d_read_wp, B|]. intros [tag t] (V & Bt & ->).
  destruct (Z.eqb_spec tag 2) as [->|?NE]; [|reflexivity]. cbn [negb]. cbn [length] in L.
  eapply wpr_bind; [apply d_read_len_wp; [exact Bt | lia]|]. intros [rlen u] (R & Bu & Lu & Cu).
  destruct (Z.eqb_spec rlen 0) as [?EQ|?NE]; [reflexivity|]. cbn [orb]. unfold remaining_len. destruct (Z.ltb_spec (len u) rlen); [reflexivity|].
  destruct u as [|b0 u]; [cbn in *; lia|]. cbn [d_peek nth_error rbind].
  assert (B0 : 0 <= b0 < 256 /\ bytes u) by (apply Forall_cons_iff in Bu; exact Bu). destruct B0 as [B0 Bu'].
  set (X := if (b0 =? 0) && (1 <? rlen) then _ else _).
  assert (HX : exists x, X = Some (Ok x) /\ (x = false -> b0 = 0 -> 1 < rlen -> match u with [] => False | b :: _ => 128 <= b end)).
  { unfold X. destruct (Z.eqb_spec b0 0) as [?EQ|?NE]; cbn [andb]; [|eexists; split; [reflexivity | intros; contradiction]].
    destruct (Z.ltb_spec 1 rlen); [|eexists; split; [reflexivity | intros; lia]].
    destruct u as [|b1 u]; [cbn [length] in *; lia|]. cbn [nth_error rbind]. eexists. split; [reflexivity|]. intros E _ _.
    apply Forall_cons_iff in Bu'. rewrite land128 in E by apply Bu'. apply Z.ltb_ge in E. exact E. }
  destruct HX as (x & -> & HX). cbn [rbind]. destruct x; [reflexivity|].
  set (X := if (b0 =? 255) && (1 <? rlen) then _ else _).
  assert (HY : exists x, X = Some (Ok x)).
  { unfold X. destruct ((b0 =? 255) && (1 <? rlen)) eqn:E; [|eexists; reflexivity]. apply andb_true_iff in E. destruct E as [_ E]. apply Z.ltb_lt in E.
    destruct u as [|b1 u]; [cbn [length] in *; lia|]. eexists. reflexivity. }
  destruct HY as (y & ->). cbn [rbind]. destruct y; [reflexivity|]. apply wpr_let. rewrite land128' by exact B0.
  eapply wpr_bind; [apply skip_zeros_wp; [exact Bu | lia]|]. intros [w k] (j & Ew & Ek & K & Kz). apply wpr_let.
  assert (Bw : bytes w) by (rewrite Ew in Bu; apply Forall_app in Bu; apply Bu).
  assert (Lw : (length w <= length (b0 :: u))%nat) by (rewrite Ew, app_length; lia).
  destruct (negb (b0 <? 128) || (32 <? k)) eqn:OV; cbn [negb].
  - cbn [wpr]. split; [exact Bw|]. cbn [length] in *. split; [lia|]. exists 0. split; [reflexivity|]. split; [lia|]. intros C; contradiction.
  - apply orb_false_iff in OV. destruct OV as [O1 O2]. apply negb_false_iff, Z.ltb_lt in O1. apply Z.ltb_ge in O2.
    eapply wpr_mono; [apply read_scalar_wp; [exact Bw | lia]|]. intros [s d'] (c & Lc & Ewc & _ & ->).
    assert (Bc : bytes c) by (rewrite Ewc in Bw; apply Forall_app in Bw; apply Bw).
    split; [rewrite Ewc in Bw; apply Forall_app in Bw; apply Bw|]. split; [rewrite Ewc, app_length in Lw; cbn [length] in *; lia|].
    exists (if be_val c <? n then be_val c else 0). split; [reflexivity|]. pose proof (be_val_range c Bc) as Rc.
    destruct (Z.ltb_spec (be_val c) n) as [Ln|Ln]; [|split; [lia | intros C; contradiction]].
    split; [lia|]. intros NZ.
    (* at most one zero was skipped, so the content is the shortest form *)
    assert (Cne : c <> []) by (intros ->; apply NZ; reflexivity).
    assert (Kp : 0 < k) by (destruct c; [contradiction | cbn [length] in Lc; lia]).
    assert (J : (j = 0 \/ j = 1)%nat).
    { destruct j as [|[|j]]; [left; reflexivity | right; reflexivity|]. exfalso. cbn [repeat app] in Ew. injection Ew as E0 Eu. subst b0 u.
      specialize (HX eq_refl eq_refl ltac:(lia)). cbn in HX. lia. }
    specialize (Kz Kp). rewrite Ewc in Kz, Ew. destruct c as [|c0 c]; [contradiction|]. cbn [app] in Kz.
    destruct Cu as [[Cr Ct]|[Cr Ct]]; [|cbn [length] in Lc; lia].
    exists (repeat 0 j ++ c0 :: c). split; [|split].
    + split; [apply bytes_app; [apply bytes_repeat0 | exact Bc]|]. split; [apply be_val_zeros|].
      destruct J as [-> | ->]; cbn [repeat app] in *.
      * injection Ew as -> Eu. destruct c; [exact O1 | split; [exact O1 | intros C; contradiction]].
      * injection Ew as -> Eu. subst u. split; [lia|]. intros _. exact (HX eq_refl eq_refl ltac:(lia)).
    + rewrite app_length, repeat_length. destruct J as [-> | ->]; lia.
    + rewrite app_length, repeat_length, Nat2Z.inj_add, Lc, <- Ek. rewrite Ct, Ew, <- app_assoc. reflexivity.
Qed.

Lemma sig_parse_der_wp b : bytes b -> len b < 2 ^ 55 ->
  wpr (sig_parse_der dbg b) (fun g => exists r s, g = Sig (scalar_of r) (scalar_of s) /\ 0 <= r < n /\ 0 <= s < n /\
    (r <> 0 -> s <> 0 -> b = sig_serialize_der (Sig (scalar_of r) (scalar_of s)))).
Proof.
  intros B L. nlt. unfold sig_parse_der, d_read_constructed_sequence.
  eapply wpr_bind with (P := fun t => bytes t /\ b = 48 :: t).
  { eapply wpr_bind; [apply d_read_wp, B|]. intros [v t] (V & Bt & ->). destruct (Z.eqb_spec v 48) as [->|?NE]; [|reflexivity]. cbn. auto. }
  intros t [Bt ->]. cbn [length] in L. eapply wpr_bind; [apply d_read_len_wp; [exact Bt | lia]|]. intros [rlen u] (R & Bu & Lu & Cu).
  unfold remaining_len. destruct (Z.eqb_spec rlen (len u)) as [E|?NE]; [|reflexivity]. cbn [negb].
  destruct Cu as [[Cr Ct]|[Cr Ct]]; [|lia].
  eapply wpr_bind; [apply d_read_integer_wp; [exact Bu | lia]|]. intros [sr u1] (B1 & L1 & r & -> & Rr & Hr).
  eapply wpr_bind; [apply d_read_integer_wp; [exact B1 | lia]|]. intros [ss u2] (B2 & L2 & s & -> & Rs & Hs).
  destruct (Z.eqb_spec (len u2) 0) as [E2|?NE]; [|reflexivity]. cbn [negb wpr].
  exists r, s. split; [reflexivity|]. split; [exact Rr|]. split; [exact Rs|]. intros NR NS.
  destruct (Hr NR) as (cr & Dr & Lr & Er). destruct (Hs NS) as (cs & Ds & Ls & Es).
  destruct u2; [|cbn in E2; lia]. rewrite app_nil_r in Es.
  rewrite serialize_der_eq by assumption.
  rewrite <- (der_content_unique r cr (content r) Dr (proj1 (content_ok r ltac:(lia)))).
  rewrite <- (der_content_unique s cs (content s) Ds (proj1 (content_ok s ltac:(lia)))).
  rewrite Ct, E, Er, Es. do 2 f_equal. cbn [length]. rewrite app_length. cbn [length]. lia.
Qed.

(** ** lax parser *)
Lemma lax_skip_zeros_wp d k : bytes d -> 0 <= k -> wpr (lax_skip_zeros d k) (fun '(d', k') => bytes d' /\ (length d' <= length d)%nat /\ 0 <= k').
Proof.
  intros B. revert k. induction B as [|a t Ha Ht IH]; intros k K; cbn [lax_skip_zeros].
  - destruct (Z.ltb_spec 0 k); [reflexivity|]. cbn. repeat split; [apply Forall_nil | lia | lia].
  - assert (Forall (fun b => 0 <= b < 256) (a :: t)) by (apply Forall_cons; assumption).
    destruct (Z.ltb_spec 0 k); [|cbn [wpr length]; repeat split; [assumption | lia | lia]].
    destruct (Z.eqb_spec a 0) as [->|NE].
    + eapply wpr_mono; [apply IH; lia|]. intros [d' k'] (H1 & H2 & H3). cbn [length]. repeat split; [assumption | lia | lia].
    + cbn [wpr length]. repeat split; [assumption | lia | lia].
Qed.
Lemma lax_len_loop_wp k : forall ret d, bytes d -> (k <= 7)%nat -> 0 <= ret < 256 ^ (7 - Z.of_nat k) ->
  wpr (lax_len_loop dbg k ret d) (fun '(r, d') => 0 <= r < 256 ^ 7 /\ bytes d' /\ (length d' <= length d)%nat).
Proof.
  induction k as [|k IH]; intros ret d B K R; cbn [lax_len_loop].
  - cbn [wpr]. rewrite Z.sub_0_r in R. split; [exact R|]. split; [exact B | lia].
  - eapply wpr_bind; [apply d_read_wp, B|]. intros [v t] (V & Bt & ->).
    assert (P : 256 ^ (7 - Z.of_nat k) = 256 * 256 ^ (7 - Z.of_nat (S k))) by (rewrite <- Z.pow_succ_r by lia; f_equal; lia).
    assert (P7 : 256 ^ (7 - Z.of_nat k) <= 256 ^ 7) by (apply Z.pow_le_mono_r; lia). change (256 ^ 7) with 72057594037927936 in P7.
    assert (E : Z.shiftl ret 8 mod 2 ^ 64 = ret * 256).
    { rewrite Z.shiftl_mul_pow2 by lia. change (2 ^ 8) with 256. apply Z.mod_small. change (2 ^ 64) with 18446744073709551616. lia. }
    rewrite E. unfold add64. rewrite uchk_ok by (change (2 ^ 64) with 18446744073709551616; lia). cbn [bind].
    eapply wpr_mono; [apply IH; [exact Bt | lia | lia]|]. intros [r d'] (H1 & H2 & H3). cbn [length]. repeat split; [lia | lia | exact H2 | lia].
Qed.
Lemma d_read_len_lax_wp d : bytes d -> wpr (d_read_len_lax dbg d) (fun '(r, d') => 0 <= r /\ bytes d' /\ (length d' < length d)%nat).
Proof.
  intros B. unfold d_read_len_lax. eapply wpr_bind; [apply d_read_wp, B|]. intros [v t] (V & Bt & ->).
  eapply wpr_bind with (P := fun '(r, d') => 0 <= r /\ bytes d' /\ (length d' <= length t)%nat).
  - rewrite land128 by exact V. destruct (Z.ltb_spec v 128); cbn [negb].
    + cbn. repeat split; [lia | exact Bt | lia].
    + unfold sub8. rewrite uchk_ok by (change (2 ^ 8) with 256; lia). cbn [bind].
      destruct (remaining_len t <? v - 128); [reflexivity|].
      eapply wpr_bind; [apply lax_skip_zeros_wp; [exact Bt | lia]|]. intros [d' k'] (H1 & H2 & H3).
      destruct (Z.leb_spec 8 k'); [reflexivity|].
      eapply wpr_mono; [apply lax_len_loop_wp; [exact H1 | lia |]|].
      * pose proof (Z.pow_pos_nonneg 256 (7 - Z.of_nat (Z.to_nat k'))). lia.
      * intros [r d2] (R & B2 & L2). repeat split; [lia | exact B2 | lia].
  - intros [r d'] (R & Bd & Ld). destruct (remaining_len d' <? r); [reflexivity|]. cbn [wpr length]. repeat split; [lia | exact Bd | lia].
Qed.
Lemma d_read_integer_lax_wp d : bytes d ->
  wpr (d_read_integer_lax dbg d) (fun '(s, d') => bytes d' /\ exists v, s = scalar_of v /\ 0 <= v < n).
Proof.
  intros B. nlt. unfold d_read_integer_lax. eapply wpr_bind; [apply d_read_wp, B|]. intros [tag t] (V & Bt & ->).
  destruct (negb (tag =? 2)); [reflexivity|].
  eapply wpr_bind; [apply d_read_len_lax_wp, Bt|]. intros [rlen u] (R & Bu & Lu).
  eapply wpr_bind; [apply skip_zeros_wp; [exact Bu | exact R]|]. intros [w k] (j & Ew & Ek & K & Kz).
  assert (Bw : bytes w) by (rewrite Ew in Bu; apply Forall_app in Bu; apply Bu).
  destruct (Z.ltb_spec 32 k).
  - cbn [wpr]. split; [exact Bw|]. exists 0. split; [reflexivity | lia].
  - eapply wpr_mono; [apply read_scalar_wp; [exact Bw | lia]|]. intros [s d'] (c & Lc & Ewc & _ & ->).
    rewrite Ewc in Bw. apply Forall_app in Bw. destruct Bw as [Bc Bd]. split; [exact Bd|]. eexists. split; [reflexivity|].
    pose proof (be_val_range c Bc). destruct (Z.ltb_spec (be_val c) n); lia.
Qed.
Lemma sig_parse_der_lax_wp b : bytes b ->
  wpr (sig_parse_der_lax dbg b) (fun g => exists r s, g = Sig (scalar_of r) (scalar_of s) /\ 0 <= r < n /\ 0 <= s < n).
Proof.
  intros B. unfold sig_parse_der_lax, d_read_constructed_sequence.
  eapply wpr_bind with (P := fun t => bytes t).
  { eapply wpr_bind; [apply d_read_wp, B|]. intros [v t] (V & Bt & ->). destruct (Z.eqb_spec v 48) as [->|?NE]; [|reflexivity]. exact Bt. }
  intros t Bt. unfold d_read_seq_len_lax.
  eapply wpr_bind with (P := fun '(_, d) => bytes d).
  { eapply wpr_bind; [apply d_read_wp, Bt|]. intros [v u] (V & Bu & ->). rewrite land128 by exact V. destruct (Z.ltb_spec v 128); cbn [negb]; [exact Bu|].
    unfold sub8. rewrite uchk_ok by (change (2 ^ 8) with 256; lia). cbn [bind]. destruct (remaining_len u <? v - 128); [reflexivity|].
    unfold d_skip. destruct (bad_span _ _); [reflexivity|]. cbn. apply bytes_skipn, Bu. }
  intros [_ u] Bu. eapply wpr_bind; [apply d_read_integer_lax_wp, Bu|]. intros [sr u1] (B1 & r & -> & Rr).
  eapply wpr_bind; [apply d_read_integer_lax_wp, B1|]. intros [ss u2] (B2 & s & -> & Rs). cbn. exists r, s. auto.
Qed.

(** ** reading back a canonical encoding *)
Lemma skip_zeros_content v c rest : der_content v c -> 0 <= v ->
  exists z, skip_zeros (c ++ rest) (len c) = Some (Ok (z ++ rest, len z)) /\ be_val z = v /\ bytes z /\
    (v <> 0 -> z <> []) /\ (match z with [] => True | a :: _ => a <> 0 end) /\ (length z <= length c)%nat.
Proof.
  intros (B & E & S) V. destruct c as [|a t]; [contradiction|]. pose proof B as B0. apply Forall_cons_iff in B0. destruct B0 as [Ba Bt].
  cbn [app skip_zeros]. replace (0 <? len (a :: t)) with true by (symmetry; apply Z.ltb_lt; cbn [length]; lia).
  destruct (Z.eqb_spec a 0) as [->|NE].
  - replace (len (0 :: t) - 1) with (len t) by (cbn [length]; lia). cbn [be_val] in E. rewrite Z.mul_0_l, Z.add_0_l in E.
    exists t. destruct t as [|b t].
    + cbn [app length]. destruct rest; cbn [skip_zeros Z.of_nat Z.ltb Z.compare]; (split; [reflexivity|]; split; [exact E|]; split; [exact Bt|]; split; [intros NV; exfalso; apply NV; rewrite <- E; reflexivity | split; [exact I | lia]]).
    + destruct S as [_ S]. specialize (S eq_refl). cbn [app skip_zeros]. replace (0 <? len (b :: t)) with true by (symmetry; apply Z.ltb_lt; cbn [length]; lia).
      destruct (Z.eqb_spec b 0) as [?EQ|?NE]; [lia|]. split; [reflexivity|]. split; [exact E|]. split; [exact Bt|].
      split; [discriminate | split; [assumption | cbn [length]; lia]].
  - exists (a :: t). split; [reflexivity|]. split; [exact E|]. split; [exact B|].
    split; [discriminate | split; [assumption | lia]].
Qed.
Lemma read_scalar_content z rest : bytes z -> (length z <= 32)%nat -> be_val z < n -> z ++ rest <> [] ->
  read_scalar dbg (z ++ rest) (len z) = Some (Ok (scalar_of (be_val z), rest)).
Proof.
  intros B L V NE. unfold read_scalar, d_peek_slice, d_skip.
  assert (BS : bad_span (z ++ rest) (len z) = false).
  { unfold bad_span, remaining_len. rewrite app_length. apply orb_false_iff. split; [|apply Z.ltb_ge; lia].
    destruct (Z.eqb_spec (len z) 0) as [?EQ|?NE]; [|reflexivity]. cbn [andb]. apply Z.leb_gt. destruct z; [|discriminate]. destruct rest; [contradiction|]. cbn [app length]. lia. }
  rewrite BS. cbn [rbind]. rewrite Nat2Z.id. rewrite firstn_app, Nat.sub_diag, firstn_all. cbn [firstn]. rewrite app_nil_r. cbn [bind].
  rewrite s_set_b32_eq; [|rewrite app_length, repeat_length; lia | apply bytes_app; [apply bytes_repeat0 | exact B]].
  cbn [bind rbind]. rewrite be_val_zeros, skipn_app, Nat.sub_diag, skipn_all. cbn [skipn app].
  pose proof (be_val_range z B). destruct (Z.leb_spec n (be_val z)); [lia|]. rewrite Z.mod_small by lia. reflexivity.
Qed.
Lemma nz_len z : bytes z -> match z with [] => True | a :: _ => a <> 0 end -> be_val z < n -> (length z <= 32)%nat.
Proof.
  intros B NZ V. nlt. destruct z as [|a t]; [cbn; lia|]. apply Forall_cons_iff in B. destruct B as [Ba Bt]. pose proof (be_val_range t Bt). cbn [be_val length] in *.
  destruct (le_lt_dec (S (length t)) 32); [assumption|]. exfalso.
  assert (256 ^ 32 <= 256 ^ len t) by (apply Z.pow_le_mono_r; lia). change (256 ^ 32) with (2 ^ 256) in *. nia.
Qed.

Lemma d_read_integer_content v rest : 0 <= v < n -> (v <> 0 \/ rest <> []) ->
  d_read_integer dbg (2 :: len (content v) :: content v ++ rest) = Some (Ok (scalar_of v, rest)).
Proof.
  intros V NE. nlt. destruct (content_ok v ltac:(lia)) as [C L]. set (c := content v) in *. clearbody c.
  unfold d_read_integer. cbn [d_read rbind Z.eqb Pos.eqb negb]. unfold d_read_len. cbn [d_read rbind].
  destruct (Z.eqb_spec (len c) 255) as [?EQ|?NE]; [lia|]. rewrite land128 by lia. destruct (Z.ltb_spec (len c) 128); [|lia]. cbn [rbind].
  destruct (Z.eqb_spec (len c) 0) as [?EQ|?NE]; [lia|]. cbn [orb]. unfold remaining_len. rewrite app_length.
  destruct (Z.ltb_spec (Z.of_nat (length c + length rest)) (len c)); [lia|].
  pose proof (skip_zeros_content v c rest C ltac:(lia)) as (z & SZ & Ez & Bz & ZN & Z0 & Lz).
  destruct C as (B & E & S). destruct c as [|a t]; [contradiction|]. pose proof B as B0. apply Forall_cons_iff in B0. destruct B0 as [Ba Bt].
  change ((a :: t) ++ rest) with (a :: t ++ rest) in *. cbn [d_peek nth_error rbind].
  assert (A : a < 128) by (destruct t; cbn in S; lia).
  assert (X : (if (a =? 0) && (1 <? len (a :: t)) then let? b1 := d_peek (a :: t ++ rest) 1 in Some (Ok (Z.land b1 128 =? 0)) else Some (Ok false)) = Some (Ok false)).
  { destruct (Z.eqb_spec a 0) as [->|?NE]; [|reflexivity]. cbn [andb]. destruct t as [|b t]; [reflexivity|]. destruct (1 <? _); [|reflexivity].
    cbn [app d_peek nth_error rbind]. apply Forall_cons_iff in Bt. rewrite land128 by apply Bt. destruct S as [_ S]. specialize (S eq_refl).
    do 2 f_equal. apply Z.ltb_ge. exact S. }
  rewrite X. cbn [rbind]. destruct (Z.eqb_spec a 255) as [?EQ|?NE]; [lia|]. cbn [andb rbind bind].
  rewrite land128' by lia. destruct (Z.ltb_spec a 128); [|lia]. cbn [negb]. rewrite SZ. cbn [rbind bind orb].
  assert (L32 : (length z <= 32)%nat) by (apply nz_len; [exact Bz | exact Z0 | lia]).
  destruct (Z.ltb_spec 32 (len z)); [lia|]. cbn [negb]. rewrite read_scalar_content; [rewrite Ez; reflexivity | exact Bz | exact L32 | lia|].
  destruct NE as [NE|NE]; [specialize (ZN NE); destruct z; [contradiction | discriminate] | destruct z; [exact NE | discriminate]].
Qed.
End B.

Section B2.
Variable dbg : bool.
Lemma d_read_integer_lax_content v rest : 0 <= v < n -> (v <> 0 \/ rest <> []) ->
  d_read_integer_lax dbg (2 :: len (content v) :: content v ++ rest) = Some (Ok (scalar_of v, rest)).
Proof.
  intros V NE. nlt. destruct (content_ok v ltac:(lia)) as [C L]. set (c := content v) in *. clearbody c.
  pose proof (skip_zeros_content v c rest C ltac:(lia)) as (z & SZ & Ez & Bz & ZN & Z0 & Lz).
  assert (L32 : (length z <= 32)%nat) by (apply nz_len; [exact Bz | exact Z0 | lia]).
  unfold d_read_integer_lax. cbn [d_read rbind Z.eqb Pos.eqb negb]. unfold d_read_len_lax. cbn [d_read rbind].
  rewrite land128 by lia. destruct (Z.ltb_spec (len c) 128); [|lia]. cbn [negb rbind]. unfold remaining_len. rewrite app_length.
  destruct (Z.ltb_spec (Z.of_nat (length c + length rest)) (len c)); [lia|]. cbn [rbind]. rewrite SZ. cbn [rbind].
  destruct (Z.ltb_spec 32 (len z)); [lia|]. rewrite read_scalar_content; [rewrite Ez; reflexivity | exact Bz | exact L32 | lia|].
  destruct NE as [NE|NE]; [specialize (ZN NE); destruct z; [contradiction | discriminate] | destruct z; [exact NE | discriminate]].
Qed.
(** an encoding of zero with nothing behind it is refused *)
Lemma content_0 : content 0 = [0]. Proof. reflexivity. Qed.
Lemma d_read_integer_zero_end : d_read_integer dbg [2; 1; 0] = derr /\ d_read_integer_lax dbg [2; 1; 0] = derr.
Proof. destruct dbg; split; reflexivity. Qed.

Lemma parse_der_header r s : 0 <= r < n -> 0 <= s < n ->
  sig_parse_der dbg (sig_serialize_der (Sig (scalar_of r) (scalar_of s))) =
  let? '(s', d) := d_read_integer dbg (2 :: len (content s) :: content s) in
  if negb (remaining_len d =? 0) then derr else Some (Ok (Sig (scalar_of r) s')).
Proof.
  intros R S. nlt. rewrite serialize_der_eq by assumption.
  destruct (content_ok r ltac:(lia)) as [_ Lr]. destruct (content_ok s ltac:(lia)) as [_ Ls].
  unfold sig_parse_der, d_read_constructed_sequence. cbn [d_read rbind Z.eqb Pos.eqb].
  set (T := 4 + len (content r) + len (content s)).
  unfold d_read_len at 1. cbn [d_read rbind]. assert (HT : 0 <= T < 128) by (unfold T; lia).
  destruct (Z.eqb_spec T 255); [lia|]. rewrite land128 by lia. destruct (Z.ltb_spec T 128); [|lia]. cbn [rbind].
  unfold remaining_len at 1. cbn [length]. rewrite app_length. cbn [length].
  destruct (Z.eqb_spec T (Z.of_nat (Datatypes.S (Datatypes.S (length (content r) + Datatypes.S (Datatypes.S (length (content s)))))))) as [_|NE]; [|unfold T in NE; lia].
  cbn [negb]. rewrite d_read_integer_content; [reflexivity | exact R | right; discriminate].
Qed.
Lemma parse_der_lax_header r s : 0 <= r < n -> 0 <= s < n ->
  sig_parse_der_lax dbg (sig_serialize_der (Sig (scalar_of r) (scalar_of s))) =
  let? '(s', d) := d_read_integer_lax dbg (2 :: len (content s) :: content s) in Some (Ok (Sig (scalar_of r) s')).
Proof.
  intros R S. nlt. rewrite serialize_der_eq by assumption.
  destruct (content_ok r ltac:(lia)) as [_ Lr]. destruct (content_ok s ltac:(lia)) as [_ Ls].
  unfold sig_parse_der_lax, d_read_constructed_sequence. cbn [d_read rbind Z.eqb Pos.eqb].
  unfold d_read_seq_len_lax. cbn [d_read rbind]. rewrite land128 by lia.
  destruct (Z.ltb_spec (4 + len (content r) + len (content s)) 128); [|lia]. cbn [negb rbind].
  rewrite d_read_integer_lax_content; [reflexivity | exact R | right; discriminate].
Qed.
End B2.

(** * C13 *)
(** Strict parsing inverts serialization whenever s is not zero. *)
Lemma C13_parse_serialize_der_pf : forall dbg r s, 0 <= r < n -> 1 <= s < n ->
  sig_parse_der dbg (sig_serialize_der (Sig (scalar_of r) (scalar_of s))) = Some (Ok (Sig (scalar_of r) (scalar_of s))).
Proof.
  intros dbg r s R S. rewrite parse_der_header by lia. rewrite <- (app_nil_r (content s)) at 2.
  rewrite d_read_integer_content by (lia || (left; lia)). reflexivity.
Qed.
Lemma C13_parse_serialize_der_example_pf : sig_parse_der true [48; 7; 2; 2; 0; 128; 2; 1; 1] = Some (Ok (Sig (scalar_of 128) (scalar_of 1))).
Proof. vmr. Qed.
(** With s = 0 the serialization is refused by the parser, although it is correct DER. *)
Lemma C13_parse_serialize_der_refuted_pf : exists s, 0 <= s < n /\ forall dbg r, 0 <= r < n ->
  der_sig r s (sig_serialize_der (Sig (scalar_of r) (scalar_of s))) /\
  sig_parse_der dbg (sig_serialize_der (Sig (scalar_of r) (scalar_of s))) = Some (Err InvalidSignature) /\
  sig_parse_der_lax dbg (sig_serialize_der (Sig (scalar_of r) (scalar_of s))) = Some (Err InvalidSignature).
Proof.
  exists 0. assert (Z0 : 0 <= 0 < n) by (split; vmr). split; [exact Z0|]. intros dbg r R. split; [apply C12_serialize_der_pf; assumption|].
  rewrite parse_der_header, parse_der_lax_header by assumption.
  change (2 :: len (content 0) :: content 0) with [2; 1; 0]. destruct (d_read_integer_zero_end dbg) as [-> ->]. split; reflexivity.
Qed.

(** * C14 *)
(** If strict parsing gives non-zero r and s then the input was the canonical encoding. *)
Lemma C14_der_strict_pf : forall dbg b g, bytes b -> len b < 2 ^ 55 -> sig_parse_der dbg b = Some (Ok g) ->
  exists r s, g = Sig (scalar_of r) (scalar_of s) /\ 0 <= r < n /\ 0 <= s < n /\
    (r <> 0 -> s <> 0 -> b = sig_serialize_der g /\ der_sig r s b).
Proof.
  intros dbg b g B L E. pose proof (sig_parse_der_wp dbg b B L) as W. rewrite E in W. cbn [wpr] in W.
  destruct W as (r & s & -> & R & S & H). exists r, s. split; [reflexivity|]. split; [exact R|]. split; [exact S|].
  intros NR NS. specialize (H NR NS). split; [exact H|]. rewrite H. apply C12_serialize_der_pf; assumption.
Qed.
Lemma C14_der_strict_example_pf : bytes [48; 7; 2; 2; 0; 128; 2; 1; 1] /\ sig_parse_der true [48; 7; 2; 2; 0; 128; 2; 1; 1] = Some (Ok (Sig (scalar_of 128) (scalar_of 1))) /\
  sig_parse_der true [48; 8; 2; 3; 0; 0; 128; 2; 1; 1] = Some (Err InvalidSignature) /\ sig_parse_der true [48; 129; 7; 2; 2; 0; 128; 2; 1; 1] = Some (Err InvalidSignature).
Proof.
  split; [unfold bytes; repeat (apply Forall_cons; [split; [discriminate | reflexivity]|]); apply Forall_nil|]. repeat apply conj; vmr.
Qed.
(** two different inputs, both accepted, with the same (r, s) = (0, s) *)
Definition confused : list Z := [48; 36; 2; 34; 2; 32] ++ repeat 1 32.
Lemma C14_der_strict_refuted_pf : exists b b' g, b <> b' /\ forall dbg, sig_parse_der dbg b = Some (Ok g) /\ sig_parse_der dbg b' = Some (Ok g).
Proof.
  exists confused, ([48; 37; 2; 1; 0; 2; 32] ++ repeat 1 32), (Sig (scalar_of 0) (scalar_of (be_val (repeat 1 32)))).
  split; [discriminate|]. intros []; split; vmr.
Qed.

(** * C15 *)
(** a definite BER length, short or long form *)
Definition ber_len (k : Z) (e : list Z) : Prop :=
  (0 <= k < 128 /\ e = [k]) \/ exists m, (1 <= m <= 126)%nat /\ 0 <= k < 256 ^ Z.of_nat m /\ e = (128 + Z.of_nat m) :: be_bytes m k.
(** a SEQUENCE of exactly two INTEGERs *)
Definition two_integers (b : list Z) : Prop :=
  exists e e1 e2 c1 c2, ber_len (len c1) e1 /\ ber_len (len c2) e2 /\
    ber_len (len ((2 :: e1 ++ c1) ++ (2 :: e2 ++ c2))) e /\ b = 48 :: e ++ (2 :: e1 ++ c1) ++ (2 :: e2 ++ c2).
(** An accepted input whose r and s are non-zero is a SEQUENCE of two INTEGERs. *)
Lemma C15_der_tiles_pf : forall dbg b r s, bytes b -> len b < 2 ^ 55 -> 1 <= r < n -> 1 <= s < n ->
  sig_parse_der dbg b = Some (Ok (Sig (scalar_of r) (scalar_of s))) -> two_integers b.
Proof.
  intros dbg b r s B L R S E. nlt. destruct (C14_der_strict_pf dbg b _ B L E) as (r' & s' & EG & R' & S' & H1).
  assert (scalar_of r = scalar_of r') as ER by congruence. assert (scalar_of s = scalar_of s') as ES by congruence.
  apply scalar_of_inj in ER; [|lia|lia]. apply scalar_of_inj in ES; [|lia|lia]. subst r' s'.
  destruct (H1 ltac:(lia) ltac:(lia)) as [_ (cr & cs & Dr & Ds & Lr & Ls & Lt & ->)].
  exists [4 + len cr + len cs], [len cr], [len cs], cr, cs. split; [left; split; [lia | reflexivity]|]. split; [left; split; [lia | reflexivity]|].
  split; [|cbn [app]; rewrite ?app_nil_r; reflexivity]. left. cbn [app length]. rewrite app_length. cbn [length].
  split; [lia|]. f_equal. lia.
Qed.
Lemma C15_der_tiles_example_pf : two_integers [48; 6; 2; 1; 5; 2; 1; 9].
Proof. exists [6], [1], [1], [5], [9]. repeat split; try (left; split; [cbn; lia | reflexivity]). Qed.
(** An input that is one INTEGER inside a SEQUENCE is accepted: the content of the INTEGER, not
    skipped on overflow, is read again as the second INTEGER. *)
Lemma C15_der_tiles_refuted_pf : exists b g, bytes b /\ (forall dbg, sig_parse_der dbg b = Some (Ok g)) /\ ~ two_integers b.
Proof.
  exists confused, (Sig (scalar_of 0) (scalar_of (be_val (repeat 1 32)))). split; [|split].
  - unfold confused, bytes. cbn [app repeat]. repeat (apply Forall_cons; [split; [discriminate | reflexivity]|]). apply Forall_nil.
  - intros []; vmr.
  - intros (e & e1 & e2 & c1 & c2 & L1 & L2 & L & E).
    assert (E36 : e = [36]).
    { destruct L as [[K ->]|(m & M & K & ->)]; pose proof (f_equal (fun l => nth 1 l 0) E) as X; cbn [app nth confused] in X.
      - f_equal. symmetry. exact X.
      - exfalso. lia. }
    subst e. pose proof (f_equal (skipn 3) E) as E'. unfold confused in E'. cbn [app skipn] in E'. clear E. rewrite <- !app_assoc in E'.
    assert (e1 = [34]).
    { destruct L1 as [[K ->]|(m & M & K & ->)]; pose proof (f_equal (fun l => nth 0 l 0) E') as X; cbn [app nth] in X.
      - f_equal. symmetry. exact X.
      - exfalso. lia. }
    subst e1. destruct L1 as [[K E1]|(m & M & K & E1)]; [|pose proof (f_equal (fun l => nth 0 l 0) E1) as X; cbn [nth] in X; lia].
    pose proof (f_equal (fun l => nth 0 l 0) E1) as X; cbn [nth] in X.
    apply (f_equal (@length Z)) in E'. rewrite !app_length in E'. cbn [length repeat] in E'. lia.
Qed.

(** * C16 *)
Lemma C16_lax_parses_canonical_pf : forall dbg r s, 0 <= r < n -> 1 <= s < n ->
  sig_parse_der_lax dbg (sig_serialize_der (Sig (scalar_of r) (scalar_of s))) = Some (Ok (Sig (scalar_of r) (scalar_of s))).
Proof.
  intros dbg r s R S. rewrite parse_der_lax_header by lia. rewrite <- (app_nil_r (content s)) at 2.
  rewrite d_read_integer_lax_content by (lia || (left; lia)). reflexivity.
Qed.
Lemma C16_lax_parses_canonical_example_pf : sig_parse_der_lax true [48; 7; 2; 2; 0; 128; 2; 1; 1] = Some (Ok (Sig (scalar_of 128) (scalar_of 1))).
Proof. vmr. Qed.
Lemma C16_lax_agrees_pf : forall dbg b r s, bytes b -> len b < 2 ^ 55 -> 1 <= r < n -> 1 <= s < n ->
  sig_parse_der dbg b = Some (Ok (Sig (scalar_of r) (scalar_of s))) ->
  sig_parse_der_lax dbg b = Some (Ok (Sig (scalar_of r) (scalar_of s))).
Proof.
  intros dbg b r s B L R S E. nlt. destruct (C14_der_strict_pf dbg b _ B L E) as (r' & s' & EG & R' & S' & H1).
  assert (scalar_of r = scalar_of r') as ER by congruence. assert (scalar_of s = scalar_of s') as ES by congruence.
  apply scalar_of_inj in ER; [|lia|lia]. apply scalar_of_inj in ES; [|lia|lia]. subst r' s'.
  destruct (H1 ltac:(lia) ltac:(lia)) as [-> _]. apply C16_lax_parses_canonical_pf; lia.
Qed.
Lemma C16_lax_agrees_example_pf : exists b g, sig_parse_der true b = Some (Ok g) /\ sig_parse_der_lax true b = Some (Ok g) /\
  sig_parse_der true (b ++ [0]) = Some (Err InvalidSignature) /\ sig_parse_der_lax true (b ++ [0]) = Some (Ok g).
Proof. exists [48; 6; 2; 1; 5; 2; 1; 9], (Sig (scalar_of 5) (scalar_of 9)). repeat apply conj; vmr. Qed.

(** * C17 *)
(** The DER parsers never panic; they return a signature with r, s < n or [Err(InvalidSignature)]. *)
Lemma C17_der_total_pf : forall dbg b, bytes b -> len b < 2 ^ 55 ->
  (sig_parse_der dbg b = Some (Err InvalidSignature) \/ exists r s, 0 <= r < n /\ 0 <= s < n /\ sig_parse_der dbg b = Some (Ok (Sig (scalar_of r) (scalar_of s)))) /\
  (sig_parse_der_lax dbg b = Some (Err InvalidSignature) \/ exists r s, 0 <= r < n /\ 0 <= s < n /\ sig_parse_der_lax dbg b = Some (Ok (Sig (scalar_of r) (scalar_of s)))).
Proof.
  intros dbg b B L. pose proof (sig_parse_der_wp dbg b B L) as W1. pose proof (sig_parse_der_lax_wp dbg b B) as W2. split.
  - destruct (sig_parse_der dbg b) as [[g|e]|]; cbn [wpr] in W1; [|left; rewrite W1; reflexivity | contradiction].
    destruct W1 as (r & s & -> & R & S & _). right. exists r, s. auto.
  - destruct (sig_parse_der_lax dbg b) as [[g|e]|]; cbn [wpr] in W2; [|left; rewrite W2; reflexivity | contradiction].
    destruct W2 as (r & s & -> & R & S). right. exists r, s. auto.
Qed.
Lemma C17_der_total_example_pf : sig_parse_der true [48; 136; 255; 255; 255; 255; 255; 255; 255; 255; 0] = Some (Err InvalidSignature) /\
  sig_parse_der_lax true [48; 136; 255; 255; 255] = Some (Err InvalidSignature).
Proof. split; vmr. Qed.
