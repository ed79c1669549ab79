(** The exact sets of byte strings accepted by the two DER parsers, and the values read. *)
From Verif Require Import Word MScalar MDer MApi WP ScalarAcc ScalarMul Spec Fp Bits ScalarOps ScalarRed ScalarMore ScalarBits Denote ApiScalar ApiDer.

(** * Specification: grammars as relations on byte strings *)

(** a content does not start with a zero byte (it may be empty) *)
Definition no_lead0 (c : list Z) : Prop := match c with [] => True | a :: _ => a <> 0 end.
(** the number read from a content of at most 32 bytes: 0 when it is not below the order *)
Definition reduced (c : list Z) : Z := if be_val c <? n then be_val c else 0.
(** [tail_of c rest v d]: what a parser makes of the content [c] (leading zeros removed) followed
    by [rest]: the number [v], and [d] the bytes at which it goes on.  A content over 32 bytes
    counts as 0 and is *not* skipped.  An empty content at the end of the input is refused. *)
Definition tail_of (c rest : list Z) (v : Z) (d : list Z) : Prop :=
  (len c <= 32 /\ c ++ rest <> [] /\ v = reduced c /\ d = rest) \/ (32 < len c /\ v = 0 /\ d = c ++ rest).

(** lengths of the lax parser: one byte below 128, or 128 plus a number of bytes holding the length,
    which may start with any number of zero bytes but has fewer than eight others *)
Definition lax_length (L : Z) (e : list Z) : Prop :=
  (0 <= L < 128 /\ e = [L]) \/
  (exists j t, e = 128 + Z.of_nat j + len t :: repeat 0 j ++ t /\ Z.of_nat j + len t < 128 /\ no_lead0 t /\ len t < 8 /\ L = be_val t).
(** an INTEGER of the lax parser *)
Definition lax_int (d : list Z) (v : Z) (d' : list Z) : Prop :=
  exists e j c rest, d = 2 :: e ++ repeat 0 j ++ c ++ rest /\ lax_length (Z.of_nat j + len c) e /\ no_lead0 c /\ tail_of c rest v d'.
(** a signature of the lax parser: the length of the SEQUENCE is skipped unread, and so is
    everything behind the second INTEGER *)
Definition lax_sig (b : list Z) (r s : Z) : Prop :=
  exists h skipped d0 d1 d2, b = 48 :: h :: skipped ++ d0 /\
    ((h < 128 /\ skipped = []) \/ (128 <= h /\ h = 128 + len skipped)) /\ lax_int d0 r d1 /\ lax_int d1 s d2.

(** an INTEGER of the strict parser: a one-byte length, a content that is not empty, does not start
    with 0 nor with 255 before a byte below 128; a negative number counts as 0 and is not skipped *)
Definition strict_int (d : list Z) (v : Z) (d' : list Z) : Prop :=
  exists c rest, d = 2 :: len c :: c ++ rest /\ 1 <= len c < 128 /\
    (forall b t, (c = 0 :: b :: t \/ c = 255 :: b :: t) -> 128 <= b) /\
    ((exists a t, c = a :: t /\ 128 <= a /\ v = 0 /\ d' = c ++ rest) \/
     (exists a t, c = a :: t /\ a < 128 /\ tail_of (if a =? 0 then t else c) rest v d')).
(** a signature of the strict parser: one-byte length covering exactly the rest, and nothing behind
    the second INTEGER *)
Definition strict_sig (b : list Z) (r s : Z) : Prop :=
  exists d0 d1, b = 48 :: len d0 :: d0 /\ len d0 < 128 /\ strict_int d0 r d1 /\ strict_int d1 s [].

(** * Reading the INTEGERs *)
Lemma skip_zeros_run j : forall d k, no_lead0 d -> 0 <= k -> (k = 0 \/ d <> []) ->
  skip_zeros (repeat 0 j ++ d) (Z.of_nat j + k) = Some (Ok (d, k)).
Proof.
  induction j as [|j IH]; intros d k N K D.
  - cbn [repeat app]. rewrite Z.add_0_l. destruct d as [|a t]; cbn [skip_zeros].
    + destruct D as [->|D]; [reflexivity | contradiction].
    + cbn in N. destruct (Z.eqb_spec a 0); [contradiction|]. destruct (0 <? k); reflexivity.
  - cbn [repeat app skip_zeros]. destruct (Z.ltb_spec 0 (Z.of_nat (S j) + k)); [|lia]. cbn [Z.eqb].
    replace (Z.of_nat (S j) + k - 1) with (Z.of_nat j + k) by lia. apply IH; assumption.
Qed.
(** the same when the content ends before the first byte that is not zero *)
Lemma skip_zeros_all j : forall d, skip_zeros (repeat 0 j ++ d) (Z.of_nat j) = Some (Ok (d, 0)).
Proof.
  induction j as [|j IH]; intros d.
  - destruct d; reflexivity.
  - cbn [repeat app skip_zeros]. destruct (Z.ltb_spec 0 (Z.of_nat (S j))); [|lia]. cbn [Z.eqb].
    replace (Z.of_nat (S j) - 1) with (Z.of_nat j) by lia. apply IH.
Qed.
Lemma skip_zeros_split j c rest : no_lead0 c -> skip_zeros (repeat 0 j ++ c ++ rest) (Z.of_nat j + len c) = Some (Ok (c ++ rest, len c)).
Proof.
  intros N. destruct c as [|a t].
  - cbn [app length]. rewrite Z.add_0_r. apply skip_zeros_all.
  - apply skip_zeros_run; [exact N | lia | right; discriminate].
Qed.
Lemma lax_skip_zeros_eq d : forall k, lax_skip_zeros d k = skip_zeros d k.
Proof.
  induction d as [|a t IH]; intros k; cbn [lax_skip_zeros skip_zeros]; [reflexivity|].
  destruct (0 <? k); [|reflexivity]. destruct (a =? 0); [apply IH | reflexivity].
Qed.
Lemma reduced_range c : bytes c -> 0 <= reduced c < n.
Proof. intros B. unfold reduced. pose proof (be_val_range c B). pose proof n_pos. destruct (Z.ltb_spec (be_val c) n); lia. Qed.

Section B.
Variable dbg : bool.
Lemma read_scalar_eq c rest : bytes c -> len c <= 32 -> c ++ rest <> [] ->
  read_scalar dbg (c ++ rest) (len c) = Some (Ok (scalar_of (reduced c), rest)).
Proof.
  intros B L NE. unfold reduced. destruct (Z.ltb_spec (be_val c) n) as [H|H].
  - apply read_scalar_content; [exact B | lia | exact H | exact NE].
  - unfold read_scalar, d_peek_slice, d_skip.
    assert (BS : bad_span (c ++ rest) (len c) = false).
    { unfold bad_span, remaining_len. rewrite app_length. apply orb_false_iff. split; [|apply Z.ltb_ge; lia].
      destruct (Z.eqb_spec (len c) 0) as [?EQ|?NE]; [|reflexivity]. cbn [andb]. apply Z.leb_gt. destruct c; [|discriminate]. destruct rest; [contradiction|]. cbn [app length]. lia. }
    rewrite BS. cbn [rbind]. rewrite Nat2Z.id. rewrite firstn_app, Nat.sub_diag, firstn_all. cbn [firstn]. rewrite app_nil_r. cbn [bind].
    rewrite s_set_b32_eq; [|rewrite app_length, repeat_length; lia | apply bytes_app; [apply bytes_repeat0 | exact B]].
    cbn [bind rbind]. rewrite be_val_zeros, skipn_app, Nat.sub_diag, skipn_all. cbn [skipn app].
    destruct (Z.leb_spec n (be_val c)); [reflexivity | lia].
Qed.

(** ** lax *)
Lemma lax_len_loop_eq t : forall ret rest, bytes t -> (length t <= 7)%nat -> 0 <= ret < 256 ^ (7 - len t) ->
  lax_len_loop dbg (length t) ret (t ++ rest) = Some (Ok (ret * 256 ^ len t + be_val t, rest)).
Proof.
  induction t as [|v t IH]; intros ret rest B K R.
  - cbn. do 3 f_equal. lia.
  - apply Forall_cons_iff in B. destruct B as [V B]. cbn [lax_len_loop length app d_read rbind]. cbn [length] in K, R.
    assert (P : 256 ^ (7 - len t) = 256 * 256 ^ (7 - Z.of_nat (S (length t)))) by (rewrite <- Z.pow_succ_r by lia; f_equal; lia).
    assert (P7 : 256 ^ (7 - len t) <= 256 ^ 7) by (apply Z.pow_le_mono_r; lia). change (256 ^ 7) with 72057594037927936 in P7.
    assert (E : Z.shiftl ret 8 mod 2 ^ 64 = ret * 256).
    { rewrite Z.shiftl_mul_pow2 by lia. change (2 ^ 8) with 256. apply Z.mod_small. change (2 ^ 64) with 18446744073709551616. lia. }
    rewrite E. unfold add64. rewrite uchk_ok by (change (2 ^ 64) with 18446744073709551616; lia). cbn [bind].
    rewrite IH; [|exact B | lia | lia]. cbn [be_val]. do 3 f_equal. rewrite Nat2Z.inj_succ, Z.pow_succ_r by lia. lia.
Qed.
Lemma lax_len_eq L e d : bytes e -> lax_length L e -> L <= len d -> d_read_len_lax dbg (e ++ d) = Some (Ok (L, d)).
Proof.
  intros B H LE. unfold d_read_len_lax. destruct H as [[R ->]|(j & t & -> & J & N & T & ->)].
  - cbn [app d_read rbind]. rewrite land128 by lia. destruct (Z.ltb_spec L 128); [|lia]. cbn [negb rbind].
    unfold remaining_len. destruct (Z.ltb_spec (len d) L); [lia | reflexivity].
  - apply Forall_cons_iff in B. destruct B as [_ B]. apply Forall_app in B. destruct B as [_ B].
    cbn [app d_read rbind]. rewrite land128 by lia. destruct (Z.ltb_spec (128 + Z.of_nat j + len t) 128); [lia|]. cbn [negb].
    unfold sub8. rewrite uchk_ok by (change (2 ^ 8) with 256; lia). cbn [bind].
    replace (128 + Z.of_nat j + len t - 128) with (Z.of_nat j + len t) by lia.
    unfold remaining_len at 1. rewrite !app_length, repeat_length. destruct (Z.ltb_spec (Z.of_nat (j + length t + length d)) (Z.of_nat j + len t)); [lia|].
    rewrite lax_skip_zeros_eq, <- app_assoc, skip_zeros_split by exact N. cbn [rbind].
    destruct (Z.leb_spec 8 (len t)); [lia|]. rewrite Nat2Z.id, lax_len_loop_eq; [|exact B | lia | split; [lia | apply Z.pow_pos_nonneg; lia]].
    rewrite Z.mul_0_l, Z.add_0_l. cbn [rbind]. unfold remaining_len. destruct (Z.ltb_spec (len d) (be_val t)); [lia | reflexivity].
Qed.
Lemma d_read_len_lax_inv d : bytes d ->
  wpr (d_read_len_lax dbg d) (fun '(L, d') => exists e, d = e ++ d' /\ lax_length L e /\ L <= len d').
Proof.
  intros B. unfold d_read_len_lax. eapply wpr_bind; [apply d_read_wp, B|]. intros [v t] (V & Bt & ->).
  eapply wpr_bind with (P := fun '(L, d') => exists e, v :: t = e ++ d' /\ lax_length L e).
  - rewrite land128 by exact V. destruct (Z.ltb_spec v 128); cbn [negb].
    + exists [v]. split; [reflexivity|]. left. split; [lia | reflexivity].
    + unfold sub8. rewrite uchk_ok by (change (2 ^ 8) with 256; lia). cbn [bind]. unfold remaining_len.
      destruct (Z.ltb_spec (len t) (v - 128)); [reflexivity|]. rewrite lax_skip_zeros_eq.
      eapply wpr_bind; [apply skip_zeros_wp; [exact Bt | lia]|]. intros [u k] (j & Eu & Ek & K & Kz).
      destruct (Z.leb_spec 8 k); [reflexivity|].
      assert (Bu : bytes u) by (rewrite Eu in Bt; apply Forall_app in Bt; apply Bt).
      assert (LT : (Z.to_nat k <= length u)%nat) by (rewrite Eu, app_length, repeat_length in *; lia).
      set (x := firstn (Z.to_nat k) u). assert (Ex : u = x ++ skipn (Z.to_nat k) u) by (symmetry; apply firstn_skipn).
      assert (Lx : length x = Z.to_nat k) by (unfold x; rewrite firstn_length; lia).
      assert (Bx : bytes x) by (apply bytes_firstn, Bu).
      rewrite Ex. rewrite <- Lx. rewrite lax_len_loop_eq; [|exact Bx | lia | split; [lia | apply Z.pow_pos_nonneg; lia]].
      rewrite Z.mul_0_l, Z.add_0_l. cbn [wpr]. exists (v :: repeat 0 j ++ x). split.
      * rewrite Eu. cbn [app]. rewrite <- app_assoc. do 2 f_equal. rewrite Lx. exact Ex.
      * right. exists j, x. split; [f_equal; lia|]. split; [lia|]. split; [|split; [lia | reflexivity]].
        destruct x as [|a x]; [exact I|]. cbn [length] in Lx. specialize (Kz ltac:(lia)). rewrite Ex in Kz. exact Kz.
  - intros [L d'] (e & E & H). unfold remaining_len. destruct (Z.ltb_spec (len d') L); [reflexivity|]. cbn [wpr]. exists e. split; [exact E|]. split; [exact H | lia].
Qed.
Lemma lax_length_pos L e : bytes e -> lax_length L e -> 0 <= L.
Proof.
  intros B [[R _]|(j & t & -> & _ & _ & _ & ->)]; [lia|]. apply Forall_cons_iff in B. destruct B as [_ B]. apply Forall_app in B. apply be_val_range, B.
Qed.
Lemma lax_int_eq d v d' : bytes d -> lax_int d v d' -> d_read_integer_lax dbg d = Some (Ok (scalar_of v, d')).
Proof.
  intros B (e & j & c & rest & -> & LE & N & T). apply Forall_cons_iff in B. destruct B as [_ B].
  apply Forall_app in B. destruct B as [Be B]. apply Forall_app in B. destruct B as [_ B]. apply Forall_app in B. destruct B as [Bc _].
  unfold d_read_integer_lax. cbn [d_read rbind Z.eqb Pos.eqb negb].
  rewrite (lax_len_eq _ e _ Be LE) by (rewrite !app_length, repeat_length; lia). cbn [rbind].
  rewrite skip_zeros_split by exact N. cbn [rbind].
  destruct T as [(L & NE & -> & ->)|(L & -> & ->)].
  - destruct (Z.ltb_spec 32 (len c)); [lia|]. apply read_scalar_eq; assumption.
  - destruct (Z.ltb_spec 32 (len c)); [reflexivity | lia].
Qed.
Lemma lax_int_inv d : bytes d ->
  wpr (d_read_integer_lax dbg d) (fun '(s, d') => bytes d' /\ exists v, s = scalar_of v /\ 0 <= v < n /\ lax_int d v d').
Proof.
  intros B. unfold d_read_integer_lax. eapply wpr_bind; [apply d_read_wp, B|]. intros [tag t] (V & Bt & ->).
  destruct (Z.eqb_spec tag 2) as [->|?NE]; [|reflexivity]. cbn [negb].
  eapply wpr_bind; [apply d_read_len_lax_inv, Bt|]. intros [L u] (e & -> & LE & Lu).
  apply Forall_app in Bt. destruct Bt as [Be Bu]. pose proof (lax_length_pos _ _ Be LE) as LP.
  eapply wpr_bind; [apply skip_zeros_wp; [exact Bu | exact LP]|]. intros [w k] (j & -> & -> & K & Kz).
  apply Forall_app in Bu. destruct Bu as [_ Bw].
  rewrite app_length, repeat_length in Lu.
  set (c := firstn (Z.to_nat k) w). assert (Ex : w = c ++ skipn (Z.to_nat k) w) by (symmetry; apply firstn_skipn). set (rest := skipn (Z.to_nat k) w) in *.
  assert (Lc : len c = k) by (unfold c; rewrite firstn_length; lia). clearbody c rest.
  assert (N : no_lead0 c). { destruct c as [|a c]; [exact I|]. cbn [length] in Lc. specialize (Kz ltac:(lia)). rewrite Ex in Kz. exact Kz. }
  subst w. rewrite <- Lc in *. pose proof Bw as Bcr. apply Forall_app in Bw. destruct Bw as [Bc Br].
  destruct (Z.ltb_spec 32 (len c)) as [G|G].
  - cbn [wpr]. split; [exact Bcr|]. exists 0. split; [reflexivity|]. split; [pose proof n_pos; lia|].
    exists e, j, c, rest. split; [reflexivity|]. split; [exact LE|]. split; [exact N|]. right. auto.
  - destruct (list_eq_dec Z.eq_dec (c ++ rest) []) as [Nil|NE].
    + destruct (app_eq_nil _ _ Nil) as [-> ->]. reflexivity.
    + rewrite read_scalar_eq by assumption. cbn [wpr]. split; [exact Br|]. exists (reduced c). split; [reflexivity|]. split; [apply reduced_range, Bc|].
      exists e, j, c, rest. split; [reflexivity|]. split; [exact LE|]. split; [exact N|]. left. auto.
Qed.
Lemma lax_sig_eq b r s : bytes b -> lax_sig b r s -> sig_parse_der_lax dbg b = Some (Ok (Sig (scalar_of r) (scalar_of s))).
Proof.
  intros B (h & sk & d0 & d1 & d2 & -> & H & I1 & I2). unfold sig_parse_der_lax, d_read_constructed_sequence. cbn [d_read rbind Z.eqb Pos.eqb].
  apply Forall_cons_iff in B. destruct B as [_ B]. apply Forall_cons_iff in B. destruct B as [Bh B]. apply Forall_app in B. destruct B as [_ B0].
  assert (NE : d0 <> []) by (destruct I1 as (? & ? & ? & ? & -> & _); discriminate).
  assert (E : exists q, d_read_seq_len_lax dbg (h :: sk ++ d0) = Some (Ok (q, d0))).
  { unfold d_read_seq_len_lax. cbn [d_read rbind]. rewrite land128 by exact Bh. destruct H as [[Hh ->]|[Hh Hs]].
    - destruct (Z.ltb_spec h 128); [|lia]. eexists. reflexivity.
    - destruct (Z.ltb_spec h 128); [lia|]. cbn [negb]. unfold sub8. rewrite uchk_ok by (change (2 ^ 8) with 256; lia). cbn [bind].
      replace (h - 128) with (len sk) by lia. unfold remaining_len. rewrite app_length. destruct (Z.ltb_spec (Z.of_nat (length sk + length d0)) (len sk)); [lia|].
      unfold d_skip, bad_span, remaining_len. rewrite app_length. destruct d0 as [|x d0]; [contradiction|]. cbn [length].
      destruct (Z.leb_spec (Z.of_nat (length sk + S (length d0))) 0); [lia|]. rewrite andb_false_r. cbn [orb].
      destruct (Z.ltb_spec (Z.of_nat (length sk + S (length d0))) (len sk)); [lia|]. cbn [rbind].
      rewrite Nat2Z.id, skipn_app, Nat.sub_diag, skipn_all. eexists. reflexivity. }
  destruct E as (q & ->). cbn [rbind]. rewrite (lax_int_eq d0 r d1 B0 I1). cbn [rbind].
  assert (B1 : bytes d1).
  { pose proof (lax_int_inv d0 B0) as W. rewrite (lax_int_eq d0 r d1 B0 I1) in W. cbn [wpr] in W. apply W. }
  rewrite (lax_int_eq d1 s d2 B1 I2). reflexivity.
Qed.
Lemma lax_sig_inv b : bytes b ->
  wpr (sig_parse_der_lax dbg b) (fun g => exists r s, g = Sig (scalar_of r) (scalar_of s) /\ 0 <= r < n /\ 0 <= s < n /\ lax_sig b r s).
Proof.
  intros B. unfold sig_parse_der_lax, d_read_constructed_sequence.
  eapply wpr_bind with (P := fun t => bytes t /\ b = 48 :: t).
  { eapply wpr_bind; [apply d_read_wp, B|]. intros [v t] (V & Bt & ->). destruct (Z.eqb_spec v 48) as [->|?NE]; [|reflexivity]. cbn. auto. }
  intros t [Bt ->]. unfold d_read_seq_len_lax.
  eapply wpr_bind with (P := fun '(_, d) => bytes d /\ exists h sk, t = h :: sk ++ d /\ ((h < 128 /\ sk = []) \/ (128 <= h /\ h = 128 + len sk))).
  { eapply wpr_bind; [apply d_read_wp, Bt|]. intros [v u] (V & Bu & ->). rewrite land128 by exact V. destruct (Z.ltb_spec v 128); cbn [negb].
    - cbn [wpr]. split; [exact Bu|]. exists v, []. split; [reflexivity | left; auto].
    - unfold sub8. rewrite uchk_ok by (change (2 ^ 8) with 256; lia). cbn [bind]. unfold remaining_len. destruct (Z.ltb_spec (len u) (v - 128)); [reflexivity|].
      unfold d_skip. destruct (bad_span _ _); [reflexivity|]. cbn [rbind wpr]. split; [apply bytes_skipn, Bu|].
      exists v, (firstn (Z.to_nat (v - 128)) u). rewrite firstn_skipn. split; [reflexivity|]. right. split; [lia|]. rewrite firstn_length. lia. }
  intros [q u] (Bu & h & sk & -> & H). eapply wpr_bind; [apply lax_int_inv, Bu|]. intros [sr u1] (B1 & r & -> & Rr & Ir).
  eapply wpr_bind; [apply lax_int_inv, B1|]. intros [ss u2] (B2 & s & -> & Rs & Is). cbn [wpr]. exists r, s.
  split; [reflexivity|]. split; [exact Rr|]. split; [exact Rs|]. exists h, sk, u, u1, u2. auto.
Qed.

(** ** strict *)
Lemma strict_len_eq L d : 0 <= L < 128 -> d_read_len dbg (L :: d) = Some (Ok (L, d)).
Proof.
  intros H. unfold d_read_len. cbn [d_read rbind]. destruct (Z.eqb_spec L 255); [lia|]. rewrite land128 by lia.
  destruct (Z.ltb_spec L 128); [reflexivity | lia].
Qed.
(** the test for a redundant first byte, in terms of the content *)
Lemma strict_pad_eq x c rest : bytes c -> 1 <= len c ->
  (let? b0 := d_peek (c ++ rest) 0 in
   if (b0 =? x) && (1 <? len c) then let? b1 := d_peek (c ++ rest) 1 in Some (Ok (Z.land b1 128 =? 0)) else Some (Ok false)) =
  Some (Ok (match c with a :: b :: _ => (a =? x) && (b <? 128) | _ => false end)).
Proof.
  intros B L. destruct c as [|a [|b t]]; [cbn in L; lia | |].
  - cbn [app d_peek nth_error rbind length]. rewrite andb_false_r. reflexivity.
  - cbn [app d_peek nth_error rbind]. destruct (Z.ltb_spec 1 (len (a :: b :: t))); [|cbn [length] in *; lia]. rewrite andb_true_r.
    destruct (a =? x); [|reflexivity]. apply Forall_cons_iff in B. destruct B as [_ B]. apply Forall_cons_iff in B. rewrite land128 by apply B. reflexivity.
Qed.
(** [d_read_integer] on a one-byte length, in closed form *)
Definition strict_result (c rest : list Z) : option (result (scalar * list Z)) :=
  match c with
  | [] => derr
  | a :: t =>
      if (match t with b :: _ => ((a =? 0) || (a =? 255)) && (b <? 128) | [] => false end) then derr
      else if 128 <=? a then Some (Ok (scalar_of 0, c ++ rest))
      else let c' := if a =? 0 then t else c in
        if 32 <? len c' then Some (Ok (scalar_of 0, c' ++ rest))
        else match c' ++ rest with [] => derr | _ => Some (Ok (scalar_of (reduced c'), rest)) end
  end.
Lemma strict_int_closed c rest : bytes c -> len c < 128 -> d_read_integer dbg (2 :: len c :: c ++ rest) = strict_result c rest.
Proof.
  intros B L. unfold d_read_integer. cbn [d_read rbind Z.eqb Pos.eqb negb]. rewrite strict_len_eq by lia. cbn [rbind].
  destruct c as [|a t]; [reflexivity|].
  destruct (Z.eqb_spec (len (a :: t)) 0) as [E|_]; [cbn [length] in E; lia|]. cbn [orb]. unfold remaining_len.
  destruct (Z.ltb_spec (len ((a :: t) ++ rest)) (len (a :: t))) as [E|_]; [rewrite app_length in E; lia|].
  pose proof (strict_pad_eq 0 (a :: t) rest B ltac:(cbn [length]; lia)) as P0. pose proof (strict_pad_eq 255 (a :: t) rest B ltac:(cbn [length]; lia)) as P1.
  change (d_peek ((a :: t) ++ rest) 0) with (Some (Ok a)) in *. cbn [rbind] in *. rewrite P0. cbn [rbind]. rewrite P1. cbn [rbind]. clear P0 P1.
  unfold strict_result.
  apply Forall_cons_iff in B. destruct B as [Ba Bt].
  assert (SZ : forall (neg : bool), (a = 0 -> match t with b :: _ => 128 <= b | [] => True end) -> skip_zeros ((a :: t) ++ rest) (len (a :: t)) =
     Some (Ok ((if a =? 0 then t else a :: t) ++ rest, len (if a =? 0 then t else a :: t)))).
  { intros _ H. destruct (Z.eqb_spec a 0) as [->|NE].
    - specialize (H eq_refl). change ((0 :: t) ++ rest) with (repeat 0 1 ++ t ++ rest). replace (len (0 :: t)) with (Z.of_nat 1 + len t) by (cbn [length]; lia).
      apply skip_zeros_split. destruct t; [exact I | cbn; lia].
    - apply (skip_zeros_split 0 (a :: t) rest). exact NE. }
  destruct (match t with b :: _ => ((a =? 0) || (a =? 255)) && (b <? 128) | [] => false end) eqn:P.
  { destruct t as [|b t]; [discriminate|]. apply andb_true_iff in P. destruct P as [P ->]. apply orb_true_iff in P. rewrite !andb_true_r.
    destruct P as [P|P]; rewrite P; [reflexivity|]. destruct (a =? 0); reflexivity. }
  assert (P' : (a = 0 -> match t with b :: _ => 128 <= b | [] => True end) /\
     (match t with b :: _ => (a =? 0) && (b <? 128) | [] => false end) = false /\ (match t with b :: _ => (a =? 255) && (b <? 128) | [] => false end) = false).
  { destruct t as [|b t]; [repeat split|]. destruct (Z.ltb_spec b 128).
    - rewrite andb_true_r in P. apply orb_false_iff in P. destruct P as [P ->]. rewrite P. repeat split. intros ->. discriminate.
    - rewrite !andb_false_r. repeat split. intros _. assumption. }
  destruct P' as (H & -> & ->). cbn [bind]. rewrite land128' by exact Ba. rewrite (SZ true H). cbn [rbind bind].
  replace (128 <=? a) with (negb (a <? 128)) by (rewrite Z.leb_antisym; reflexivity).
  destruct (Z.ltb_spec a 128) as [A|A]; cbn [negb orb].
  - set (c' := if a =? 0 then t else a :: t). assert (Bc : bytes c') by (unfold c'; destruct (a =? 0); [exact Bt | apply Forall_cons; assumption]).
    destruct (Z.ltb_spec 32 (len c')); cbn [negb]; [reflexivity|].
    destruct (c' ++ rest) as [|x y] eqn:E.
    + destruct (app_eq_nil _ _ E) as [-> ->]. reflexivity.
    + rewrite <- E. apply read_scalar_eq; [exact Bc | lia | rewrite E; discriminate].
  - destruct (Z.eqb_spec a 0); [lia|]. reflexivity.
Qed.
Lemma strict_result_iff c rest s d' : bytes c -> len c < 128 ->
  strict_result c rest = Some (Ok (s, d')) -> exists v, s = scalar_of v /\ 0 <= v < n /\ strict_int (2 :: len c :: c ++ rest) v d'.
Proof.
  intros B L. unfold strict_result. destruct c as [|a t]; [discriminate|].
  destruct (match t with b :: _ => _ | [] => false end) eqn:P; [discriminate|].
  assert (H : forall b u, a :: t = 0 :: b :: u \/ a :: t = 255 :: b :: u -> 128 <= b).
  { intros b u [E|E]; injection E as -> ->; cbn in P; apply Z.ltb_ge in P; exact P. }
  pose proof n_pos as NP. assert (L1 : 1 <= len (a :: t) < 128) by (cbn [length] in *; lia).
  destruct (Z.leb_spec 128 a) as [A|A]; cbv zeta.
  - intros E. apply (f_equal (fun o => match o with Some (Ok x) => x | _ => (s, d') end)) in E. cbv beta iota in E.
    pose proof (f_equal fst E) as E1. pose proof (f_equal snd E) as E2. cbn [fst snd] in E1, E2. exists 0. split; [symmetry; exact E1|]. split; [lia|].
    exists (a :: t), rest. split; [reflexivity|]. split; [exact L1|]. split; [exact H|]. left. exists a, t. auto.
  - set (c' := if a =? 0 then t else a :: t). assert (Bc : bytes c') by (unfold c'; apply Forall_cons_iff in B as B'; destruct (a =? 0); [apply B' | exact B]).
    assert (G : forall v, tail_of c' rest v d' -> strict_int (2 :: len (a :: t) :: (a :: t) ++ rest) v d').
    { intros v T. exists (a :: t), rest. split; [reflexivity|]. split; [exact L1|]. split; [exact H|]. right. exists a, t. auto. }
    destruct (Z.ltb_spec 32 (len c')).
    + intros E. apply (f_equal (fun o => match o with Some (Ok x) => x | _ => (s, d') end)) in E. cbv beta iota in E.
      pose proof (f_equal fst E) as E1. pose proof (f_equal snd E) as E2. cbn [fst snd] in E1, E2. exists 0. split; [symmetry; exact E1|]. split; [lia|].
      apply G. right. auto.
    + destruct (c' ++ rest) as [|x y] eqn:EC; [discriminate|].
      intros E. apply (f_equal (fun o => match o with Some (Ok x) => x | _ => (s, d') end)) in E. cbv beta iota in E.
      pose proof (f_equal fst E) as E1. pose proof (f_equal snd E) as E2. cbn [fst snd] in E1, E2. exists (reduced c'). split; [symmetry; exact E1|].
      split; [apply reduced_range, Bc|]. apply G. left. rewrite EC. split; [lia|]. split; [discriminate | auto].
Qed.
Lemma strict_int_eq d v d' : bytes d -> strict_int d v d' -> d_read_integer dbg d = Some (Ok (scalar_of v, d')).
Proof.
  intros B (c & rest & -> & L & H & T). apply Forall_cons_iff in B. destruct B as [_ B]. apply Forall_cons_iff in B. destruct B as [_ B]. apply Forall_app in B. destruct B as [B _].
  rewrite strict_int_closed by (try assumption; lia). unfold strict_result. destruct c as [|a t]; [cbn in L; lia|].
  assert (P : match t with b :: _ => ((a =? 0) || (a =? 255)) && (b <? 128) | [] => false end = false).
  { destruct t as [|b t]; [reflexivity|]. destruct (Z.ltb_spec b 128) as [Lb|Lb]; [|apply andb_false_r]. rewrite andb_true_r. apply orb_false_iff.
    split; apply Z.eqb_neq; intros ->; [specialize (H b t (or_introl eq_refl)) | specialize (H b t (or_intror eq_refl))]; lia. }
  rewrite P. destruct T as [(a' & t' & E & A & -> & ->)|(a' & t' & E & A & T)]; injection E as <- <-.
  - destruct (Z.leb_spec 128 a); [reflexivity | lia].
  - destruct (Z.leb_spec 128 a); [lia|]. cbv zeta. destruct T as [(L' & NE & -> & ->)|(L' & -> & ->)].
    + destruct (Z.ltb_spec 32 (len (if a =? 0 then t else a :: t))); [lia|]. destruct ((if a =? 0 then t else a :: t) ++ rest); [contradiction | reflexivity].
    + destruct (Z.ltb_spec 32 (len (if a =? 0 then t else a :: t))); [reflexivity | lia].
Qed.
Lemma strict_tail_bytes c rest v d' : bytes c -> bytes rest -> tail_of c rest v d' -> bytes d'.
Proof. intros B R [(_ & _ & _ & ->)|(_ & _ & ->)]; [exact R | apply bytes_app; assumption]. Qed.
Lemma strict_int_bytes d v d' : bytes d -> strict_int d v d' -> bytes d' /\ len d' < len d.
Proof.
  intros B (c & rest & -> & L & H & T). apply Forall_cons_iff in B. destruct B as [_ B]. apply Forall_cons_iff in B. destruct B as [_ B]. pose proof B as B'. apply Forall_app in B. destruct B as [Bc Br].
  destruct T as [(a & t & -> & A & -> & ->)|(a & t & -> & A & T)].
  - split; [exact B'|]. cbn [length]. lia.
  - assert (Bx : bytes (if a =? 0 then t else a :: t)) by (apply Forall_cons_iff in Bc as Bc'; destruct (a =? 0); [apply Bc' | exact Bc]).
    split; [exact (strict_tail_bytes _ _ _ _ Bx Br T)|].
    assert (LX : len (if a =? 0 then t else a :: t) <= len (a :: t)) by (destruct (a =? 0); cbn [length]; lia).
    cbn [length]. rewrite app_length. destruct T as [(_ & _ & _ & ->)|(_ & _ & ->)]; [lia | rewrite app_length; lia].
Qed.
Lemma strict_int_inv d : bytes d -> len d < 128 ->
  wpr (d_read_integer dbg d) (fun '(s, d') => exists v, s = scalar_of v /\ 0 <= v < n /\ strict_int d v d').
Proof.
  intros B L. pose proof (d_read_integer_wp dbg d B ltac:(change (2 ^ 55) with 36028797018963968; lia)) as W.
  destruct (d_read_integer dbg d) as [[[s d']|e]|] eqn:E; cbn [wpr] in *; [|exact W | contradiction].
  clear W. pose proof E as E0. unfold d_read_integer in E. destruct d as [|tag d]; [discriminate|]. cbn [d_read rbind] in E.
  destruct (Z.eqb_spec tag 2) as [->|?NE]; [|discriminate]. cbn [negb] in E. apply Forall_cons_iff in B. destruct B as [B2 B]. cbn [length] in L.
  pose proof (d_read_len_wp dbg d B ltac:(change (2 ^ 55) with 36028797018963968; lia)) as W.
  destruct (d_read_len dbg d) as [[[rl u]|e]|] eqn:ER; cbn [wpr] in W; [|discriminate|discriminate].
  destruct W as (R & Bu & Lu & [[Cr ->]|[Cr Ct]]); [|exfalso; lia].
  cbn [rbind] in E. unfold remaining_len in E. destruct ((rl =? 0) || (len u <? rl)) eqn:G; [discriminate|]. apply orb_false_iff in G. destruct G as [G1 G2]. apply Z.ltb_ge in G2. apply Z.eqb_neq in G1.
  clear E ER.
  assert (X : exists c rest, u = c ++ rest /\ len c = rl).
  { exists (firstn (Z.to_nat rl) u), (skipn (Z.to_nat rl) u). rewrite firstn_skipn. split; [reflexivity|]. rewrite firstn_length. lia. }
  destruct X as (c & rest & -> & Lc). subst rl. pose proof Bu as Bu'. apply Forall_app in Bu'. destruct Bu' as [Bc Br].
  apply (strict_result_iff c rest s d' Bc ltac:(lia)). rewrite <- strict_int_closed by (try assumption; lia). exact E0.
Qed.
End B.

Section B3.
Variable dbg : bool.
Lemma strict_sig_eq b r s : bytes b -> strict_sig b r s -> sig_parse_der dbg b = Some (Ok (Sig (scalar_of r) (scalar_of s))).
Proof.
  intros B (d0 & d1 & -> & L & I1 & I2). unfold sig_parse_der, d_read_constructed_sequence. cbn [d_read rbind Z.eqb Pos.eqb].
  apply Forall_cons_iff in B. destruct B as [_ B]. apply Forall_cons_iff in B. destruct B as [_ B].
  rewrite strict_len_eq by lia. cbn [rbind]. unfold remaining_len at 1. rewrite Z.eqb_refl. cbn [negb].
  rewrite (strict_int_eq dbg d0 r d1 B I1). cbn [rbind]. rewrite (strict_int_eq dbg d1 s [] (proj1 (strict_int_bytes _ _ _ B I1)) I2). reflexivity.
Qed.
Lemma strict_sig_inv b : bytes b -> len b < 2 ^ 55 ->
  wpr (sig_parse_der dbg b) (fun g => exists r s, g = Sig (scalar_of r) (scalar_of s) /\ 0 <= r < n /\ 0 <= s < n /\ strict_sig b r s).
Proof.
  intros B L. unfold sig_parse_der, d_read_constructed_sequence.
  eapply wpr_bind with (P := fun t => bytes t /\ b = 48 :: t).
  { eapply wpr_bind; [apply d_read_wp, B|]. intros [v t] (V & Bt & ->). destruct (Z.eqb_spec v 48) as [->|?NE]; [|reflexivity]. cbn. auto. }
  intros t [Bt ->]. cbn [length] in L. eapply wpr_bind; [apply d_read_len_wp; [exact Bt | lia]|]. intros [rlen u] (R & Bu & Lu & Cu).
  unfold remaining_len. destruct (Z.eqb_spec rlen (len u)) as [E|?NE]; [|reflexivity]. cbn [negb].
  destruct Cu as [[Cr Ct]|[Cr Ct]]; [|lia].
  eapply wpr_bind; [apply strict_int_inv; [exact Bu | lia]|]. intros [sr u1] (r & -> & Rr & Ir).
  destruct (strict_int_bytes _ _ _ Bu Ir) as [B1 L1].
  eapply wpr_bind; [apply strict_int_inv; [exact B1 | lia]|]. intros [ss u2] (s & -> & Rs & Is).
  destruct (Z.eqb_spec (len u2) 0) as [E2|?NE]; [|reflexivity]. cbn [negb wpr].
  destruct u2; [|cbn in E2; lia]. exists r, s. split; [reflexivity|]. split; [exact Rr|]. split; [exact Rs|].
  exists u, u1. rewrite <- E. split; [f_equal; exact Ct|]. split; [lia|]. split; assumption.
Qed.
End B3.

(** ** consequences of the grammars *)
Lemma no_strict_head a t v d' : a <> 2 -> ~ strict_int (a :: t) v d'.
Proof. intros N (c & rest & E & _). injection E as -> _. contradiction. Qed.
Lemma content_tail a t v : der_content v (a :: t) -> let c' := if a =? 0 then t else a :: t in
  be_val c' = v /\ no_lead0 c' /\ (v < 2 ^ 256 <-> len c' <= 32) /\ (c' = [] <-> v = 0).
Proof.
  intros (B & E & S). cbv zeta. apply Forall_cons_iff in B as B'. destruct B' as [Ba Bt].
  set (c' := if a =? 0 then t else a :: t).
  assert (N : no_lead0 c').
  { unfold c'. destruct (Z.eqb_spec a 0) as [->|NE]; [|exact NE]. destruct t as [|b t]; [exact I|]. cbn. destruct S as [_ S]. specialize (S eq_refl). lia. }
  assert (EV : be_val c' = v).
  { unfold c'. destruct (Z.eqb_spec a 0) as [->|NE]; [|exact E]. cbn [be_val] in E. lia. }
  assert (Bc : bytes c') by (unfold c'; destruct (a =? 0); [exact Bt | exact B]).
  clearbody c'. clear S. split; [exact EV|]. split; [exact N|]. pose proof (be_val_range c' Bc) as R. rewrite EV in R. change (2 ^ 256) with (256 ^ 32). split.
  - split; intros H.
    + destruct c' as [|x y]; [cbn; lia|]. apply Forall_cons_iff in Bc. destruct Bc as [Bx By]. pose proof (be_val_range y By). cbn [be_val no_lead0] in *.
      destruct (Z_le_gt_dec (len (x :: y)) 32); [assumption|]. exfalso. cbn [length] in *.
      assert (256 ^ 32 <= 256 ^ len y) by (apply Z.pow_le_mono_r; lia). nia.
    + assert (256 ^ len c' <= 256 ^ 32) by (apply Z.pow_le_mono_r; lia). lia.
  - split; [intros ->; symmetry; exact EV|]. intros ->. destruct c' as [|x y]; [reflexivity|]. exfalso. apply Forall_cons_iff in Bc. destruct Bc as [Bx By]. pose proof (be_val_range y By).
    cbn [be_val no_lead0] in *. pose proof (Z.pow_pos_nonneg 256 (len y)). nia.
Qed.

(** the value kept of a number: 0 when it is not below the order *)
Definition clip (v : Z) : Z := if v <? n then v else 0.
(** the byte strings the strict parser accepts, in terms of the DER contents of two numbers: either
    two INTEGERs side by side, or one INTEGER that overlaps the second one from its start *)
Definition strict_accepts (b : list Z) (r s : Z) : Prop :=
  exists vs cs, der_content vs cs /\ 0 < vs < 2 ^ 256 /\ s = clip vs /\
    ((exists vr cr, der_content vr cr /\ 0 <= vr < 2 ^ 256 /\ r = clip vr /\
        b = 48 :: 4 + len cr + len cs :: 2 :: len cr :: cr ++ 2 :: len cs :: cs) \/
     (r = 0 /\ exists k, 33 <= k <= len cs + 2 /\ b = 48 :: 4 + len cs :: 2 :: k :: 2 :: len cs :: cs)).

Lemma der_content_len v c : der_content v c -> v < 2 ^ 256 -> 1 <= len c <= 33.
Proof.
  intros D V. destruct c as [|a t]; [destruct D as (_ & _ & []) |]. destruct (content_tail a t v D) as (_ & _ & H & _). apply H in V. destruct (a =? 0); cbn [length] in *; lia.
Qed.
Lemma strict_int_plain v c rest : der_content v c -> 0 <= v < 2 ^ 256 -> (v <> 0 \/ rest <> []) -> strict_int (2 :: len c :: c ++ rest) (clip v) rest.
Proof.
  intros D V NE. pose proof (der_content_len v c D (proj2 V)) as L. destruct c as [|a t]; [cbn in L; lia|]. destruct (content_tail a t v D) as (E & N & L32 & EZ).
  exists (a :: t), rest. split; [reflexivity|]. split; [lia|]. destruct D as (B & EV & S). split.
  - intros b u [X|X]; injection X as -> ->; destruct S as [S1 S2]; [apply S2; reflexivity | lia].
  - right. exists a, t. split; [reflexivity|]. split; [destruct t; cbn in S; lia|]. left. split; [apply L32, V|]. split; [|split; [unfold clip, reduced; rewrite E; reflexivity | reflexivity]].
    intros C. apply app_eq_nil in C. destruct C as [C1 C2]. apply EZ in C1. destruct NE; contradiction.
Qed.
Lemma strict_classify b r s : bytes b -> strict_sig b r s <-> strict_accepts b r s.
Proof.
  intros B. split.
  - intros (d0 & d1 & -> & L & I1 & I2). apply Forall_cons_iff in B. destruct B as [_ B]. apply Forall_cons_iff in B. destruct B as [_ B].
    pose proof (proj1 (strict_int_bytes _ _ _ B I1)) as B1.
    assert (S2 : exists vs cs, der_content vs cs /\ 0 < vs < 2 ^ 256 /\ s = clip vs /\ d1 = 2 :: len cs :: cs).
    { destruct I2 as (c & rest & -> & Lc & H & T). apply Forall_cons_iff in B1. destruct B1 as [_ B1]. apply Forall_cons_iff in B1. destruct B1 as [_ B1]. apply Forall_app in B1. destruct B1 as [Bc Br].
      destruct T as [(a & t & -> & _ & _ & X)|(a & t & -> & A & T)]; [discriminate|].
      assert (D : der_content (be_val (a :: t)) (a :: t)).
      { split; [exact Bc|]. split; [reflexivity|]. destruct t as [|x t]; [exact A|]. split; [exact A|]. intros ->. apply (H x t). left. reflexivity. }
      destruct (content_tail a t _ D) as (E & N & L32 & EZ). pose proof (be_val_range (a :: t) Bc) as RB.
      destruct T as [(L' & NE & -> & <-)|(L' & -> & X)].
      - rewrite app_nil_r in *. exists (be_val (a :: t)), (a :: t). split; [exact D|].
        split; [|split; [unfold reduced, clip; rewrite E; reflexivity | rewrite ?app_nil_r; reflexivity]].
        apply L32 in L'. split; [|exact L']. destruct (Z.eq_dec (be_val (a :: t)) 0) as [Q|Q]; [|lia]. apply EZ in Q. contradiction.
      - symmetry in X. apply app_eq_nil in X. destruct X as [X _]. rewrite X in L'. cbn in L'. lia. }
    destruct S2 as (vs & cs & Ds & Vs & -> & ->). clear I2. exists vs, cs. split; [exact Ds|]. split; [exact Vs|]. split; [reflexivity|].
    destruct I1 as (c & rest & -> & Lc & H & T). apply Forall_cons_iff in B. destruct B as [_ B]. apply Forall_cons_iff in B. destruct B as [_ B]. apply Forall_app in B. destruct B as [Bc Br].
    destruct T as [(a & t & -> & A & _ & X)|(a & t & -> & A & T)]; [injection X as X _; lia|].
    assert (D : der_content (be_val (a :: t)) (a :: t)).
    { split; [exact Bc|]. split; [reflexivity|]. destruct t as [|x t]; [exact A|]. split; [exact A|]. intros ->. apply (H x t). left. reflexivity. }
    destruct (content_tail a t _ D) as (E & N & L32 & EZ). pose proof (be_val_range (a :: t) Bc) as RB.
    destruct T as [(L' & NE & -> & <-)|(L' & -> & X)].
    + left. exists (be_val (a :: t)), (a :: t). split; [exact D|]. split; [split; [lia | apply L32, L']|]. split; [unfold reduced, clip; rewrite E; reflexivity|].
      f_equal. f_equal. cbn [length]. rewrite app_length. cbn [length]. lia.
    + right. split; [reflexivity|]. destruct (Z.eqb_spec a 0) as [->|NZ].
      * exfalso. destruct t as [|x t]; [cbn in L'; lia|]. injection X as X _. specialize (H x t (or_introl eq_refl)). lia.
      * exists (len (a :: t)). rewrite <- X. pose proof (f_equal (@length Z) X) as LX. rewrite app_length in LX. change (length (2 :: len cs :: cs)) with (S (S (length cs))) in LX. split; [lia|].
        f_equal. f_equal. cbn [length]. lia.
  - intros (vs & cs & Ds & Vs & -> & H). pose proof (der_content_len vs cs Ds (proj2 Vs)) as Ls.
    assert (Is : strict_int (2 :: len cs :: cs) (clip vs) []).
    { rewrite <- (app_nil_r cs) at 2. apply strict_int_plain; [exact Ds | lia | left; lia]. }
    destruct H as [(vr & cr & Dr & Vr & -> & ->)|(-> & k & K & ->)].
    + pose proof (der_content_len vr cr Dr (proj2 Vr)) as Lr.
      exists (2 :: len cr :: cr ++ 2 :: len cs :: cs), (2 :: len cs :: cs). split; [do 2 f_equal; cbn [length]; rewrite app_length; cbn [length]; lia|].
      split; [cbn [length]; rewrite app_length; cbn [length]; lia|]. split; [|exact Is]. apply strict_int_plain; [exact Dr | exact Vr | right; discriminate].
    + exists (2 :: k :: 2 :: len cs :: cs), (2 :: len cs :: cs). split; [do 2 f_equal; cbn [length]; lia|]. split; [cbn [length]; lia|]. split; [|exact Is].
      set (e := 2 :: len cs :: cs). assert (Le : len e = len cs + 2) by (unfold e; cbn [length]; lia).
      assert (Lk : len (firstn (Z.to_nat k) e) = k) by (rewrite firstn_length; lia).
      exists (firstn (Z.to_nat k) e), (skipn (Z.to_nat k) e). rewrite firstn_skipn, Lk. split; [reflexivity|]. split; [lia|].
      assert (K2 : exists k', Z.to_nat k = S k') by (exists (pred (Z.to_nat k)); lia). destruct K2 as (k' & K2).
      assert (Ef : firstn (Z.to_nat k) e = 2 :: firstn k' (len cs :: cs)) by (rewrite K2; reflexivity).
      split; [intros b u [X|X]; rewrite Ef in X; discriminate|]. right. exists 2, (firstn k' (len cs :: cs)). split; [exact Ef|]. split; [lia|]. cbn [Z.eqb Pos.eqb].
      right. rewrite Lk. split; [lia|]. split; [reflexivity|]. rewrite firstn_skipn. reflexivity.
Qed.

Lemma strict_int_lax d v d' : bytes d -> strict_int d v d' -> (exists a t, d' = a :: t /\ 128 <= a) \/ lax_int d v d'.
Proof.
  intros B (c & rest & -> & L & H & T). destruct T as [(a & t & -> & A & -> & ->)|(a & t & -> & A & T)].
  - left. exists a, (t ++ rest). split; [reflexivity | exact A].
  - right. exists [len (a :: t)], (if a =? 0 then 1%nat else 0%nat), (if a =? 0 then t else a :: t), rest.
    assert (N : no_lead0 (if a =? 0 then t else a :: t)).
    { destruct (Z.eqb_spec a 0) as [->|NE]; [|exact NE]. destruct t as [|b t]; [exact I|]. cbn. specialize (H b t (or_introl eq_refl)). lia. }
    split; [|split; [|split; [exact N | exact T]]].
    + destruct (Z.eqb_spec a 0) as [->|NE]; reflexivity.
    + left. split; [destruct (a =? 0); cbn [length] in *; lia|]. f_equal. destruct (a =? 0); cbn [length]; lia.
Qed.
Lemma strict_sig_lax b r s : bytes b -> strict_sig b r s -> lax_sig b r s.
Proof.
  intros B (d0 & d1 & -> & L & I1 & I2). apply Forall_cons_iff in B. destruct B as [_ B]. apply Forall_cons_iff in B. destruct B as [_ B].
  pose proof (proj1 (strict_int_bytes _ _ _ B I1)) as B1.
  exists (len d0), [], d0, d1, []. split; [reflexivity|]. split; [left; auto|]. split.
  - destruct (strict_int_lax _ _ _ B I1) as [(a & t & -> & A)|H]; [|exact H]. exfalso. apply (no_strict_head a t s []); [lia | exact I2].
  - destruct (strict_int_lax _ _ _ B1 I2) as [(a & t & E & A)|H]; [discriminate | exact H].
Qed.
Lemma lax_int_app d v d' x : lax_int d v d' -> lax_int (d ++ x) v (d' ++ x).
Proof.
  intros (e & j & c & rest & -> & LE & N & T). exists e, j, c, (rest ++ x). split; [cbn [app]; rewrite !app_assoc_reverse; reflexivity|].
  split; [exact LE|]. split; [exact N|]. destruct T as [(L & NE & -> & ->)|(L & -> & ->)].
  - left. split; [exact L|]. split; [|auto]. rewrite app_assoc. intros C. apply app_eq_nil in C. destruct C; contradiction.
  - right. rewrite app_assoc. auto.
Qed.
Lemma lax_sig_app b r s x : lax_sig b r s -> lax_sig (b ++ x) r s.
Proof.
  intros (h & sk & d0 & d1 & d2 & -> & H & I1 & I2). exists h, sk, (d0 ++ x), (d1 ++ x), (d2 ++ x). split; [cbn [app]; rewrite app_assoc; reflexivity|].
  split; [exact H|]. split; apply lax_int_app; assumption.
Qed.

(** * C70 *)
(** The lax parser accepts exactly the strings of its grammar, with the values of the grammar. *)
Lemma C70_lax_grammar_pf : forall dbg b r s, bytes b -> 0 <= r < n -> 0 <= s < n ->
  (sig_parse_der_lax dbg b = Some (Ok (Sig (scalar_of r) (scalar_of s))) <-> lax_sig b r s).
Proof.
  intros dbg b r s B R S. split; [|apply lax_sig_eq, B]. intros E. pose proof (lax_sig_inv dbg b B) as W. rewrite E in W. cbn [wpr] in W.
  destruct W as (r' & s' & EG & R' & S' & H). pose proof (f_equal sig_r EG) as ER. pose proof (f_equal sig_s EG) as ES. cbn [sig_r sig_s] in ER, ES.
  nlt. apply scalar_of_inj in ER; [|lia|lia]. apply scalar_of_inj in ES; [|lia|lia]. subst r' s'. exact H.
Qed.
Lemma C70_lax_grammar_example_pf :
  lax_sig [48; 131; 7; 8; 9; 2; 129; 2; 0; 5; 2; 130; 0; 1; 9; 77] 5 9 /\
  sig_parse_der_lax true [48; 131; 7; 8; 9; 2; 129; 2; 0; 5; 2; 130; 0; 1; 9; 77] = Some (Ok (Sig (scalar_of 5) (scalar_of 9))).
Proof.
  split; [|vmr]. exists 131, [7; 8; 9], [2; 129; 2; 0; 5; 2; 130; 0; 1; 9; 77], [2; 130; 0; 1; 9; 77], [77].
  split; [reflexivity|]. split; [right; split; [lia | reflexivity]|]. split.
  - exists [129; 2], 1%nat, [5], [2; 130; 0; 1; 9; 77]. split; [reflexivity|]. split; [|split; [discriminate|]].
    + right. exists 0%nat, [2]. repeat split; discriminate.
    + left. split; [cbn; lia|]. split; [discriminate|]. split; [vmr | reflexivity].
  - exists [130; 0; 1], 0%nat, [9], [77]. split; [reflexivity|]. split; [|split; [discriminate|]].
    + right. exists 1%nat, [1]. repeat split; discriminate.
    + left. split; [cbn; lia|]. split; [discriminate|]. split; [vmr | reflexivity].
Qed.
(** The strict parser accepts exactly two kinds of strings: two INTEGERs side by side, each the DER of
    a number below 2^256 and the second not 0 (numbers at or above the order read as 0), or a second
    INTEGER overlapped by the content of a first one of 33 to 35 bytes, which reads as r = 0. *)
Lemma C70_strict_grammar_pf : forall dbg b r s, bytes b -> len b < 2 ^ 55 -> 0 <= r < n -> 0 <= s < n ->
  (sig_parse_der dbg b = Some (Ok (Sig (scalar_of r) (scalar_of s))) <-> strict_accepts b r s).
Proof.
  intros dbg b r s B L R S. rewrite <- strict_classify by exact B. split; [|apply strict_sig_eq, B]. intros E. pose proof (strict_sig_inv dbg b B L) as W. rewrite E in W. cbn [wpr] in W.
  destruct W as (r' & s' & EG & R' & S' & H). pose proof (f_equal sig_r EG) as ER. pose proof (f_equal sig_s EG) as ES. cbn [sig_r sig_s] in ER, ES.
  nlt. apply scalar_of_inj in ER; [|lia|lia]. apply scalar_of_inj in ES; [|lia|lia]. subst r' s'. exact H.
Qed.
Lemma C70_strict_grammar_example_pf :
  strict_accepts [48; 7; 2; 2; 0; 128; 2; 1; 1] 128 1 /\ sig_parse_der true [48; 7; 2; 2; 0; 128; 2; 1; 1] = Some (Ok (Sig (scalar_of 128) (scalar_of 1))) /\
  ~ strict_accepts [48; 6; 2; 1; 1; 2; 1; 0] 1 0.
Proof.
  split; [|split; [vmr|]].
  - exists 1, [1]. split; [repeat constructor; lia|]. split; [split; vmr|]. split; [vmr|]. left. exists 128, [0; 128].
    split; [split; [repeat constructor; lia|]; split; [reflexivity|]; split; [lia|]; intros _; lia|]. split; [split; vmr|]. split; [vmr | reflexivity].
  - intros H. assert (B : bytes [48; 6; 2; 1; 1; 2; 1; 0]) by (repeat constructor; lia).
    apply (C70_strict_grammar_pf true) in H; [|exact B | vmr | split; vmr | split; vmr]. assert (E : sig_parse_der true [48; 6; 2; 1; 1; 2; 1; 0] = Some (Err InvalidSignature)) by vmr.
    rewrite E in H. discriminate H.
Qed.
(** Whatever the strict parser accepts has 8 to 72 bytes and is read the same by the lax parser. *)
Lemma C70_strict_is_lax_pf : forall dbg b g, bytes b -> len b < 2 ^ 55 -> sig_parse_der dbg b = Some (Ok g) ->
  8 <= len b <= 72 /\ sig_parse_der_lax dbg b = Some (Ok g).
Proof.
  intros dbg b g B L E. pose proof (strict_sig_inv dbg b B L) as W. rewrite E in W. cbn [wpr] in W. destruct W as (r & s & -> & R & S & H).
  split; [|apply lax_sig_eq; [exact B | apply strict_sig_lax; assumption]].
  apply strict_classify in H; [|exact B]. destruct H as (vs & cs & Ds & Vs & _ & H). pose proof (der_content_len vs cs Ds (proj2 Vs)) as Ls.
  destruct H as [(vr & cr & Dr & Vr & _ & ->)|(_ & k & K & ->)].
  - pose proof (der_content_len vr cr Dr (proj2 Vr)) as Lr. cbn [length]. rewrite app_length. cbn [length]. lia.
  - cbn [length]. lia.
Qed.
Lemma C70_strict_is_lax_example_pf : bytes [48; 7; 2; 2; 0; 128; 2; 1; 1] /\ exists g, sig_parse_der false [48; 7; 2; 2; 0; 128; 2; 1; 1] = Some (Ok g).
Proof. split; [repeat constructor; lia|]. exists (Sig (scalar_of 128) (scalar_of 1)). vmr. Qed.
(** Bytes behind a string the lax parser accepts change nothing. *)
Lemma C70_lax_trailing_pf : forall dbg b x g, bytes b -> bytes x -> sig_parse_der_lax dbg b = Some (Ok g) ->
  sig_parse_der_lax dbg (b ++ x) = Some (Ok g).
Proof.
  intros dbg b x g B X E. pose proof (lax_sig_inv dbg b B) as W. rewrite E in W. cbn [wpr] in W. destruct W as (r & s & -> & R & S & H).
  apply lax_sig_eq; [apply bytes_app; assumption | apply lax_sig_app, H].
Qed.
Lemma C70_lax_trailing_example_pf : exists g, bytes [48; 6; 2; 1; 5; 2; 1; 9] /\ bytes [2; 255] /\ sig_parse_der_lax true [48; 6; 2; 1; 5; 2; 1; 9] = Some (Ok g).
Proof. exists (Sig (scalar_of 5) (scalar_of 9)). split; [repeat constructor; lia|]. split; [repeat constructor; lia | vmr]. Qed.
(** Both readers: a string with no reading in its grammar gives [Err(InvalidSignature)]. *)
Lemma C70_refused_pf : forall dbg b, bytes b -> len b < 2 ^ 55 ->
  ((forall r s, 0 <= r < n -> 0 <= s < n -> ~ strict_accepts b r s) <-> sig_parse_der dbg b = Some (Err InvalidSignature)) /\
  ((forall r s, 0 <= r < n -> 0 <= s < n -> ~ lax_sig b r s) <-> sig_parse_der_lax dbg b = Some (Err InvalidSignature)).
Proof.
  intros dbg b B L. split; split.
  - intros H. pose proof (strict_sig_inv dbg b B L) as W. destruct (sig_parse_der dbg b) as [[g|e]|]; cbn [wpr] in W; [|rewrite W; reflexivity | contradiction].
    destruct W as (r & s & _ & R & S & K). exfalso. apply (H r s R S), strict_classify; assumption.
  - intros E r s R S K. apply (C70_strict_grammar_pf dbg b r s B L R S) in K. rewrite E in K. discriminate K.
  - intros H. pose proof (lax_sig_inv dbg b B) as W. destruct (sig_parse_der_lax dbg b) as [[g|e]|]; cbn [wpr] in W; [|rewrite W; reflexivity | contradiction].
    destruct W as (r & s & _ & R & S & K). exfalso. apply (H r s R S), K.
  - intros E r s R S K. apply (C70_lax_grammar_pf dbg b r s B R S) in K. rewrite E in K. discriminate K.
Qed.
Lemma C70_refused_example_pf : bytes [48; 6; 2; 1; 129; 2; 1; 9] /\ sig_parse_der true [48; 6; 2; 1; 129; 2; 1; 9] = Some (Err InvalidSignature) /\
  bytes [48; 3; 2; 4; 1] /\ sig_parse_der_lax true [48; 3; 2; 4; 1] = Some (Err InvalidSignature).
Proof. split; [repeat constructor; lia|]. split; [vmr|]. split; [repeat constructor; lia | vmr]. Qed.
