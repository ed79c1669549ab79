(** The decoder as an array and a position, the fixed-size output array, and their agreement with the
    model on the unread suffix. *)
From Verif Require Import Word MScalar MDer MApi MDecoder WP ScalarAcc ScalarMul Spec Fp Bits ScalarOps ScalarRed ScalarMore ScalarBits Denote ApiScalar ApiDer ApiGrammar.

Lemma p63 : 2 ^ 63 = 9223372036854775808. Proof. reflexivity. Qed.
Lemma p64 : 2 ^ 64 = 18446744073709551616. Proof. reflexivity. Qed.
Lemma skipn_at (l : list Z) pos : 0 <= pos < len l -> exists v, idx l pos = Some v /\ skipn (Z.to_nat pos) l = v :: skipn (Z.to_nat (pos + 1)) l.
Proof.
  intros H. unfold idx. destruct (Z.ltb_spec pos 0); [lia|]. destruct (nth_error l (Z.to_nat pos)) as [v|] eqn:E.
  - exists v. split; [reflexivity|]. apply nth_error_split in E. destruct E as (l1 & l2 & -> & L). rewrite Z2Nat.inj_add by lia. change (Z.to_nat 1) with 1%nat. rewrite <- L.
    rewrite skipn_app, skipn_all, Nat.sub_diag. cbn [skipn app]. rewrite skipn_app. replace (length l1 + 1 - length l1)%nat with 1%nat by lia.
    rewrite skipn_all2 by lia. reflexivity.
  - apply nth_error_None in E. lia.
Qed.
Lemma skipn_end (l : list Z) pos : len l <= pos -> skipn (Z.to_nat pos) l = [].
Proof. intros H. apply skipn_all2. lia. Qed.

Section Array.
Variable dbg : bool.
Variable arr : list Z.
Hypothesis HL : len arr < 2 ^ 63.
Definition at_pos (pos : Z) : list Z := skipn (Z.to_nat pos) arr.
Definition inside (pos : Z) : Prop := 0 <= pos <= len arr.
Lemma at_len pos : inside pos -> len (at_pos pos) = len arr - pos.
Proof. intros H. unfold at_pos, inside in *. rewrite skipn_length. lia. Qed.

(** the method [m] at [pos] does what [o] says, where [o] is an answer of the model on suffixes *)
Definition sim {A} (m : dm A) (pos : Z) (o : option (result (A * list Z))) : Prop :=
  match o with
  | Some (Ok (a, d')) => exists pos', m pos = Some (Ok a, pos') /\ pos <= pos' <= len arr /\ d' = at_pos pos'
  | Some (Err e) => exists pos', m pos = Some (Err e, pos') /\ pos <= pos' <= len arr
  | None => m pos = None
  end.
Lemma sim_bind {A B} (m : dm A) (f : A -> dm B) pos o g : inside pos -> sim m pos o ->
  (forall a pos', pos <= pos' <= len arr -> sim (f a) pos' (g (a, at_pos pos'))) -> sim (dbind m f) pos (rbind o g).
Proof.
  intros P H F. unfold sim in H. destruct o as [[[a d']|e]|]; cbn [rbind].
  - destruct H as (q & E & R & ->). specialize (F a q R). unfold sim in *. unfold dbind. rewrite E.
    destruct (g (a, at_pos q)) as [[[b d2]|e]|]; [| |exact F].
    + destruct F as (q' & -> & R' & ->). exists q'. split; [reflexivity|]. split; [lia | reflexivity].
    + destruct F as (q' & -> & R'). exists q'. split; [reflexivity | lia].
  - destruct H as (q & E & R). unfold sim, dbind. rewrite E. exists q. auto.
  - unfold sim, dbind. rewrite H. reflexivity.
Qed.
Lemma sim_ok {A} (a : A) pos : inside pos -> sim (dok a) pos (Some (Ok (a, at_pos pos))).
Proof. intros P. exists pos. split; [reflexivity|]. split; [unfold inside in P; lia | reflexivity]. Qed.
Lemma sim_err {A} pos : inside pos -> sim (@derror A) pos derr.
Proof. intros P. exists pos. split; [reflexivity | unfold inside in P; lia]. Qed.
Lemma sim_lift {A B} (o : option A) (f : A -> dm B) pos g : (forall a, sim (f a) pos (g a)) -> sim (dbind (dlift o) f) pos (bind o g).
Proof. intros H. destruct o as [a|]; [|reflexivity]. specialize (H a). unfold sim, dbind, dlift in *. cbn [bind]. exact H. Qed.
Lemma sim_some {A B} (o : option A) a (f : A -> dm B) pos g : o = Some a -> sim (f a) pos g -> sim (dbind (dlift o) f) pos g.
Proof. intros -> H. exact H. Qed.
Lemma sim_pure {A B} (a : A) (f : A -> dm B) pos o : sim (f a) pos o -> sim (dbind (dok a) f) pos o.
Proof. exact (fun H => H). Qed.
Lemma remaining_at pos : inside pos -> D_remaining_len dbg arr pos = Some (Ok (remaining_len (at_pos pos)), pos).
Proof.
  intros P. unfold D_remaining_len, remaining_len. rewrite at_len by exact P. unfold inside in P. unfold sub64. rewrite uchk_ok by (rewrite p64; rewrite p63 in HL; lia). reflexivity.
Qed.
Lemma sim_remaining {B} (f : Z -> dm B) pos o : inside pos -> sim (f (remaining_len (at_pos pos))) pos o -> sim (dbind (D_remaining_len dbg arr) f) pos o.
Proof. intros P H. unfold sim, dbind in *. rewrite remaining_at by exact P. exact H. Qed.
Lemma sim_read pos : inside pos -> sim (D_read dbg arr) pos (d_read (at_pos pos)).
Proof.
  intros P. unfold inside in P. unfold D_read. destruct (Z_lt_le_dec pos (len arr)) as [H|H].
  - destruct (skipn_at arr pos ltac:(lia)) as (v & E & S). unfold at_pos at 1. rewrite S. cbn [d_read sim]. exists (pos + 1).
    destruct (Z.leb_spec (len arr) pos); [lia|]. rewrite E. cbn [bind]. unfold add64. rewrite uchk_ok by (rewrite p64; rewrite p63 in HL; lia). cbn [bind].
    split; [reflexivity|]. split; [lia | reflexivity].
  - unfold at_pos. rewrite skipn_end by exact H. cbn [d_read derr sim]. exists pos. destruct (Z.leb_spec (len arr) pos); [|lia]. split; [reflexivity | lia].
Qed.
Lemma peek_at pos k : inside pos -> (k <= 32)%nat ->
  D_peek dbg arr (Z.of_nat k) pos = match d_peek (at_pos pos) k with Some r => Some (r, pos) | None => None end.
Proof.
  intros P K. unfold inside in P. unfold D_peek, add64. rewrite uchk_ok by (rewrite p64; rewrite p63 in HL; lia). cbn [bind].
  unfold d_peek, at_pos. destruct (Z_lt_le_dec (pos + Z.of_nat k) (len arr)) as [H|H].
  - destruct (skipn_at arr (pos + Z.of_nat k) ltac:(lia)) as (v & E & S). destruct (Z.leb_spec (len arr) (pos + Z.of_nat k)); [lia|]. rewrite E. cbn [bind].
    assert (N : nth_error (skipn (Z.to_nat pos) arr) k = Some v).
    { unfold idx in E. destruct (Z.ltb_spec (pos + Z.of_nat k) 0); [lia|]. rewrite <- E. rewrite Z2Nat.inj_add, Nat2Z.id by lia.
      rewrite <- (firstn_skipn (Z.to_nat pos) arr) at 2. rewrite nth_error_app2 by (rewrite firstn_length; lia). f_equal. rewrite firstn_length. lia. }
    rewrite N. reflexivity.
  - destruct (Z.leb_spec (len arr) (pos + Z.of_nat k)); [|lia].
    assert (N : nth_error (skipn (Z.to_nat pos) arr) k = None) by (apply nth_error_None; rewrite skipn_length; lia). rewrite N. reflexivity.
Qed.
Lemma sim_peek {B} (f : Z -> dm B) pos k g : inside pos -> (k <= 32)%nat -> (forall v, sim (f v) pos (g v)) ->
  sim (dbind (D_peek dbg arr (Z.of_nat k)) f) pos (rbind (d_peek (at_pos pos) k) g).
Proof.
  intros P K H. unfold sim, dbind. rewrite peek_at by assumption. destruct (d_peek (at_pos pos) k) as [[v|e]|]; cbn [rbind]; [apply H | | reflexivity].
  exists pos. split; [reflexivity | unfold inside in P; lia].
Qed.
Lemma bad_span_at pos k : inside pos -> 0 <= k < 2 ^ 63 ->
  bad_span (at_pos pos) k = (((k =? 0) && (len arr <=? pos)) || (len arr <? pos + k)).
Proof.
  intros P K. unfold bad_span, remaining_len. rewrite at_len by exact P. f_equal.
  - f_equal. destruct (Z.leb_spec (len arr - pos) 0), (Z.leb_spec (len arr) pos); try reflexivity; lia.
  - destruct (Z.ltb_spec (len arr - pos) k), (Z.ltb_spec (len arr) (pos + k)); try reflexivity; lia.
Qed.
Lemma sim_skip {B} (f : unit -> dm B) pos k g : inside pos -> 0 <= k < 2 ^ 63 ->
  (forall pos', pos <= pos' <= len arr -> sim (f tt) pos' (g (at_pos pos'))) -> sim (dbind (D_skip dbg arr k) f) pos (rbind (d_skip (at_pos pos) k) g).
Proof.
  intros P K H. unfold d_skip. rewrite bad_span_at by assumption. unfold sim, dbind, D_skip.
  assert (ER : forall pos0, pos0 = pos -> exists pos', @Some (result B * Z) (Err InvalidSignature, pos0) = Some (Err InvalidSignature, pos') /\ pos <= pos' <= len arr) by (intros ? ->; exists pos; split; [reflexivity | unfold inside in P; lia]).
  destruct ((k =? 0) && (len arr <=? pos)); cbn [orb]; [apply ER; reflexivity|].
  unfold add64. rewrite uchk_ok by (unfold inside in P; rewrite p64; rewrite p63 in *; lia). cbn [bind].
  destruct (Z.ltb_spec (len arr) (pos + k)); [apply ER; reflexivity|]. cbn [rbind].
  assert (E : skipn (Z.to_nat k) (at_pos pos) = at_pos (pos + k)).
  { unfold at_pos. unfold inside in P. rewrite Z2Nat.inj_add by lia. clear. generalize (Z.to_nat pos), (Z.to_nat k). clear. intros a b. revert arr b. induction a as [|a IH]; intros l b; [reflexivity|]. destruct l; [destruct b; reflexivity|]. apply IH. }
  rewrite E. unfold inside in P. specialize (H (pos + k) ltac:(lia)). unfold sim in H. destruct (g (at_pos (pos + k))) as [[[b d2]|e]|]; [| |exact H].
  - destruct H as (q & -> & R & ->). exists q. split; [reflexivity|]. split; [lia | reflexivity].
  - destruct H as (q & -> & R). exists q. split; [reflexivity | lia].
Qed.
Lemma sim_peek_slice {B} (f : list Z -> dm B) pos k g : inside pos -> 0 <= k < 2 ^ 63 ->
  (forall l, length l = Z.to_nat k -> sim (f l) pos (g l)) -> sim (dbind (D_peek_slice dbg arr k) f) pos (rbind (d_peek_slice (at_pos pos) k) g).
Proof.
  intros P K H. unfold d_peek_slice. rewrite bad_span_at by assumption. unfold sim, dbind, D_peek_slice.
  assert (ER : forall pos0, pos0 = pos -> exists pos', @Some (result B * Z) (Err InvalidSignature, pos0) = Some (Err InvalidSignature, pos') /\ pos <= pos' <= len arr) by (intros ? ->; exists pos; split; [reflexivity | unfold inside in P; lia]).
  destruct ((k =? 0) && (len arr <=? pos)); cbn [orb]; [apply ER; reflexivity|].
  unfold add64. rewrite uchk_ok by (unfold inside in P; rewrite p64; rewrite p63 in *; lia). cbn [bind].
  destruct (Z.ltb_spec (len arr) (pos + k)); [apply ER; reflexivity|]. cbn [rbind]. unfold slice.
  destruct (Z.ltb_spec (pos + k) pos); [lia|]. cbn [orb]. destruct (Z.ltb_spec (len arr) (pos + k)); [lia|]. cbn [bind].
  replace (pos + k - pos) with k by lia. apply H. unfold inside in P. rewrite firstn_length. unfold at_pos. rewrite skipn_length. lia.
Qed.
Lemma sim_if {A} (b : bool) (m m' : dm A) pos o o' : (b = true -> sim m pos o) -> (b = false -> sim m' pos o') -> sim (if b then m else m') pos (if b then o else o').
Proof. destruct b; auto. Qed.
Lemma inside_le pos pos' : inside pos -> pos <= pos' <= len arr -> inside pos'.
Proof. unfold inside. lia. Qed.

(** ** the methods *)
Lemma sim_sequence pos : inside pos -> sim (D_read_constructed_sequence dbg arr) pos (rbind (d_read_constructed_sequence (at_pos pos)) (fun d => Some (Ok (tt, d)))).
Proof.
  intros P. unfold D_read_constructed_sequence, d_read_constructed_sequence.
  assert (A : forall {A B C} (o : option (result A)) (f : A -> option (result B)) (g : B -> option (result C)), rbind (rbind o f) g = rbind o (fun a => rbind (f a) g)) by (intros A B C [[a|e]|] f g; reflexivity).
  rewrite A. apply sim_bind; [exact P | apply sim_read, P|]. intros v q Q. pose proof (inside_le _ _ P Q) as P'. destruct (v =? 48); [apply sim_ok, P' | apply sim_err, P'].
Qed.
Lemma sim_len_loop k : forall ret pos, inside pos -> sim (D_read_len_loop dbg arr k ret) pos (read_len_loop dbg k ret (at_pos pos)).
Proof.
  induction k as [|k IH]; intros ret pos P; cbn [D_read_len_loop read_len_loop]; [apply sim_ok, P|].
  apply sim_bind; [exact P | apply sim_read, P|]. intros v q Q. pose proof (inside_le _ _ P Q) as P'. apply sim_pure. cbn [bind].
  apply sim_lift. intros w. apply sim_remaining; [exact P'|]. apply sim_if; intros _; [apply sim_err, P' | apply IH, P'].
Qed.
Lemma sim_read_len pos : inside pos -> sim (D_read_len dbg arr) pos (d_read_len dbg (at_pos pos)).
Proof.
  intros P. unfold D_read_len, d_read_len. apply sim_bind; [exact P | apply sim_read, P|]. intros v q Q. pose proof (inside_le _ _ P Q) as P'.
  apply sim_if; intros _; [apply sim_err, P'|]. apply sim_if; intros _; [apply sim_ok, P'|]. apply sim_if; intros _; [apply sim_err, P'|].
  apply sim_pure. cbn [bind]. apply sim_remaining; [exact P'|]. apply sim_if; intros _; [apply sim_err, P'|].
  apply (sim_peek _ q 0); [exact P' | lia|]. intros b. apply sim_if; intros _; [apply sim_err, P'|]. apply sim_if; intros _; [apply sim_err, P'|].
  apply sim_bind; [exact P' | apply sim_len_loop, P'|]. intros r q' Q'. pose proof (inside_le _ _ P' Q') as P2. apply sim_if; intros _; [apply sim_err, P2 | apply sim_ok, P2].
Qed.
(** exchange the components of an answer *)
Definition swap_answer (o : option (result (list Z * Z))) : option (result (Z * list Z)) :=
  match o with Some (Ok (d, k)) => Some (Ok (k, d)) | Some (Err e) => Some (Err e) | None => None end.
Lemma swap_bind {B} o (g : list Z * Z -> option (result B)) : rbind o g = rbind (swap_answer o) (fun '(k, d) => g (d, k)).
Proof. destruct o as [[[d k]|e]|]; reflexivity. Qed.
Lemma at_cons pos : inside pos -> pos < len arr -> exists v, at_pos pos = v :: at_pos (pos + 1).
Proof. intros P H. unfold inside in P. destruct (skipn_at arr pos ltac:(lia)) as (v & _ & S). exists v. exact S. Qed.
Lemma dbind_ok {A B} (m : dm A) (f : A -> dm B) pos a q : m pos = Some (Ok a, q) -> dbind m f pos = f a q.
Proof. intros H. unfold dbind. rewrite H. reflexivity. Qed.
Lemma dbind_err {A B} (m : dm A) (f : A -> dm B) pos e q : m pos = Some (Err e, q) -> dbind m f pos = Some (Err e, q).
Proof. intros H. unfold dbind. rewrite H. reflexivity. Qed.
Lemma peek0_cons pos v t : inside pos -> at_pos pos = v :: t -> D_peek dbg arr 0 pos = Some (Ok v, pos).
Proof. intros P E. change 0 with (Z.of_nat 0). rewrite (peek_at pos 0 P) by lia. rewrite E. reflexivity. Qed.
Lemma peek0_nil pos : inside pos -> at_pos pos = [] -> D_peek dbg arr 0 pos = Some (Err InvalidSignature, pos).
Proof. intros P E. change 0 with (Z.of_nat 0). rewrite (peek_at pos 0 P) by lia. rewrite E. reflexivity. Qed.
Lemma read_next pos v t : inside pos -> pos < len arr -> at_pos pos = v :: t -> D_read dbg arr pos = Some (Ok v, pos + 1).
Proof.
  intros P H E. pose proof (sim_read pos P) as R. rewrite E in R. cbn [d_read sim] in R. destruct R as (q & ER & RQ & EQ). rewrite ER. do 2 f_equal.
  pose proof (f_equal (fun l => len l) E) as LE. pose proof (f_equal (fun l => len l) EQ) as LQ. cbv beta in LE, LQ. cbn [length] in LE. rewrite at_len in LE, LQ by (unfold inside in *; lia). lia.
Qed.
Lemma skip_next pos : inside pos -> pos < len arr -> D_skip dbg arr 1 pos = Some (Ok tt, pos + 1).
Proof.
  intros P H. unfold D_skip, add64. cbn [Z.eqb andb]. unfold inside in P. rewrite uchk_ok by (rewrite p64; rewrite p63 in *; lia). cbn [bind].
  destruct (Z.ltb_spec (len arr) (pos + 1)); [lia | reflexivity].
Qed.
Lemma pred_ok k pos : 0 < k < 2 ^ 63 -> dlift (sub64 dbg k 1) pos = Some (Ok (k - 1), pos).
Proof. intros K. unfold dlift, sub64. rewrite uchk_ok by (rewrite p64; rewrite p63 in K; lia). reflexivity. Qed.
Lemma D_skip_zeros_step fuel k pos t : inside pos -> pos < len arr -> at_pos pos = 0 :: t -> 0 < k < 2 ^ 63 ->
  D_skip_zeros dbg arr (S fuel) k pos = D_skip_zeros dbg arr fuel (k - 1) (pos + 1) /\
  D_lax_skip_zeros dbg arr (S fuel) k pos = D_lax_skip_zeros dbg arr fuel (k - 1) (pos + 1).
Proof.
  intros P H E K. cbn [D_skip_zeros D_lax_skip_zeros]. destruct (Z.ltb_spec 0 k); [|lia]. rewrite !(dbind_ok _ _ pos 0 pos (peek0_cons pos 0 t P E)). cbn [Z.eqb].
  rewrite (dbind_ok _ _ pos (k - 1) pos (pred_ok k pos K)), (dbind_ok _ _ pos 0 (pos + 1) (read_next pos 0 t P H E)).
  rewrite (dbind_ok _ _ pos tt (pos + 1) (skip_next pos P H)), (dbind_ok _ _ (pos + 1) (k - 1) (pos + 1) (pred_ok k (pos + 1) K)). split; reflexivity.
Qed.
Lemma D_skip_zeros_stop fuel k pos v t : inside pos -> at_pos pos = v :: t -> v <> 0 ->
  D_skip_zeros dbg arr fuel k pos = Some (Ok k, pos) /\ D_lax_skip_zeros dbg arr fuel k pos = Some (Ok k, pos).
Proof.
  intros P E NE. destruct fuel; [split; reflexivity|]. cbn [D_skip_zeros D_lax_skip_zeros]. destruct (0 <? k); [|split; reflexivity].
  rewrite !(dbind_ok _ _ pos v pos (peek0_cons pos v t P E)). destruct (Z.eqb_spec v 0); [contradiction|]. split; reflexivity.
Qed.
Lemma D_skip_zeros_end fuel k pos : inside pos -> at_pos pos = [] -> 0 < k ->
  D_skip_zeros dbg arr (S fuel) k pos = Some (Err InvalidSignature, pos) /\ D_lax_skip_zeros dbg arr (S fuel) k pos = Some (Err InvalidSignature, pos).
Proof.
  intros P E K. cbn [D_skip_zeros D_lax_skip_zeros]. destruct (Z.ltb_spec 0 k); [|lia]. rewrite !(dbind_err _ _ pos _ pos (peek0_nil pos P E)). split; reflexivity.
Qed.
Lemma sim_skip_zeros_both fuel : forall k pos, inside pos -> 0 <= k < 2 ^ 63 -> (Z.to_nat k <= fuel)%nat ->
  sim (D_skip_zeros dbg arr fuel k) pos (swap_answer (skip_zeros (at_pos pos) k)) /\
  sim (D_lax_skip_zeros dbg arr fuel k) pos (swap_answer (skip_zeros (at_pos pos) k)).
Proof.
  induction fuel as [|fuel IH]; intros k pos P K F.
  - assert (k = 0) by lia. subst k. assert (E : skip_zeros (at_pos pos) 0 = Some (Ok (at_pos pos, 0))) by (destruct (at_pos pos); reflexivity).
    rewrite E. cbn [swap_answer]. split; apply sim_ok, P.
  - destruct (Z_lt_le_dec 0 k) as [Hk|Hk].
    + assert (PQ : pos <= pos <= len arr) by (unfold inside in P; lia). destruct (Z_lt_le_dec pos (len arr)) as [H|H].
      * destruct (at_cons pos P H) as (v & E). rewrite E. cbn [skip_zeros]. destruct (Z.ltb_spec 0 k); [|lia].
        destruct (Z.eqb_spec v 0) as [->|NE].
        -- destruct (D_skip_zeros_step fuel k pos _ P H E ltac:(lia)) as [S1 S2]. unfold sim. rewrite S1, S2.
           specialize (IH (k - 1) (pos + 1) ltac:(unfold inside in *; lia) ltac:(lia) ltac:(lia)). unfold sim in IH.
           destruct (swap_answer (skip_zeros (at_pos (pos + 1)) (k - 1))) as [[[r d2]|e]|]; [| |exact IH].
           ++ destruct IH as [(q & -> & R & ->) (q' & -> & R' & E')]. split; [exists q | exists q']; (split; [reflexivity|]; split; [lia | auto]).
           ++ destruct IH as [(q & -> & R) (q' & -> & R')]. split; [exists q | exists q']; (split; [reflexivity | lia]).
        -- destruct (D_skip_zeros_stop (S fuel) k pos v _ P E NE) as [S1 S2]. cbn [swap_answer sim]. rewrite S1, S2. split; exists pos; (split; [reflexivity|]; split; [exact PQ | symmetry; exact E]).
      * assert (E : at_pos pos = []) by (apply skipn_end, H). destruct (D_skip_zeros_end fuel k pos P E Hk) as [S1 S2].
        rewrite E. cbn [skip_zeros]. destruct (Z.ltb_spec 0 k); [|lia]. cbn [swap_answer derr sim]. rewrite S1, S2. split; exists pos; (split; [reflexivity | exact PQ]).
    + assert (k = 0) by lia. subst k. assert (E : skip_zeros (at_pos pos) 0 = Some (Ok (at_pos pos, 0))) by (destruct (at_pos pos); reflexivity).
      rewrite E. cbn [swap_answer]. split; apply sim_ok, P.
Qed.
Lemma sim_read_scalar k pos : inside pos -> 0 <= k <= 32 -> sim (D_read_scalar dbg arr k) pos (read_scalar dbg (at_pos pos) k).
Proof.
  intros P K. unfold D_read_scalar, read_scalar. apply sim_peek_slice; [exact P | rewrite p63; lia|]. intros l Ll.
  eapply sim_some; [unfold sub64; apply uchk_ok; rewrite p64; lia|].
  eapply sim_some.
  { unfold slice. rewrite repeat_length. change (Z.of_nat 32) with 32. destruct (Z.ltb_spec 32 (32 - k)); [lia|]. destruct (Z.ltb_spec 32 32); [lia|]. reflexivity. }
  eapply (sim_some _ tt).
  { assert (Lr : length (firstn (Z.to_nat (32 - (32 - k))) (skipn (Z.to_nat (32 - k)) (repeat 0 32))) = length l) by (rewrite firstn_length, skipn_length, repeat_length, Ll; lia).
    rewrite Lr, Nat.eqb_refl. reflexivity. }
  cbn [bind]. replace (Z.to_nat (32 - k)) with (32 - Z.to_nat k)%nat by lia.
  apply (sim_skip _ pos k (fun d => let* '(int, over) := s_set_b32 dbg (repeat 0 (32 - Z.to_nat k) ++ l) in Some (Ok (if over then s_default else int, d)))); [exact P | rewrite p63; lia|].
  intros q Q. pose proof (inside_le _ _ P Q) as P'.
  apply sim_lift. intros [i o]. apply sim_ok, P'.
Qed.
Lemma sim_seq_len_lax pos : inside pos -> sim (D_read_seq_len_lax dbg arr) pos (d_read_seq_len_lax dbg (at_pos pos)).
Proof.
  intros P. unfold D_read_seq_len_lax, d_read_seq_len_lax. apply sim_bind; [exact P | apply sim_read, P|]. intros v q Q. pose proof (inside_le _ _ P Q) as P'.
  apply sim_if; intros _; [|apply sim_ok, P']. 
  assert (U : forall w, sub8 dbg v 128 = Some w -> 0 <= w < 256).
  { intros w. unfold sub8, uchk. destruct ((0 <=? v - 128) && (v - 128 <? 2 ^ 8)) eqn:E.
    - intros X. injection X as <-. apply andb_true_iff in E. destruct E as [E1 E2]. apply Z.leb_le in E1. apply Z.ltb_lt in E2. change (2 ^ 8) with 256 in E2. lia.
    - destruct dbg; [discriminate|]. intros X. injection X as <-. apply Z.mod_pos_bound. reflexivity. }
  destruct (sub8 dbg v 128) as [w|]; [|reflexivity]. specialize (U w eq_refl). eapply sim_some; [reflexivity|]. cbn [bind].
  apply sim_remaining; [exact P'|]. apply sim_if; intros _; [apply sim_err, P'|].
  apply (sim_skip _ q w (fun d => Some (Ok (w, d)))); [exact P' | rewrite p63; lia|]. intros q' Q'. apply sim_ok. exact (inside_le _ _ P' Q').
Qed.
Lemma sim_lax_len_loop k : forall ret pos, inside pos -> sim (D_lax_len_loop dbg arr k ret) pos (lax_len_loop dbg k ret (at_pos pos)).
Proof.
  induction k as [|k IH]; intros ret pos P; cbn [D_lax_len_loop lax_len_loop]; [apply sim_ok, P|].
  apply sim_bind; [exact P | apply sim_read, P|]. intros v q Q. pose proof (inside_le _ _ P Q) as P'.
  apply sim_lift. intros w. apply IH, P'.
Qed.
Lemma sim_read_len_lax pos : inside pos -> sim (D_read_len_lax dbg arr) pos (d_read_len_lax dbg (at_pos pos)).
Proof.
  intros P. unfold D_read_len_lax, d_read_len_lax. apply sim_bind; [exact P | apply sim_read, P|]. intros v q Q. pose proof (inside_le _ _ P Q) as P'.
  apply sim_bind; [exact P' | |].
  - apply sim_if; intros _; [|apply sim_ok, P'].
    assert (U : forall w, sub8 dbg v 128 = Some w -> 0 <= w < 256).
    { intros w. unfold sub8, uchk. destruct ((0 <=? v - 128) && (v - 128 <? 2 ^ 8)) eqn:E.
      - intros X. injection X as <-. apply andb_true_iff in E. destruct E as [E1 E2]. apply Z.leb_le in E1. apply Z.ltb_lt in E2. change (2 ^ 8) with 256 in E2. lia.
      - destruct dbg; [discriminate|]. intros X. injection X as <-. apply Z.mod_pos_bound. reflexivity. }
    destruct (sub8 dbg v 128) as [w|]; [|reflexivity]. specialize (U w eq_refl). eapply sim_some; [reflexivity|]. cbn [bind].
    apply sim_remaining; [exact P'|]. apply sim_if; intros _; [apply sim_err, P'|].
    rewrite lax_skip_zeros_eq, swap_bind. apply sim_bind; [exact P' | apply sim_skip_zeros_both; [exact P' | rewrite p63; lia | lia]|].
    intros k q2 Q2. pose proof (inside_le _ _ P' Q2) as P2. apply sim_if; intros _; [apply sim_err, P2 | apply sim_lax_len_loop, P2].
  - intros r q2 Q2. pose proof (inside_le _ _ P' Q2) as P2. apply sim_remaining; [exact P2|]. apply sim_if; intros _; [apply sim_err, P2 | apply sim_ok, P2].
Qed.
Lemma bytes_at pos : bytes arr -> bytes (at_pos pos).
Proof. intros B. apply bytes_skipn, B. Qed.
Lemma sim_weak {A} (m : dm A) pos o : sim m pos o -> forall B (f : A -> dm B) g, inside pos ->
  (forall a pos', pos <= pos' <= len arr -> o = Some (Ok (a, at_pos pos')) -> sim (f a) pos' (g (a, at_pos pos'))) -> sim (dbind m f) pos (rbind o g).
Proof.
  intros H B f g P F. destruct o as [[[a d']|e]|]; cbn [rbind].
  - destruct H as (q & E & R & ->). specialize (F a q R eq_refl). unfold sim in *. rewrite (dbind_ok _ _ _ _ _ E).
    destruct (g (a, at_pos q)) as [[[b d2]|e]|]; [| |exact F].
    + destruct F as (q' & -> & R' & ->). exists q'. split; [reflexivity|]. split; [lia | reflexivity].
    + destruct F as (q' & -> & R'). exists q'. split; [reflexivity | lia].
  - destruct H as (q & E & R). unfold sim. rewrite (dbind_err _ _ _ _ _ E). exists q. auto.
  - unfold sim, dbind. cbn [sim] in H. rewrite H. reflexivity.
Qed.
Lemma sim_integer_lax pos : bytes arr -> inside pos -> sim (D_read_integer_lax dbg arr) pos (d_read_integer_lax dbg (at_pos pos)).
Proof.
  intros B P. unfold D_read_integer_lax, d_read_integer_lax. apply sim_bind; [exact P | apply sim_read, P|]. intros v q Q. pose proof (inside_le _ _ P Q) as P'.
  apply sim_if; intros _; [apply sim_err, P'|]. apply sim_weak; [apply sim_read_len_lax, P' | exact P'|].
  intros k q2 Q2 E2. pose proof (inside_le _ _ P' Q2) as P2.
  assert (K : 0 <= k <= len (at_pos q2)).
  { pose proof (d_read_len_lax_inv dbg (at_pos q) (bytes_at q B)) as W. rewrite E2 in W. cbn [wpr] in W. destruct W as (e & Ee & Le & Lk).
    split; [|exact Lk]. assert (Be : bytes e) by (pose proof (bytes_at q B) as Bq; rewrite Ee in Bq; apply Forall_app in Bq; apply Bq). exact (lax_length_pos k e Be Le). }
  rewrite at_len in K by exact P2. unfold inside in P2. pose proof (conj (proj1 P2) (proj2 P2) : inside q2) as P2'.
  rewrite swap_bind. apply sim_weak; [apply sim_skip_zeros_both; [exact P2' | rewrite p63 in *; lia | lia] | exact P2'|].
  intros k' q3 Q3 E3. pose proof (inside_le _ _ P2' Q3) as P3.
  assert (K' : 0 <= k').
  { pose proof (skip_zeros_wp (at_pos q2) k (bytes_at q2 B) ltac:(lia)) as W. destruct (skip_zeros (at_pos q2) k) as [[[d3 k3]|e]|]; try discriminate E3. cbn [wpr] in W. cbn [swap_answer] in E3. injection E3 as -> _.
    destruct W as (j & _ & _ & W & _). exact W. }
  destruct (Z.ltb_spec 32 k'); [apply sim_ok, P3 | apply sim_read_scalar; [exact P3 | lia]].
Qed.
Lemma peek_same {B} pos k v (f : Z -> dm B) o : inside pos -> (k <= 32)%nat -> d_peek (at_pos pos) k = Some (Ok v) -> sim (f v) pos o -> sim (dbind (D_peek dbg arr (Z.of_nat k)) f) pos o.
Proof. intros P K E H. unfold sim, dbind. rewrite peek_at by assumption. rewrite E. exact H. Qed.
Lemma sim_peek_test pos (c : bool) : inside pos -> forall B (f : bool -> dm B) g, (forall x, sim (f x) pos (g x)) ->
  sim (dbind (if c then let> b1 := D_peek dbg arr 1 in dok (Z.land b1 128 =? 0) else dok false) f) pos
      (rbind (if c then let? b1 := d_peek (at_pos pos) 1 in Some (Ok (Z.land b1 128 =? 0)) else Some (Ok false)) g).
Proof.
  intros P B f g H. destruct c; [|apply H]. pose proof (peek_at pos 1 P ltac:(lia)) as E. change (Z.of_nat 1) with 1 in E.
  destruct (d_peek (at_pos pos) 1) as [[v|e]|].
  - unfold sim, dbind. rewrite E. cbn [rbind dok]. apply H.
  - unfold sim, dbind. rewrite E. cbn [rbind]. exists pos. split; [reflexivity | unfold inside in P; lia].
  - unfold sim, dbind. rewrite E. reflexivity.
Qed.
Lemma sim_integer pos : bytes arr -> len arr < 2 ^ 55 -> inside pos -> sim (D_read_integer dbg arr) pos (d_read_integer dbg (at_pos pos)).
Proof.
  intros B L55 P. unfold D_read_integer, d_read_integer. apply sim_bind; [exact P | apply sim_read, P|]. intros v q Q. pose proof (inside_le _ _ P Q) as P'.
  apply sim_if; intros _; [apply sim_err, P'|]. apply sim_weak; [apply sim_read_len, P' | exact P'|].
  intros k q2 Q2 E2. pose proof (inside_le _ _ P' Q2) as P2.
  assert (K : 0 <= k < 2 ^ 55).
  { pose proof (d_read_len_wp dbg (at_pos q) (bytes_at q B) ltac:(rewrite at_len by exact P'; unfold inside in P'; lia)) as W. rewrite E2 in W. cbn [wpr] in W. apply W. }
  apply sim_remaining; [exact P2|]. destruct ((k =? 0) || (remaining_len (at_pos q2) <? k)); [apply sim_err, P2|].
  pose proof (peek_at q2 0 P2 ltac:(lia)) as EP. change (Z.of_nat 0) with 0 in EP. destruct (d_peek (at_pos q2) 0) as [[b0|e]|]; cbn [rbind].
  2:{ unfold sim. rewrite (dbind_err _ _ _ _ _ EP). exists q2. split; [reflexivity | unfold inside in P2; lia]. }
  2:{ unfold sim, dbind. rewrite EP. reflexivity. }
  assert (SP : forall C (f : Z -> dm C) o, sim (f b0) q2 o -> sim (dbind (D_peek dbg arr 0) f) q2 o) by (intros C f o H; unfold sim; rewrite (dbind_ok _ _ _ _ _ EP); exact H).
  apply SP. apply sim_peek_test; [exact P2|]. intros x. apply sim_if; intros _; [apply sim_err, P2|].
  apply SP. apply sim_peek_test; [exact P2|]. intros y. apply sim_if; intros _; [apply sim_err, P2|].
  apply SP. apply sim_pure. cbn [bind]. rewrite swap_bind. apply sim_weak; [apply sim_skip_zeros_both; [exact P2 | rewrite p63; change (2 ^ 55) with 36028797018963968 in K; lia | lia] | exact P2|].
  intros k' q3 Q3 E3. pose proof (inside_le _ _ P2 Q3) as P3.
  assert (K' : 0 <= k').
  { pose proof (skip_zeros_wp (at_pos q2) k (bytes_at q2 B) ltac:(lia)) as W. destruct (skip_zeros (at_pos q2) k) as [[[d3 k3]|e]|]; try discriminate E3. cbn [wpr] in W. cbn [swap_answer] in E3. injection E3 as -> _.
    destruct W as (j & _ & _ & W & _). exact W. }
  apply sim_pure. cbn [bind]. destruct ((Z.land b0 128 =? 128) || (32 <? k')) eqn:O; cbn [negb]; [apply sim_ok, P3|].
  apply orb_false_iff in O. destruct O as [_ O]. apply Z.ltb_ge in O. apply sim_read_scalar; [exact P3 | lia].
Qed.
Lemma sim_parse : bytes arr -> len arr < 2 ^ 55 -> exists d,
  sim (D_parse_der dbg arr) 0 (match sig_parse_der dbg arr with Some (Ok g) => Some (Ok (g, d)) | Some (Err e) => Some (Err e) | None => None end).
Proof.
  intros B L. assert (P : inside 0) by (unfold inside; lia).
  assert (E : forall o : option (result (signature * list Z)), sim (D_parse_der dbg arr) 0 o ->
     sig_parse_der dbg arr = rbind o (fun '(g, _) => Some (Ok g)) ->
     exists d, sim (D_parse_der dbg arr) 0 (match sig_parse_der dbg arr with Some (Ok g) => Some (Ok (g, d)) | Some (Err e) => Some (Err e) | None => None end)).
  { intros [[[g d]|e]|] H ->; [exists d | exists [] | exists []]; exact H. }
  apply (E (rbind (rbind (d_read_constructed_sequence arr) (fun d => Some (Ok (tt, d)))) (fun '(_, d) => let? '(rlen, d) := d_read_len dbg d in
    if negb (rlen =? remaining_len d) then derr else
    let? '(r, d) := d_read_integer dbg d in let? '(s, d) := d_read_integer dbg d in
    if negb (remaining_len d =? 0) then derr else Some (Ok (Sig r s, d))))).
  - unfold D_parse_der. change arr with (at_pos 0) at 2. apply sim_bind; [exact P | apply sim_sequence, P|]. intros _ q Q. pose proof (inside_le _ _ P Q) as P'.
    apply sim_bind; [exact P' | apply sim_read_len, P'|]. intros k q2 Q2. pose proof (inside_le _ _ P' Q2) as P2. apply sim_remaining; [exact P2|].
    apply sim_if; intros _; [apply sim_err, P2|]. apply sim_bind; [exact P2 | apply sim_integer; assumption|]. intros r q3 Q3. pose proof (inside_le _ _ P2 Q3) as P3.
    apply sim_bind; [exact P3 | apply sim_integer; assumption|]. intros t q4 Q4. pose proof (inside_le _ _ P3 Q4) as P4. apply sim_remaining; [exact P4|].
    apply sim_if; intros _; [apply sim_err, P4 | apply sim_ok, P4].
  - unfold sig_parse_der. destruct (d_read_constructed_sequence arr) as [[d|e]|]; [|reflexivity|reflexivity]. cbn [rbind].
    destruct (d_read_len dbg d) as [[[k d1]|e]|]; [|reflexivity|reflexivity]. cbn [rbind]. destruct (negb (k =? remaining_len d1)); [reflexivity|].
    destruct (d_read_integer dbg d1) as [[[r d2]|e]|]; [|reflexivity|reflexivity]. cbn [rbind].
    destruct (d_read_integer dbg d2) as [[[t d3]|e]|]; [|reflexivity|reflexivity]. cbn [rbind]. destruct (negb (remaining_len d3 =? 0)); reflexivity.
Qed.
Lemma sim_parse_lax : bytes arr -> exists d,
  sim (D_parse_der_lax dbg arr) 0 (match sig_parse_der_lax dbg arr with Some (Ok g) => Some (Ok (g, d)) | Some (Err e) => Some (Err e) | None => None end).
Proof.
  intros B. assert (P : inside 0) by (unfold inside; lia).
  assert (E : forall o : option (result (signature * list Z)), sim (D_parse_der_lax dbg arr) 0 o ->
     sig_parse_der_lax dbg arr = rbind o (fun '(g, _) => Some (Ok g)) ->
     exists d, sim (D_parse_der_lax dbg arr) 0 (match sig_parse_der_lax dbg arr with Some (Ok g) => Some (Ok (g, d)) | Some (Err e) => Some (Err e) | None => None end)).
  { intros [[[g d]|e]|] H ->; [exists d | exists [] | exists []]; exact H. }
  apply (E (rbind (rbind (d_read_constructed_sequence arr) (fun d => Some (Ok (tt, d)))) (fun '(_, d) => let? '(_, d) := d_read_seq_len_lax dbg d in
    let? '(r, d) := d_read_integer_lax dbg d in let? '(s, d) := d_read_integer_lax dbg d in Some (Ok (Sig r s, d))))).
  - unfold D_parse_der_lax. change arr with (at_pos 0) at 2. apply sim_bind; [exact P | apply sim_sequence, P|]. intros _ q Q. pose proof (inside_le _ _ P Q) as P'.
    apply sim_bind; [exact P' | apply sim_seq_len_lax, P'|]. intros k q2 Q2. pose proof (inside_le _ _ P' Q2) as P2.
    apply sim_bind; [exact P2 | apply sim_integer_lax; assumption|]. intros r q3 Q3. pose proof (inside_le _ _ P2 Q3) as P3.
    apply sim_bind; [exact P3 | apply sim_integer_lax; assumption|]. intros t q4 Q4. apply sim_ok. exact (inside_le _ _ P3 Q4).
  - unfold sig_parse_der_lax. destruct (d_read_constructed_sequence arr) as [[d|e]|]; [|reflexivity|reflexivity]. cbn [rbind].
    destruct (d_read_seq_len_lax dbg d) as [[[k d1]|e]|]; [|reflexivity|reflexivity]. cbn [rbind].
    destruct (d_read_integer_lax dbg d1) as [[[r d2]|e]|]; [|reflexivity|reflexivity]. cbn [rbind].
    destruct (d_read_integer_lax dbg d2) as [[[t d3]|e]|]; reflexivity.
Qed.

(** ** any sequence of calls *)
Lemma sim_moves {A} (m : dm A) pos o Q : sim m pos o -> wpr o Q -> exists x pos', m pos = Some (x, pos') /\ pos <= pos' <= len arr.
Proof.
  intros H W. destruct o as [[[a d]|e]|]; cbn [wpr] in W; [| |contradiction].
  - destruct H as (q & E & R & _). exists (Ok a), q. auto.
  - destruct H as (q & E & R). exists (Err e), q. auto.
Qed.
End Array.

(** * Specification: sequences of calls on a decoder *)
Inductive call :=
  | CRemaining | CRead | CPeek (forward : Z) | CPeekSlice (count : Z) | CSkip (count : Z)
  | CSequence | CLen | CInteger | CSeqLenLax | CLenLax | CIntegerLax.
(** the arguments a caller may pass: up to [isize::MAX], the longest possible array *)
Definition call_ok (c : call) : Prop :=
  match c with CPeek k | CPeekSlice k | CSkip k => 0 <= k < 2 ^ 63 | _ => True end.
Definition new_pos {A} (o : option (result A * Z)) : option Z := match o with Some (_, q) => Some q | None => None end.
(** the position after a call, whether it answered [Ok] or [Err]; [None] is a panic *)
Definition call_pos (dbg : bool) (arr : list Z) (c : call) (pos : Z) : option Z :=
  match c with
  | CRemaining => new_pos (D_remaining_len dbg arr pos)
  | CRead => new_pos (D_read dbg arr pos)
  | CPeek k => new_pos (D_peek dbg arr k pos)
  | CPeekSlice k => new_pos (D_peek_slice dbg arr k pos)
  | CSkip k => new_pos (D_skip dbg arr k pos)
  | CSequence => new_pos (D_read_constructed_sequence dbg arr pos)
  | CLen => new_pos (D_read_len dbg arr pos)
  | CInteger => new_pos (D_read_integer dbg arr pos)
  | CSeqLenLax => new_pos (D_read_seq_len_lax dbg arr pos)
  | CLenLax => new_pos (D_read_len_lax dbg arr pos)
  | CIntegerLax => new_pos (D_read_integer_lax dbg arr pos)
  end.
Fixpoint calls_pos (dbg : bool) (arr : list Z) (cs : list call) (pos : Z) : option Z :=
  match cs with [] => Some pos | c :: cs => let* pos := call_pos dbg arr c pos in calls_pos dbg arr cs pos end.

Lemma call_moves dbg arr c pos : bytes arr -> len arr < 2 ^ 55 -> call_ok c -> 0 <= pos <= len arr ->
  exists pos', call_pos dbg arr c pos = Some pos' /\ pos <= pos' <= len arr.
Proof.
  intros B L C P. assert (L63 : len arr < 2 ^ 63) by (rewrite p63; change (2 ^ 55) with 36028797018963968 in L; lia).
  assert (AL : len (at_pos arr pos) < 2 ^ 55) by (rewrite at_len by exact P; lia). pose proof (bytes_at arr pos B) as BA.
  assert (G : forall A (m : dm A) o Q, sim arr m pos o -> wpr o Q -> exists pos', new_pos (m pos) = Some pos' /\ pos <= pos' <= len arr).
  { intros A m o Q H W. destruct (sim_moves arr m pos o Q H W) as (x & q & E & R). exists q. rewrite E. auto. }
  assert (SELF : exists pos', Some pos = Some pos' /\ pos <= pos' <= len arr) by (exists pos; split; [reflexivity | lia]).
  destruct c; cbn [call_pos call_ok] in *.
  - rewrite remaining_at by assumption. exact SELF.
  - eapply G; [apply sim_read; assumption | apply d_read_wp, BA].
  - unfold D_peek, add64. rewrite uchk_ok by (rewrite p64; rewrite p63 in *; lia). cbn [bind]. destruct (Z.leb_spec (len arr) (pos + forward)); [exact SELF|].
    destruct (skipn_at arr (pos + forward) ltac:(lia)) as (v & -> & _). exact SELF.
  - unfold D_peek_slice, add64. destruct (_ && _); [exact SELF|]. rewrite uchk_ok by (rewrite p64; rewrite p63 in *; lia). cbn [bind]. destruct (Z.ltb_spec (len arr) (pos + count)); [exact SELF|].
    unfold slice. destruct (Z.ltb_spec (pos + count) pos); [lia|]. destruct (Z.ltb_spec (len arr) (pos + count)); [lia|]. exact SELF.
  - unfold D_skip, add64. destruct (_ && _); [exact SELF|]. rewrite uchk_ok by (rewrite p64; rewrite p63 in *; lia). cbn [bind]. destruct (Z.ltb_spec (len arr) (pos + count)); [exact SELF|].
    exists (pos + count). split; [reflexivity | lia].
  - eapply (G _ _ _ (fun _ => True)); [apply sim_sequence; assumption|]. unfold d_read_constructed_sequence. destruct (at_pos arr pos) as [|v t]; [reflexivity|]. cbn [d_read rbind]. destruct (v =? 48); [exact I | reflexivity].
  - eapply G; [apply sim_read_len; assumption | apply d_read_len_wp; assumption].
  - eapply G; [apply sim_integer; assumption | apply d_read_integer_wp; assumption].
  - eapply (G _ _ _ (fun _ => True)); [apply sim_seq_len_lax; assumption|]. unfold d_read_seq_len_lax. eapply wpr_bind; [apply d_read_wp, BA|]. intros [v u] (V & Bu & E). rewrite land128 by exact V. destruct (Z.ltb_spec v 128); cbn [negb]; [exact I|].
    unfold sub8. rewrite uchk_ok by (change (2 ^ 8) with 256; lia). cbn [bind]. destruct (remaining_len u <? v - 128); [reflexivity|].
    unfold d_skip. destruct (bad_span _ _); [reflexivity | exact I].
  - eapply G; [apply sim_read_len_lax; assumption | apply d_read_len_lax_wp, BA].
  - eapply G; [apply sim_integer_lax; assumption | apply d_read_integer_lax_wp, BA].
Qed.

(** * C71 *)
(** Any sequence of calls on a decoder, also after errors, neither panics nor moves backwards nor past
    the end of the array. *)
Lemma C71_decoder_calls_pf : forall dbg arr cs pos, bytes arr -> len arr < 2 ^ 55 -> Forall call_ok cs -> 0 <= pos <= len arr ->
  exists pos', calls_pos dbg arr cs pos = Some pos' /\ pos <= pos' <= len arr.
Proof.
  intros dbg arr cs pos B L C. revert pos. induction C as [|c cs Hc _ IH]; intros pos P; cbn [calls_pos].
  - exists pos. split; [reflexivity | lia].
  - destruct (call_moves dbg arr c pos B L Hc P) as (q & -> & Q). cbn [bind]. destruct (IH q ltac:(lia)) as (q' & -> & Q'). exists q'. split; [reflexivity | lia].
Qed.
Lemma C71_decoder_calls_example_pf :
  bytes [48; 6; 2; 1; 5; 2; 1; 9] /\ Forall call_ok [CSequence; CPeek 4; CLen; CInteger; CSkip 9; CIntegerLax] /\
  calls_pos true [48; 6; 2; 1; 5; 2; 1; 9] [CSequence; CPeek 4; CLen; CInteger; CSkip 9; CIntegerLax] 0 = Some 8.
Proof. split; [repeat constructor; lia|]. split; [repeat constructor; cbn; lia | vmr]. Qed.
(** With an argument no array length allows, [skip] moves backwards in release builds. *)
Lemma C71_decoder_calls_refuted_pf : exists arr k, 0 <= k < 2 ^ 64 /\ bytes arr /\
  calls_pos false arr [CRead; CSkip k] 0 = Some 0 /\ calls_pos true arr [CRead; CSkip k] 0 = None.
Proof. exists [7; 8], (2 ^ 64 - 1). split; [rewrite p64; lia|]. split; [repeat constructor; lia | split; vmr]. Qed.
(** Parsing with the array and the position of the code gives the answers of the model on suffixes. *)
Lemma C71_parse_der_pf : forall dbg b, bytes b -> len b < 2 ^ 55 -> exists x pos,
  D_parse_der dbg b 0 = Some (x, pos) /\ sig_parse_der dbg b = Some x /\ 0 <= pos <= len b.
Proof.
  intros dbg b B L. assert (L63 : len b < 2 ^ 63) by (rewrite p63; change (2 ^ 55) with 36028797018963968 in L; lia).
  destruct (sim_parse dbg b L63 B L) as (d & H). pose proof (sig_parse_der_wp dbg b B L) as W.
  destruct (sig_parse_der dbg b) as [[g|e]|]; cbn [sim wpr] in *; [| |contradiction].
  - destruct H as (q & E & R & _). exists (Ok g), q. split; [exact E|]. split; [reflexivity | lia].
  - destruct H as (q & E & R). exists (Err e), q. split; [exact E|]. split; [reflexivity | lia].
Qed.
Lemma C71_parse_der_example_pf : bytes [48; 6; 2; 1; 5; 2; 1; 9] /\ D_parse_der true [48; 6; 2; 1; 5; 2; 1; 9] 0 = Some (Ok (Sig (scalar_of 5) (scalar_of 9)), 8) /\
  D_parse_der true [48; 6; 2; 1; 5; 2; 2; 9] 0 = Some (Err InvalidSignature, 7).
Proof. split; [repeat constructor; lia | split; vmr]. Qed.
Lemma C71_parse_der_lax_pf : forall dbg b, bytes b -> len b < 2 ^ 63 -> exists x pos,
  D_parse_der_lax dbg b 0 = Some (x, pos) /\ sig_parse_der_lax dbg b = Some x /\ 0 <= pos <= len b.
Proof.
  intros dbg b B L. destruct (sim_parse_lax dbg b L B) as (d & H). pose proof (sig_parse_der_lax_wp dbg b B) as W.
  destruct (sig_parse_der_lax dbg b) as [[g|e]|]; cbn [sim wpr] in *; [| |contradiction].
  - destruct H as (q & E & R & _). exists (Ok g), q. split; [exact E|]. split; [reflexivity | lia].
  - destruct H as (q & E & R). exists (Err e), q. split; [exact E|]. split; [reflexivity | lia].
Qed.
Lemma C71_parse_der_lax_example_pf : bytes [48; 6; 2; 1; 5; 2; 129; 1; 9; 77] /\ D_parse_der_lax true [48; 6; 2; 1; 5; 2; 129; 1; 9; 77] 0 = Some (Ok (Sig (scalar_of 5) (scalar_of 9)), 9).
Proof. split; [repeat constructor; lia | vmr]. Qed.

(** ** SignatureArray *)
Lemma slice_split a m b : slice (a ++ m ++ b) (len a) (len a + len m) = Some m.
Proof.
  unfold slice. rewrite !app_length. destruct (Z.ltb_spec (len a + len m) (len a)); [lia|]. cbn [orb].
  destruct (Z.ltb_spec (Z.of_nat (length a + (length m + length b))) (len a + len m)); [lia|]. replace (len a + len m - len a) with (len m) by lia. rewrite !Nat2Z.id.
  rewrite skipn_app, skipn_all, Nat.sub_diag. cbn [skipn app]. rewrite firstn_app, Nat.sub_diag, firstn_all. cbn [firstn]. rewrite app_nil_r. reflexivity.
Qed.
Lemma slice_suffix a m : slice (a ++ m) (len a) (len (a ++ m)) = Some m.
Proof. pose proof (slice_split a m []) as H. rewrite app_nil_r in H. rewrite app_length, Nat2Z.inj_add. exact H. Qed.
Lemma upd_at (a : list Z) x b v : upd (a ++ x :: b) (len a) v = Some (a ++ v :: b).
Proof.
  unfold upd. destruct (Z.ltb_spec (len a) 0); [lia|]. rewrite Nat2Z.id. clear. induction a as [|y a IH]; [reflexivity|]. cbn [length app upd_nat]. rewrite IH. reflexivity.
Qed.
Lemma copy_at a m b src : length m = length src -> copy_range (a ++ m ++ b) (len a) (len a + len m) src = Some (a ++ src ++ b).
Proof.
  intros L. unfold copy_range. rewrite slice_split. cbn [bind]. rewrite L, Nat.eqb_refl. cbn [hassert bind]. rewrite Nat2Z.id, firstn_app, Nat.sub_diag, firstn_all. cbn [firstn]. rewrite app_nil_r. do 3 f_equal.
  replace (Z.to_nat (len a + len src)) with (length a + length m)%nat by lia. rewrite app_assoc, <- app_length, skipn_app, skipn_all, Nat.sub_diag. reflexivity.
Qed.
Lemma integer_slice_suffix t : exists a, t = a ++ integer_slice t.
Proof.
  induction t as [|a t IH]; [exists []; reflexivity|]. destruct t as [|b t]; [exists []; reflexivity|]. rewrite integer_slice_eq. destruct ((a =? 0) && (b <? 128)); [|exists []; reflexivity].
  destruct IH as (u & E). exists (a :: u). cbn [app]. rewrite <- E. reflexivity.
Qed.
Lemma integer_len_ok dbg : forall t a fuel, (length t <= fuel)%nat -> len (a ++ t) < 2 ^ 63 -> integer_len dbg (a ++ t) fuel (len t) = Some (len (integer_slice t)).
Proof.
  induction t as [|x t IH]; intros a fuel F L.
  - destruct fuel; reflexivity.
  - destruct fuel as [|fuel]; [cbn [length] in F; lia|]. cbn [integer_len]. destruct t as [|y t]; [reflexivity|].
    destruct (Z.ltb_spec 1 (len (x :: y :: t))) as [_|H]; [|cbn [length] in H; lia].
    assert (LL : len (a ++ x :: y :: t) = len a + len (x :: y :: t)) by (rewrite app_length; lia).
    unfold sub64 at 1. rewrite LL. replace (len a + len (x :: y :: t) - len (x :: y :: t)) with (len a) by lia. rewrite uchk_ok by (rewrite p64; rewrite p63 in L; lia). cbn [bind].
    assert (I0 : idx (a ++ x :: y :: t) (len a) = Some x) by (unfold idx; destruct (Z.ltb_spec (len a) 0); [lia|]; rewrite Nat2Z.id, nth_error_app2, Nat.sub_diag by lia; reflexivity).
    rewrite I0. cbn [bind]. rewrite integer_slice_eq. destruct (x =? 0); [|reflexivity]. cbn [andb].
    unfold add64. rewrite uchk_ok by (rewrite p64; rewrite p63 in L; cbn [length] in LL; lia). cbn [bind].
    assert (I1 : idx (a ++ x :: y :: t) (len a + 1) = Some y) by (unfold idx; destruct (Z.ltb_spec (len a + 1) 0); [lia|]; rewrite nth_error_app2 by lia; replace (Z.to_nat (len a + 1) - length a)%nat with 1%nat by lia; reflexivity).
    rewrite I1. cbn [bind]. destruct (y <? 128); [|reflexivity].
    unfold sub64. rewrite uchk_ok by (rewrite p64; rewrite p63 in L; cbn [length] in *; lia). cbn [bind].
    replace (len (x :: y :: t) - 1) with (len (y :: t)) by (cbn [length]; lia).
    replace (a ++ x :: y :: t) with ((a ++ [x]) ++ y :: t) by (rewrite <- app_assoc; reflexivity). apply IH; [cbn [length] in *; lia|]. rewrite <- app_assoc. exact L.
Qed.
Lemma integer_slice_at_ok dbg full : length full = 33%nat -> integer_slice_at dbg full = Some (integer_slice full).
Proof.
  intros L. unfold integer_slice_at. pose proof (integer_len_ok dbg full [] 33 ltac:(lia) ltac:(cbn [app]; rewrite L, p63; lia)) as E. cbn [app] in E. rewrite L in E. change (Z.of_nat 33) with 33 in E. rewrite E. cbn [bind].
  destruct (integer_slice_suffix full) as (a & Ea). set (s := integer_slice full) in *. assert (LL : len full = len a + len s) by (rewrite Ea, app_length; lia).
  rewrite LL. unfold sub64. replace (len a + len s - len s) with (len a) by lia. rewrite uchk_ok by (rewrite p64; lia). cbn [bind].
  rewrite <- LL. rewrite Ea. apply slice_suffix.
Qed.
Lemma integer_slice_len full : length full = 33%nat -> 1 <= len (integer_slice full) <= 33.
Proof.
  intros L. destruct (integer_slice_suffix full) as (a & Ea). pose proof (f_equal (@length Z) Ea) as LE. rewrite app_length in LE. split; [|lia].
  assert (N : forall t, t <> [] -> integer_slice t <> []).
  { clear. induction t as [|x t IH]; [contradiction|]. intros _. destruct t as [|y t]; [discriminate|]. rewrite integer_slice_eq. destruct (_ && _); [apply IH; discriminate | discriminate]. }
  specialize (N full). destruct (integer_slice full); [exfalso; apply N; [destruct full; discriminate | reflexivity] | cbn [length]; lia].
Qed.
(** The signature array [serialize_der] fills holds exactly the encoding, in both builds, without panicking. *)
Lemma C71_signature_array_pf : forall dbg g, exists a,
  sa_serialize_der dbg g = Some a /\ sa_as_ref a = Some (sig_serialize_der g) /\ sa_len a = len (sig_serialize_der g) /\ 8 <= sa_len a <= 72 /\ sa_is_empty a = false.
Proof.
  intros dbg g. unfold sa_serialize_der, sig_serialize_der. cbn [bind].
  assert (LB : forall x, length (0 :: s_b32 x) = 33%nat) by (intros []; reflexivity).
  rewrite !integer_slice_at_ok by apply LB. cbn [bind].
  pose proof (integer_slice_len _ (LB (sig_r g))) as Lr. pose proof (integer_slice_len _ (LB (sig_s g))) as Ls.
  set (r := integer_slice (0 :: s_b32 (sig_r g))) in *. set (s := integer_slice (0 :: s_b32 (sig_s g))) in *. clearbody r s.
  unfold add64. rewrite !uchk_ok by (rewrite p64; lia). cbn [bind]. rewrite !uchk_ok by (rewrite p64; lia). cbn [bind].
  assert (A8 : forall x, 1 <= x <= 33 -> as_u8 x = x) by (intros x H; unfold as_u8; apply Z.mod_small; change (2 ^ 8) with 256; lia).
  rewrite !A8 by assumption. unfold as_u8. rewrite (Z.mod_small (4 + len r + len s)) by (change (2 ^ 8) with 256; lia).
  unfold sa_new, sa_as_mut.
  assert (Z0 : repeat 0 72 = [] ++ repeat 0 (6 + length r + length s) ++ repeat 0 (66 - length r - length s)) by (cbn [app]; rewrite <- repeat_app; f_equal; lia).
  assert (S0 : slice (repeat 0 72) 0 (6 + len r + len s) = Some (repeat 0 (6 + length r + length s))).
  { rewrite Z0. pose proof (slice_split [] (repeat 0 (6 + length r + length s)) (repeat 0 (66 - length r - length s))) as SP. change (len (@nil Z)) with 0 in SP. rewrite repeat_length in SP.
    replace (6 + len r + len s) with (0 + Z.of_nat (6 + length r + length s)) by lia. exact SP. }
  rewrite S0. cbn [bind].
  assert (Z1 : repeat 0 (6 + length r + length s) = [0; 0; 0; 0] ++ repeat 0 (length r) ++ 0 :: 0 :: repeat 0 (length s)).
  { replace (6 + length r + length s)%nat with (4 + (length r + (2 + length s)))%nat by lia. rewrite !repeat_app. reflexivity. }
  rewrite Z1. 
  rewrite (upd_at [] 0 ([0; 0; 0] ++ repeat 0 (length r) ++ 0 :: 0 :: repeat 0 (length s)) 48 : upd ([0; 0; 0; 0] ++ repeat 0 (length r) ++ 0 :: 0 :: repeat 0 (length s)) 0 48 = _). cbn [bind app].
  unfold add8. rewrite (uchk_ok 8 dbg (4 + len r)) by (change (2 ^ 8) with 256; lia). cbn [bind]. rewrite (uchk_ok 8 dbg (4 + len r + len s)) by (change (2 ^ 8) with 256; lia). cbn [bind].
  set (T := 4 + len r + len s). set (tail := repeat 0 (length r) ++ 0 :: 0 :: repeat 0 (length s)).
  change (upd (48 :: 0 :: 0 :: 0 :: tail) 1 T) with (Some (48 :: T :: 0 :: 0 :: tail)). cbn [bind].
  change (upd (48 :: T :: 0 :: 0 :: tail) 2 2) with (Some (48 :: T :: 2 :: 0 :: tail)). cbn [bind].
  change (upd (48 :: T :: 2 :: 0 :: tail) 3 (len r)) with (Some (48 :: T :: 2 :: len r :: tail)). cbn [bind].
  unfold add64. try rewrite (uchk_ok 64 dbg (4 + len r)) by (rewrite p64; lia). cbn [bind].
  pose proof (copy_at [48; T; 2; len r] (repeat 0 (length r)) (0 :: 0 :: repeat 0 (length s)) r ltac:(apply repeat_length)) as C1. rewrite repeat_length in C1. change (len [48; T; 2; len r]) with 4 in C1.
  change (48 :: T :: 2 :: len r :: tail) with ([48; T; 2; len r] ++ repeat 0 (length r) ++ 0 :: 0 :: repeat 0 (length s)). rewrite C1. cbn [bind].
  pose proof (upd_at ([48; T; 2; len r] ++ r) 0 (0 :: repeat 0 (length s)) 2) as U1. rewrite app_length, Nat2Z.inj_add in U1. change (Z.of_nat (length [48; T; 2; len r])) with 4 in U1. rewrite <- app_assoc in U1. rewrite U1. cbn [bind].
  try rewrite (uchk_ok 64 dbg (5 + len r)) by (rewrite p64; lia). cbn [bind].
  pose proof (upd_at (([48; T; 2; len r] ++ r) ++ [2]) 0 (repeat 0 (length s)) (len s)) as U2. rewrite !app_length, !Nat2Z.inj_add in U2. change (Z.of_nat (length [48; T; 2; len r])) with 4 in U2. change (len [2]) with 1 in U2.
  replace (4 + len r + 1) with (5 + len r) in U2 by lia. rewrite <- !app_assoc in U2. cbn [app] in U2. rewrite <- !app_assoc. cbn [app]. rewrite U2. cbn [bind].
  try rewrite (uchk_ok 64 dbg (6 + len r)) by (rewrite p64; lia). cbn [bind]. try rewrite (uchk_ok 64 dbg (6 + len r + len s)) by (rewrite p64; lia). cbn [bind].
  pose proof (copy_at (([48; T; 2; len r] ++ r) ++ [2; len s]) (repeat 0 (length s)) [] s ltac:(apply repeat_length)) as C2. rewrite !app_length, !Nat2Z.inj_add, repeat_length in C2. change (Z.of_nat (length [48; T; 2; len r])) with 4 in C2. change (len [2; len s]) with 2 in C2.
  replace (4 + len r + 2) with (6 + len r) in C2 by lia. rewrite !app_nil_r in C2. rewrite <- !app_assoc in C2. cbn [app] in C2. rewrite C2. cbn [bind].
  set (w := 48 :: T :: 2 :: len r :: r ++ 2 :: len s :: s). assert (Lw : len w = 6 + len r + len s) by (unfold w; cbn [length]; rewrite app_length; cbn [length]; lia).
  eexists. split; [reflexivity|]. cbn [sa_as_ref sa_len sa_is_empty]. unfold sa_is_empty. cbn [sa_len].
  split; [|split; [symmetry; exact Lw | split; [lia | apply Z.eqb_neq; lia]]].
  change ([48; T; 2; len r] ++ r ++ [2; len s] ++ s) with w. rewrite <- Lw. pose proof (slice_split [] w (skipn (Z.to_nat (len w)) (repeat 0 72))) as SP. exact SP.
Qed.
Lemma C71_signature_array_example_pf : exists a, sa_serialize_der true (Sig (scalar_of 128) (scalar_of 1)) = Some a /\ sa_as_ref a = Some [48; 7; 2; 2; 0; 128; 2; 1; 1].
Proof. eexists. split; vm_compute; reflexivity. Qed.
(** A fresh array of a given size is that many zero bytes; a size over 72 panics when looked at. *)
Lemma C71_array_size_pf : forall size, 0 <= size ->
  sa_len (sa_new size) = size /\ sa_as_ref (sa_new size) = if size <=? 72 then Some (repeat 0 (Z.to_nat size)) else None.
Proof.
  intros size H. split; [reflexivity|]. unfold sa_as_ref, sa_new. destruct (Z.leb_spec size 72) as [L|L].
  - assert (Z0 : repeat 0 72 = [] ++ repeat 0 (Z.to_nat size) ++ repeat 0 (72 - Z.to_nat size)) by (cbn [app]; rewrite <- repeat_app; f_equal; lia).
    rewrite Z0. pose proof (slice_split [] (repeat 0 (Z.to_nat size)) (repeat 0 (72 - Z.to_nat size))) as SP. change (len (@nil Z)) with 0 in SP. rewrite repeat_length, Z2Nat.id in SP by exact H. exact SP.
  - unfold slice. rewrite repeat_length. destruct (Z.ltb_spec size 0); [lia|]. destruct (Z.ltb_spec (Z.of_nat 72) size); [reflexivity | lia].
Qed.
Lemma C71_array_size_example_pf : sa_as_ref (sa_new 3) = Some [0; 0; 0] /\ sa_as_ref (sa_new 73) = None.
Proof. split; reflexivity. Qed.
