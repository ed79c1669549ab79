(** Serialized public keys: exactly which strings and byte strings stand for which point. *)
From Verif Require Import Word MField MScalar MGroup MDer MApi MBase64 WP Spec Bits Denote Key Base64 ApiScalar ApiPub.

(** the byte strings naming the point (x, y): SEC1 uncompressed, hybrid and compressed, and the two coordinates alone *)
Definition names (b : list Z) (x y : Z) : Prop :=
  on_curve (Aff x y) /\ (b = sec1_full x y \/ b = (6 + y mod 2) :: be_bytes 32 x ++ be_bytes 32 y \/ b = be_bytes 32 x ++ be_bytes 32 y \/ b = sec1_compressed x y).
(** the lengths a public key can have *)
Definition key_length (l : nat) : Prop := l = 33%nat \/ l = 64%nat \/ l = 65%nat.

Lemma key_at_fun k x y x' y' : key_at k (Aff x y) -> key_at k (Aff x' y') -> x = x' /\ y = y'.
Proof. intros (_ & _ & _ & _ & <- & <-) (_ & _ & _ & _ & <- & <-). auto. Qed.
Lemma mod2_cases y : y mod 2 = 0 \/ y mod 2 = 1.
Proof. pose proof (Z.mod_pos_bound y 2 ltac:(lia)). lia. Qed.
Lemma full_bytes t x y : 0 <= t < 256 -> bytes (t :: be_bytes 32 x ++ be_bytes 32 y).
Proof. intros T. constructor; [exact T | apply Forall_app; split; apply bytes_be]. Qed.
Lemma names_bytes b x y : names b x y -> bytes b /\ key_length (length b).
Proof.
  unfold key_length. pose proof (mod2_cases y). intros [_ [->|[->|[->| ->]]]]; unfold sec1_full, sec1_compressed; (split; [|cbn [length]; rewrite ?app_length, !be_len; tauto]).
  - apply full_bytes. lia.
  - apply full_bytes. lia.
  - apply Forall_app; split; apply bytes_be.
  - constructor; [lia | apply bytes_be].
Qed.

(** what parsing a byte string of any length without a format does *)
Lemma slice_names dbg b x y : names b x y -> exists k, pk_parse_slice dbg b None = Some (Ok k) /\ key_at k (Aff x y).
Proof.
  intros N. destruct (names_bytes b x y N) as [B _]. destruct N as [O N]. destruct (on_range _ _ O) as [RX RY]. pose proof (mod2_cases y) as M.
  destruct (C05_parse_slice_pf dbg b None) as (HF & HR & HC & _).
  assert (P : forall t, t = 4 \/ t = 6 + y mod 2 -> exists k, pk_parse dbg (t :: be_bytes 32 x ++ be_bytes 32 y) = Some (Ok k) /\ key_at k (Aff x y)).
  { intros t T. destruct (C03_pubkey_parse_pf dbg t (be_bytes 32 x) (be_bytes 32 y)) as [P _]; [apply be_len | apply be_len | apply full_bytes; lia|].
    rewrite (val_be_bytes_32 x RX), (val_be_bytes_32 y RY) in P. exact (P T O). }
  assert (L : length (be_bytes 32 x ++ be_bytes 32 y) = 64%nat) by (rewrite app_length, !be_len; reflexivity).
  destruct N as [->|[->|[->| ->]]].
  - rewrite HF by (split; [unfold sec1_full; cbn [length fmt_len]; rewrite L; reflexivity | auto]). apply P. auto.
  - rewrite HF by (split; [cbn [length fmt_len]; rewrite L; reflexivity | auto]). apply P. auto.
  - rewrite HR by (split; [rewrite L; reflexivity | auto]). apply P. auto.
  - rewrite HC by (split; [unfold sec1_compressed; cbn [length fmt_len]; rewrite be_len; reflexivity | auto]).
    destruct (C04_pubkey_parse_compressed_pf dbg (2 + y mod 2) (be_bytes 32 x)) as [P2 _]; [apply be_len | constructor; [lia | apply bytes_be]|].
    rewrite (val_be_bytes_32 x RX) in P2. exact (P2 y O eq_refl).
Qed.
Lemma slice_cases dbg b : bytes b ->
  (exists k x y, names b x y /\ pk_parse_slice dbg b None = Some (Ok k) /\ key_at k (Aff x y)) \/
  ((forall x y, ~ names b x y) /\ exists e, pk_parse_slice dbg b None = Some (Err e)).
Proof.
  intros B. destruct (C05_parse_slice_pf dbg b None) as (HF & HR & HC & HN).
  assert (P : forall t c, bytes (t :: c) -> length c = 64%nat -> (exists k x y, on_curve (Aff x y) /\ (t = 4 \/ t = 6 + y mod 2) /\ c = be_bytes 32 x ++ be_bytes 32 y /\ pk_parse dbg (t :: c) = Some (Ok k) /\ key_at k (Aff x y)) \/
    exists e, pk_parse dbg (t :: c) = Some (Err e)).
  { intros t c BC LC. destruct (split_33 (t :: c)) as (t' & bx & b_y & E & LX & LY); [cbn [length]; rewrite LC; reflexivity|]. apply cons_inv in E. destruct E as [<- ->].
    destruct (parse_cases dbg t bx b_y LX LY BC) as [(k & EK & K & T)|EE]; [|right; eauto]. left. exists k, (be_val bx), (be_val b_y).
    split; [apply K|]. split; [exact T|]. apply Forall_cons_iff in BC. destruct BC as [_ BC]. apply Forall_app in BC. destruct BC as [BX BY].
    split; [f_equal; apply be_bytes_unique; auto|]. auto. }
  assert (X : (exists k x y, names b x y /\ pk_parse_slice dbg b None = Some (Ok k) /\ key_at k (Aff x y)) \/ exists e, pk_parse_slice dbg b None = Some (Err e)).
  { assert (D : length b = 65%nat \/ length b = 64%nat \/ length b = 33%nat \/ (length b <> 65%nat /\ length b <> 64%nat /\ length b <> 33%nat)) by lia.
    destruct D as [L|[L|[L|L]]].
    - rewrite HF by (split; [exact (eq_sym L) | auto]). destruct b as [|t c]; [discriminate L|]. injection L as L.
      destruct (P t c B L) as [(k & x & y & O & T & -> & EK & K)|EE]; [left | right; exact EE]. exists k, x, y. split; [|auto]. split; [exact O|]. unfold sec1_full. destruct T as [-> | ->]; auto.
    - rewrite HR by (split; [exact (eq_sym L) | auto]).
      destruct (P 4 b) as [(k & x & y & O & T & EB & EK & K)|EE]; [constructor; [lia | exact B] | exact L | left | right; exact EE]. exists k, x, y. split; [|auto]. split; [exact O|]. auto.
    - rewrite HC by (split; [exact (eq_sym L) | auto]). destruct b as [|t c]; [discriminate L|]. injection L as L.
      destruct (compressed_cases dbg t c L B) as (r & -> & [(y & k & O & T & -> & K)|[_ ->]]); [left | right; eauto]. exists k, (be_val c), y.
      split; [|auto]. split; [exact O|]. right. right. right. unfold sec1_compressed. f_equal; [exact T|]. apply be_bytes_unique; [exact L | apply Forall_cons_iff in B; apply B | reflexivity].
    - right. exists InvalidInputLength. apply HN. intros g [E _]. destruct g; cbn [fmt_len] in E; lia. }
  destruct X as [X|(e & E)]; [left; exact X | right]. split; [|eauto]. intros x y N. destruct (slice_names dbg b x y N) as (k & K & _). rewrite E in K. discriminate K.
Qed.
Lemma names_fun b x y x' y' : names b x y -> names b x' y' -> x = x' /\ y = y'.
Proof.
  intros N N'. destruct (slice_names true b x y N) as (k & E & K). destruct (slice_names true b x' y' N') as (k' & E' & K').
  rewrite E in E'. apply some_inv in E'. injection E' as <-. exact (key_at_fun k x y x' y' K K').
Qed.
Lemma text_slice dbg s b : b64_decode s = Some b -> key_length (length b) ->
  pk_de dbg b64_decode true s = (let* r := pk_parse_slice dbg b None in Some (match r with Ok k => inl k | Err _ => Datatypes.inr (Some InvalidPublicKey) end)).
Proof.
  intros D L. unfold pk_de. rewrite D. unfold pk_parse_slice. destruct L as [-> | [-> | ->]]; reflexivity.
Qed.

(** * C73 *)
(** The engine is base64 as RFC 4648 defines it: [encode] writes the base64 form of the bytes, and [decode] gives bytes back exactly for the strings that are the base64 form of them. *)
Lemma C73_base64_pf : (forall b, bytes b -> is_base64 b (b64_encode b)) /\ (forall s b, b64_decode s = Some b <-> bytes b /\ is_base64 b s).
Proof. split; [exact encode_spec | exact decode_iff]. Qed.
(** "Man" is TWFu, "Ma" is TWE=, "M" is TQ==, and TWF= has a bit set behind the last byte. *)
Lemma C73_base64_example_pf : b64_encode [77; 97; 110] = [84; 87; 70; 117] /\ b64_encode [77; 97] = [84; 87; 69; 61] /\ b64_encode [77] = [84; 81; 61; 61] /\ b64_decode [84; 87; 70; 61] = None /\ b64_decode [84; 81] = None.
Proof. repeat split; reflexivity. Qed.
(** Bytes have one base64 form, and a string is the base64 form of at most one byte string. *)
Lemma C73_one_to_one_pf : (forall b s s', is_base64 b s -> is_base64 b s' -> s = s') /\ (forall b b' s, bytes b -> bytes b' -> is_base64 b s -> is_base64 b' s -> b = b').
Proof. split; [exact is_base64_string_unique | exact is_base64_bytes_unique]. Qed.
Lemma C73_one_to_one_example_pf : is_base64 [77; 97] [84; 87; 69; 61] /\ bytes [77; 97].
Proof. assert (B : bytes [77; 97]) by (repeat constructor; lia). split; [apply (decode_iff [84; 87; 69; 61] [77; 97]); reflexivity | exact B]. Qed.
(** In a human-readable format a key is the 88-character base64 form of its 65-byte encoding, in a binary format that encoding itself. *)
Lemma C73_serialize_pf : forall dbg k x y, key_at k (Aff x y) ->
  pk_ser dbg b64_encode false k = Some (sec1_full x y) /\ exists s, pk_ser dbg b64_encode true k = Some s /\ is_base64 (sec1_full x y) s /\ length s = 88%nat.
Proof.
  intros dbg k x y K. destruct (C06_serialize_pf dbg k x y K) as [S _]. unfold pk_ser. rewrite S. cbn [bind]. split; [reflexivity|]. exists (b64_encode (sec1_full x y)).
  assert (B : bytes (sec1_full x y)) by (apply full_bytes; lia). split; [reflexivity|]. split; [apply encode_spec, B|].
  destruct (encode_spec _ B) as (ds & f & q & D & E & F & SS & Q & L). apply (f_equal (@length bool)) in E. rewrite app_length, !flat_bits_length, repeat_length in E.
  unfold sec1_full at 1 in E. cbn [length] in E. rewrite app_length, !be_len in E. apply (f_equal (@length Z)) in SS. rewrite app_length, map_length, repeat_length in SS.
  apply Nat.mod_divides in L; [|lia]. destruct L as [u L]. lia.
Qed.
Lemma C73_serialize_example_pf : key_at AFFINE_G (Aff gx gy).
Proof. exact AFFINE_G_key. Qed.
(** From a human-readable format the key for (x, y) is read exactly from the base64 forms of the byte strings naming (x, y). *)
Lemma C73_deserialize_text_pf : forall dbg s x y,
  (exists k, pk_de dbg b64_decode true s = Some (inl k) /\ key_at k (Aff x y)) <-> (exists b, is_base64 b s /\ names b x y).
Proof.
  intros dbg s x y. split.
  - intros (k & E & K). destruct (b64_decode s) as [b|] eqn:D; [|unfold pk_de in E; rewrite D in E; discriminate E].
    exists b. destruct (proj1 (decode_iff s b) D) as [B S]. split; [exact S|].
    assert (L : key_length (length b) \/ ~ key_length (length b)) by (unfold key_length; lia). destruct L as [L|L].
    + rewrite (text_slice dbg s b D L) in E. destruct (slice_cases dbg b B) as [(k' & x' & y' & N & EK & K')|(_ & e & EE)]; [|rewrite EE in E; discriminate E].
      rewrite EK in E. cbn [bind] in E. apply some_inv in E. injection E as ->. destruct (key_at_fun _ _ _ _ _ K K') as [-> ->]. exact N.
    + unfold key_length in L. unfold pk_de in E. rewrite D in E. cbv zeta in E. rewrite !(proj2 (Nat.eqb_neq _ _)) in E by lia. discriminate E.
  - intros (b & S & N). destruct (names_bytes b x y N) as [B L]. pose proof (proj2 (decode_iff s b) (conj B S)) as D.
    rewrite (text_slice dbg s b D L). destruct (slice_names dbg b x y N) as (k & -> & K). exists k. auto.
Qed.
Lemma C73_deserialize_text_example_pf : exists b, is_base64 b (b64_encode (sec1_compressed gx gy)) /\ names b gx gy.
Proof.
  assert (N : names (sec1_compressed gx gy) gx gy) by (split; [apply AFFINE_G_key | tauto]). exists (sec1_compressed gx gy). split; [apply encode_spec, (names_bytes _ _ _ N) | exact N].
Qed.
(** Any other string is refused, never a panic, and the error tells why: not base64, not a length a key can have, or no point. *)
Lemma C73_text_errors_pf : forall dbg s,
  ((forall b, bytes b -> ~ is_base64 b s) -> pk_de dbg b64_decode true s = Some (inr None)) /\
  (forall b, bytes b -> is_base64 b s -> ~ key_length (length b) -> pk_de dbg b64_decode true s = Some (inr (Some InvalidInputLength))) /\
  (forall b, bytes b -> is_base64 b s -> key_length (length b) -> (forall x y, ~ names b x y) -> pk_de dbg b64_decode true s = Some (inr (Some InvalidPublicKey))).
Proof.
  intros dbg s. split; [|split].
  - intros H. unfold pk_de. destruct (b64_decode s) as [b|] eqn:D; [|reflexivity]. apply decode_iff in D. elim (H b (proj1 D) (proj2 D)).
  - intros b B S L. unfold key_length in L. unfold pk_de. rewrite (proj2 (decode_iff s b) (conj B S)). cbv zeta. rewrite !(proj2 (Nat.eqb_neq _ _)) by lia. reflexivity.
  - intros b B S L N. rewrite (text_slice dbg s b (proj2 (decode_iff s b) (conj B S)) L).
    destruct (slice_cases dbg b B) as [(k' & x' & y' & N' & _)|(_ & e & ->)]; [elim (N x' y' N') | reflexivity].
Qed.
Lemma C73_text_errors_example_pf : (forall b, bytes b -> ~ is_base64 b [84; 81]) /\ is_base64 [77] [84; 81; 61; 61] /\ ~ key_length (length [77]).
Proof.
  split; [|split].
  - intros b B S. pose proof (proj2 (decode_iff [84; 81] b) (conj B S)) as D. discriminate D.
  - apply (decode_iff [84; 81; 61; 61] [77]). reflexivity.
  - unfold key_length. cbn [length]. lia.
Qed.
(** From a binary format the key for (x, y) is read exactly from the byte strings naming (x, y); everything else gives the error for an invalid key. *)
Lemma C73_deserialize_binary_pf : forall dbg dec v, bytes v ->
  (forall x y, (exists k, pk_de dbg dec false v = Some (inl k) /\ key_at k (Aff x y)) <-> names v x y) /\
  ((forall x y, ~ names v x y) -> pk_de dbg dec false v = Some (inr (Some InvalidPublicKey))).
Proof.
  intros dbg dec v B. unfold pk_de. split.
  - intros x y. split.
    + intros (k & E & K). destruct (slice_cases dbg v B) as [(k' & x' & y' & N & EK & K')|(_ & e & EE)]; [|rewrite EE in E; discriminate E].
      rewrite EK in E. cbn [bind] in E. apply some_inv in E. injection E as ->. destruct (key_at_fun _ _ _ _ _ K K') as [-> ->]. exact N.
    + intros N. destruct (slice_names dbg v x y N) as (k & -> & K). exists k. auto.
  - intros N. destruct (slice_cases dbg v B) as [(k' & x' & y' & N' & _)|(_ & e & ->)]; [elim (N x' y' N') | reflexivity].
Qed.
Lemma C73_deserialize_binary_example_pf : names (be_bytes 32 gx ++ be_bytes 32 gy) gx gy /\ bytes (be_bytes 32 gx ++ be_bytes 32 gy).
Proof.
  assert (N : names (be_bytes 32 gx ++ be_bytes 32 gy) gx gy) by (split; [apply AFFINE_G_key | tauto]). split; [exact N | apply (names_bytes _ _ _ N)].
Qed.
(** Each point is named by exactly four strings, and a string names at most one point. *)
Lemma C73_four_strings_pf : (forall x y, on_curve (Aff x y) -> exists l, NoDup l /\ length l = 4%nat /\ forall s, (exists b, is_base64 b s /\ names b x y) <-> In s l) /\
  (forall s x y x' y', (exists b, is_base64 b s /\ names b x y) -> (exists b, is_base64 b s /\ names b x' y') -> x = x' /\ y = y').
Proof.
  split.
  - intros x y O. pose proof (mod2_cases y) as M.
    set (bs := [sec1_full x y; (6 + y mod 2) :: be_bytes 32 x ++ be_bytes 32 y; be_bytes 32 x ++ be_bytes 32 y; sec1_compressed x y]).
    assert (N : forall b, In b bs <-> names b x y).
    { intros b. unfold names, bs. cbn [In]. split; [intros [H|[H|[H|[H|[]]]]]; auto 6 | intros [_ [H|[H|[H|H]]]]; auto 6]. }
    exists (map b64_encode bs). split; [|split; [reflexivity|]].
    + assert (L64 : length (be_bytes 32 x ++ be_bytes 32 y) = 64%nat) by (rewrite app_length, !be_len; reflexivity).
      assert (NB : NoDup bs).
      { unfold bs, sec1_full, sec1_compressed. repeat constructor; cbn [In]; intros H; repeat destruct H as [H|H]; try exact H;
          try (apply (f_equal (@length Z)) in H; cbn [length] in H; rewrite ?L64, ?be_len in H; lia).
        apply cons_inv in H. destruct H as [H _]. lia. }
      assert (G : forall l, (forall b, In b l -> bytes b) -> NoDup l -> NoDup (map b64_encode l)).
      { induction l as [|a l IH]; intros BL ND; [constructor|]. inversion ND as [|? ? NI ND']; subst. cbn [map]. constructor; [|apply IH; [intros b I; apply BL; right; exact I | exact ND']].
        intros I. apply in_map_iff in I. destruct I as (c & E & I). apply NI. replace a with c; [exact I|].
        apply (f_equal b64_decode) in E. rewrite !decode_encode in E by (apply BL; auto using in_eq, in_cons). apply some_inv in E. exact E. }
      apply G; [|exact NB]. intros b I. apply N in I. apply (names_bytes _ _ _ I).
    + intros s. rewrite in_map_iff. split.
      * intros (b & S & NB). exists b. split; [|apply N, NB]. exact (is_base64_string_unique b _ _ (encode_spec b (proj1 (names_bytes _ _ _ NB))) S).
      * intros (b & <- & I). apply N in I. exists b. split; [apply encode_spec, (names_bytes _ _ _ I) | exact I].
  - intros s x y x' y' (b & S & N) (b' & S' & N'). replace b' with b in N'; [exact (names_fun _ _ _ _ _ N N')|].
    exact (is_base64_bytes_unique b b' s (proj1 (names_bytes _ _ _ N)) (proj1 (names_bytes _ _ _ N')) S S').
Qed.
Lemma C73_four_strings_example_pf : on_curve (Aff gx gy).
Proof. apply AFFINE_G_key. Qed.
