(** Deterministic signing: the nonces drawn by [sign] are those of RFC 6979. *)
From Verif Require Import Word MField MScalar MGroup MEcmult MEcdsa MApi MDrbg WP FieldMul FieldNorm Spec Fp Bits FieldOps FieldCodec ScalarAcc ScalarMul ScalarOps ScalarRed ScalarMore ScalarBits Denote Unred Curve Group Chain Order VectorCert Jac JacOps Table Wnaf WnafC Ecmult Lift Gen Key Ctx ApiScalar ApiPub ApiGroup Ecdsa ApiEcdsa.

(** * Specification: RFC 6979 section 3.2, for the order n of 256 bits and a hash of 256 bits *)
Section Rfc6979.
(** HMAC of the hash: key, message *)
Variable HMAC : list Z -> list Z -> list Z.
(** section 2.3.2 to 2.3.4 *)
Definition bits2int (b : list Z) : Z := be_val b.
Definition int2octets (x : Z) : list Z := be_bytes 32 x.
Definition bits2octets (b : list Z) : list Z := int2octets (bits2int b mod n).
(** [rfc_state x h1 i K V]: the values of K and V before the i-th execution (from 0) of step h, for the key x and the hash h1 *)
Inductive rfc_state (x : Z) (h1 : list Z) : nat -> list Z -> list Z -> Prop :=
| rfc_start V0 K0 K1 V1 K2 V2 :
    V0 = repeat 1 32 (* step b *) -> K0 = repeat 0 32 (* step c *) ->
    K1 = HMAC K0 (V0 ++ [0] ++ int2octets x ++ bits2octets h1) (* step d *) -> V1 = HMAC K1 V0 (* step e *) ->
    K2 = HMAC K1 (V1 ++ [1] ++ int2octets x ++ bits2octets h1) (* step f *) -> V2 = HMAC K2 V1 (* step g *) ->
    rfc_state x h1 0 K2 V2
| rfc_retry i K V V' K' V'' : rfc_state x h1 i K V -> V' = HMAC K V (* step h.2: one output has 256 bits *) ->
    K' = HMAC K (V' ++ [0]) -> V'' = HMAC K' V' (* step h.3, candidate refused *) -> rfc_state x h1 (S i) K' V''.
(** the i-th candidate *)
Definition rfc_candidate (x : Z) (h1 : list Z) (i : nat) (k : Z) : Prop := exists K V, rfc_state x h1 i K V /\ k = bits2int (HMAC K V).
(** section 2.4: k is accepted if it lies in [1, n-1] and neither r nor s is 0 *)
Definition rfc_suitable (x : Z) (h1 : list Z) (k : Z) : Prop := 1 <= k < n /\ exists px py, smul k G = Aff px py /\ px mod n <> 0 /\
  (inv_mod n k * (bits2int h1 mod n + px mod n * x)) mod n <> 0.
(** the nonce of RFC 6979: the first suitable candidate *)
Definition rfc_nonce (x : Z) (h1 : list Z) (i : nat) (k : Z) : Prop := rfc_candidate x h1 i k /\ rfc_suitable x h1 k /\
  forall j k', (j < i)%nat -> rfc_candidate x h1 j k' -> ~ rfc_suitable x h1 k'.
End Rfc6979.

(** HMAC outputs of 32 bytes *)
Definition mac32 (mac : list Z -> list Z -> list Z) : Prop := forall k m, length (mac k m) = 32%nat /\ bytes (mac k m).

(** * Proofs *)
Lemma fill_32 mac k v : mac32 mac -> drbg_fill mac 32 k v [] 32 = (mac k v, mac k v).
Proof.
  intros M. destruct (M k v) as [L _]. cbn [drbg_fill length app]. change (Nat.ltb 0 32) with true. cbn match. destruct (mac k v) as [|b t] eqn:E; [discriminate L|]. 
  rewrite L. change (Nat.ltb 32 32) with false. reflexivity.
Qed.
Lemma generate_32 mac k v : mac32 mac -> drbg_generate mac (k, v) 32 = (mac k v, let k' := mac k (mac k v ++ [0]) in (k', mac k' (mac k v))).
Proof.
  intros M. unfold drbg_generate. rewrite fill_32 by exact M. destruct (M k v) as [L _]. f_equal. rewrite <- L. apply firstn_all.
Qed.
Lemma iter_shift {A} (f : A -> A) : forall i x, Nat.iter i f (f x) = f (Nat.iter i f x).
Proof. induction i as [|i IH]; intros x; [reflexivity|]. cbn [Nat.iter nat_rect] in *. f_equal. apply IH. Qed.
Lemma run_snoc mac : forall i st, drbg_run mac i st = fst (drbg_generate mac (Nat.iter i (fun s => snd (drbg_generate mac s 32)) st) 32).
Proof.
  induction i as [|i IH]; intros st; [reflexivity|]. cbn [drbg_run]. rewrite IH. rewrite (iter_shift (fun s => snd (drbg_generate mac s 32))). reflexivity.
Qed.
Lemma state_det mac x h1 i K V K' V' : rfc_state mac x h1 i K V -> rfc_state mac x h1 i K' V' -> K = K' /\ V = V'.
Proof.
  intros H. revert K' V'. induction H; intros Ka Va Ha; inversion Ha; subst; [split; reflexivity|].
  match goal with A : rfc_state mac x h1 i ?a ?b |- _ => match b with V => fail 1 | _ => destruct (IHrfc_state _ _ A) as [<- <-] end end. split; reflexivity.
Qed.
Lemma state_run mac x h1 : mac32 mac -> forall i, let '(K, V) := Nat.iter i (fun s => snd (drbg_generate mac s 32)) (drbg_new mac (int2octets x) (bits2octets h1) []) in rfc_state mac x h1 i K V.
Proof.
  intros M. induction i as [|i IH].
  - cbn [Nat.iter nat_rect]. unfold drbg_new, drbg_update. rewrite app_nil_r. eapply rfc_start; reflexivity.
  - cbn [Nat.iter nat_rect]. unfold Nat.iter in IH. destruct (nat_rect _ _ _ i) as [K V]. rewrite generate_32 by exact M. cbn [snd]. eapply rfc_retry; [exact IH | reflexivity | reflexivity | reflexivity].
Qed.

(** * C69 *)
(** The i-th block drawn by [sign] is the i-th candidate of RFC 6979, and there is exactly one. *)
Lemma C69_candidates_pf : forall mac x h1 i k, mac32 mac ->
  (rfc_candidate mac x h1 i k <-> k = be_val (sign_drbg mac (int2octets x) (bits2octets h1) i)).
Proof.
  intros mac x h1 i k M. unfold sign_drbg. rewrite run_snoc. pose proof (state_run mac x h1 M i) as S. destruct (Nat.iter i _ _) as [K V]. rewrite generate_32 by exact M. cbn [fst]. split.
  - intros (K' & V' & S' & ->). destruct (state_det _ _ _ _ _ _ _ _ S S') as [<- <-]. reflexivity.
  - intros ->. exists K, V. split; [exact S | reflexivity].
Qed.
Lemma drbg_stream mac a b : mac32 mac -> stream (sign_drbg mac a b).
Proof.
  intros M i. unfold sign_drbg. rewrite run_snoc. destruct (Nat.iter i _ _) as [K V]. rewrite generate_32 by exact M. cbn [fst]. apply M.
Qed.
Lemma suitable_usable x h1 k : rfc_suitable x h1 k <-> usable x (bits2int h1 mod n) k /\ forall px py, smul k G = Aff px py -> px mod n <> 0.
Proof.
  split.
  - intros (K & px & py & E & R & S). split; [split; [exact K|]; exists px, py; split; [exact E|]; intros Z0; apply S; apply s0_zero; [exact K | exact Z0]|].
    intros x' y' E'. rewrite E in E'. injection E' as <- <-. exact R.
  - intros [(K & px & py & E & S) R]. split; [exact K|]. exists px, py. split; [exact E|]. split; [exact (R _ _ E)|]. intros Z0. apply S. apply (s0_zero k); [exact K | exact Z0].
Qed.
(** Signing a 32-byte hash with a parsed key: the nonce is the one RFC 6979 prescribes, and r, s are as there but for the replacement of s by n - s
    (debug builds: always; release builds: unless the nonce's point has x = n, in which case r is 0). *)
Lemma C69_sign_rfc6979_pf : forall dbg mac fuel ctx bk h1 k m g id, gen_ctx ctx -> mac32 mac -> length bk = 32%nat -> bytes bk -> length h1 = 32%nat -> bytes h1 ->
  sk_parse dbg bk = Some (Ok k) -> msg_parse dbg h1 = Some m -> sign dbg (sign_drbg mac) fuel ctx m k = Done (g, id) -> dbg = true \/ s_is_zero (sig_r g) = false ->
  exists i t r s, rfc_nonce mac (be_val bk) h1 i t /\ signature_for (be_val bk) (bits2int h1 mod n) t r s id /\ g = Sig (scalar_of r) (scalar_of s).
Proof.
  intros dbg mac fuel ctx bk h1 k m g id HC M LK BK LH BH EK EM H NZ. pose proof n_pos as NP. pose proof n_lt as NL.
  rewrite (C01_seckey_parse_pf dbg bk LK BK) in EK. destruct (Z.leb_spec 1 (be_val bk)) as [D1|]; [|discriminate EK]. destruct (Z.ltb_spec (be_val bk) n) as [D2|]; [|discriminate EK]. injection EK as <-.
  rewrite (proj1 (C10_message_parse_pf dbg h1 LH BH)) in EM. injection EM as <-. pose proof (Z.mod_pos_bound (be_val h1) n ltac:(lia)) as ZB.
  set (d := be_val bk) in *. fold (bits2int h1) in *. set (z := bits2int h1 mod n) in *.
  assert (ST : stream (sign_drbg mac (be_bytes 32 d) (be_bytes 32 z))) by (apply drbg_stream, M).
  destruct (C29_only_first_usable_pf dbg (sign_drbg mac) fuel ctx d z g id HC ltac:(lia) ZB ST H) as (j & r & s & HJ & NU & U & SF & -> & NW).
  exists j, (nonce (sign_drbg mac (be_bytes 32 d) (be_bytes 32 z)) j), r, s. split; [|split; [exact SF | reflexivity]].
  assert (CA : forall i k, rfc_candidate mac d h1 i k <-> k = nonce (sign_drbg mac (be_bytes 32 d) (be_bytes 32 z)) i) by (intros i k; exact (C69_candidates_pf mac d h1 i k M)).
  split; [apply CA; reflexivity|]. split.
  - apply suitable_usable. split; [exact U|]. intros px py E R0. destruct NZ as [Db|NZ].
    + destruct (C28_low_s_pf dbg (sign_drbg mac) fuel ctx d z _ id HC ltac:(lia) ZB ST H) as (r' & s' & EG & R & _ & _ & R1). specialize (R1 Db).
      destruct SF as (x & y & E' & ER & _). rewrite E in E'. injection E' as <- <-. rewrite R0 in ER. subst r. apply (f_equal sig_r) in EG. cbn [sig_r] in EG.
      apply (f_equal sv) in EG. rewrite !scalar_of_val in EG by lia. lia.
    + destruct SF as (x & y & E' & ER & _). rewrite E in E'. injection E' as <- <-. rewrite R0 in ER. subst r. cbn [sig_r] in NZ. discriminate NZ.
  - intros l k' Hl C S. apply CA in C. subst k'. apply suitable_usable in S. exact (NU l Hl (proj1 S)).
Qed.
(** Conversely [sign] returns the RFC 6979 signature, if no earlier candidate meets x >= n (probability below 2^-127). *)
Lemma C69_rfc6979_signs_pf : forall dbg mac fuel ctx bk h1 k m i t, gen_ctx ctx -> mac32 mac -> length bk = 32%nat -> bytes bk -> length h1 = 32%nat -> bytes h1 ->
  sk_parse dbg bk = Some (Ok k) -> msg_parse dbg h1 = Some m -> rfc_nonce mac (be_val bk) h1 i t -> (i < fuel)%nat ->
  (forall j t', (j <= i)%nat -> rfc_candidate mac (be_val bk) h1 j t' -> ~ wraps t') ->
  exists r s id, signature_for (be_val bk) (bits2int h1 mod n) t r s id /\ sign dbg (sign_drbg mac) fuel ctx m k = Done (Sig (scalar_of r) (scalar_of s), id).
Proof.
  intros dbg mac fuel ctx bk h1 k m i t HC M LK BK LH BH EK EM (C & S & F) HI NW. pose proof n_pos as NP. pose proof n_lt as NL.
  rewrite (C01_seckey_parse_pf dbg bk LK BK) in EK. destruct (Z.leb_spec 1 (be_val bk)) as [D1|]; [|discriminate EK]. destruct (Z.ltb_spec (be_val bk) n) as [D2|]; [|discriminate EK]. injection EK as <-.
  rewrite (proj1 (C10_message_parse_pf dbg h1 LH BH)) in EM. injection EM as <-. pose proof (Z.mod_pos_bound (be_val h1) n ltac:(lia)) as ZB.
  set (d := be_val bk) in *. fold (bits2int h1) in *. set (z := bits2int h1 mod n) in *.
  assert (ST : stream (sign_drbg mac (be_bytes 32 d) (be_bytes 32 z))) by (apply drbg_stream, M).
  assert (CA : forall i k, rfc_candidate mac d h1 i k <-> k = nonce (sign_drbg mac (be_bytes 32 d) (be_bytes 32 z)) i) by (intros i' k; exact (C69_candidates_pf mac d h1 i' k M)).
  apply CA in C. subst t. apply (C29_first_usable_pf dbg (sign_drbg mac) fuel ctx d z i HC ltac:(lia) ZB ST HI).
  - intros l Hl U. apply (F l _ Hl (proj2 (CA l _) eq_refl)). apply suitable_usable. split; [exact U|]. intros px py E R0. apply (NW l _ ltac:(lia) (proj2 (CA l _) eq_refl)). destruct U as (K & _).
    destruct (nonce_pt _ K) as (X & Y & P & HP). rewrite E in HP. injection HP as -> ->. split; [exact K|]. exists (val X), (val Y). split; [exact E|].
    pose proof (x_neq0 _ _ _ P) as NX. pose proof (val_range X) as RX. apply x_cases in R0; [|exact RX | lia]. destruct R0 as [R0|R0]; [contradiction | lia].
  - apply suitable_usable in S. apply S.
  - right. intros l Hl. apply (NW l _ Hl). apply CA. reflexivity.
Qed.

(** ** The hash in use *)
Lemma flat32 l : length (flat_map (be_bytes 4) l) = (4 * length l)%nat /\ bytes (flat_map (be_bytes 4) l).
Proof.
  induction l as [|a t [L B]]; [split; [reflexivity | constructor]|]. cbn [flat_map]. rewrite app_length, be_bytes_length, L. split; [cbn [length]; lia|].
  apply Forall_app. split; [apply be_bytes_bytes | exact B].
Qed.
Lemma round_length st k : length (fst (sha_round st k)) = length (fst st).
Proof.
  destruct st as [s w]. unfold sha_round. destruct s as [|a [|b [|c [|d [|e [|f [|g [|h [|? ?]]]]]]]]]; try reflexivity.
  do 16 (destruct w as [|? w]; [reflexivity|]). destruct w; reflexivity.
Qed.
Lemma rounds_length : forall ks st, length (fst (fold_left sha_round ks st)) = length (fst st).
Proof. induction ks as [|k t IH]; intros st; [reflexivity|]. cbn [fold_left]. rewrite IH. apply round_length. Qed.
Lemma block_length h b : length (sha_block h b) = length h.
Proof. unfold sha_block. rewrite map_length, combine_length, rounds_length. cbn [fst]. apply Nat.min_id. Qed.
Lemma blocks_length : forall k h l, length (sha_blocks k h l) = length h.
Proof. induction k as [|k IH]; intros h l; [reflexivity|]. cbn [sha_blocks]. rewrite IH. apply block_length. Qed.
(** SHA-256 gives 32 bytes for every message, HMAC-SHA-256 for every key and message: so the theorems apply to the generator the library uses. *)
Lemma C69_hmac_sha256_pf : (forall m, length (sha256 m) = 32%nat /\ bytes (sha256 m)) /\ mac32 (hmac sha256).
Proof.
  assert (S : forall m, length (sha256 m) = 32%nat /\ bytes (sha256 m)).
  { intros m. unfold sha256. cbv zeta. destruct (flat32 (sha_blocks (Nat.div (length (sha_pad m)) 64) sha_h (sha_pad m))) as [L B]. rewrite blocks_length in L. split; [exact L | exact B]. }
  split; [exact S|]. intros k m. apply S.
Qed.
(** Published values: SHA-256 of "abc" (FIPS 180-4) and of a message of two blocks; RFC 4231 test case 2. *)
Lemma C69_hmac_sha256_example_pf :
  be_val (sha256 [97; 98; 99]) = 0xba7816bf8f01cfea414140de5dae2223b00361a396177a9cb410ff61f20015ad /\
  be_val (sha256 [97; 98; 99; 100; 98; 99; 100; 101; 99; 100; 101; 102; 100; 101; 102; 103; 101; 102; 103; 104; 102; 103; 104; 105; 103; 104; 105; 106; 104; 105; 106; 107;
    105; 106; 107; 108; 106; 107; 108; 109; 107; 108; 109; 110; 108; 109; 110; 111; 109; 110; 111; 112; 110; 111; 112; 113]) = 0x248d6a61d20638b8e5c026930c3e6039a33ce45964ff2167f6ecedd419db06c1 /\
  be_val (hmac sha256 [74; 101; 102; 101] [119; 104; 97; 116; 32; 100; 111; 32; 121; 97; 32; 119; 97; 110; 116; 32; 102; 111; 114; 32; 110; 111; 116; 104; 105; 110; 103; 63])
    = 0x5bdcc146bf60754e6a042426089575c75a003f089d2739839dec58b964ec3843.
Proof. vm_compute. repeat split. Qed.

(** ** Published vectors *)
Lemma vector_pts : smul va_k G = Aff va_x va_y /\ smul vb_k G = Aff vb_x vb_y.
Proof.
  destruct (run_ok vector_chain (gx, gy) None None 1 0 0 _ _ _ _ _ _ zrel_G eq_refl eq_refl vector_run vector_val) as (_ & HA & HB).
  cbn [orel] in HA, HB. unfold zrel in HA, HB. cbn [fst snd] in HA, HB.
  split; (rewrite smulG by vmr; unfold sp; first [rewrite HA | rewrite HB]; cbn [spt]; f_equal; vm_compute; reflexivity).
Qed.
Definition satoshi : list Z := [83; 97; 116; 111; 115; 104; 105; 32; 78; 97; 107; 97; 109; 111; 116; 111].
(** its hash *)
Definition satoshi_z : Z := 0xa0dc65ffca799873cbea0ac274015b9526505daaaed385155425f7337704883e.
Lemma satoshi_hash : be_val (sha256 satoshi) = satoshi_z.
Proof. vm_compute. reflexivity. Qed.
Lemma satoshi_range : 0 <= satoshi_z < n.
Proof. vmr. Qed.
Lemma nonce_a : be_val (sign_drbg (hmac sha256) (be_bytes 32 1) (be_bytes 32 satoshi_z) 0) = va_k.
Proof. vm_compute. reflexivity. Qed.
Lemma nonce_b : be_val (sign_drbg (hmac sha256) (be_bytes 32 (n - 1)) (be_bytes 32 satoshi_z) 0) = vb_k.
Proof. vm_compute. reflexivity. Qed.
(** one attempt, whose nonce and point are given *)
Lemma vector_sign dbg ctx d z k x y r s id : gen_ctx ctx -> 0 <= d < n -> 0 <= z < n -> be_val (sign_drbg (hmac sha256) (be_bytes 32 d) (be_bytes 32 z) 0) = k -> 1 <= k < n ->
  smul k G = Aff x y -> x < n -> r = x mod n -> (let s0 := (inv_mod n k * (z + r * d)) mod n in s0 <> 0 /\
  ((s0 < (n - 1) / 2 /\ s = s0 /\ id = 2 * (x / n) + y mod 2) \/ ((n - 1) / 2 <= s0 /\ s = n - s0 /\ id = 2 * (x / n) + (1 - y mod 2)))) ->
  sign dbg (sign_drbg (hmac sha256)) 1 ctx (scalar_of z) (scalar_of d) = Done (Sig (scalar_of r) (scalar_of s), id).
Proof.
  intros HC D Z EK K P X ER ES. assert (M : mac32 (hmac sha256)) by apply C69_hmac_sha256_pf.
  assert (ST : stream (sign_drbg (hmac sha256) (be_bytes 32 d) (be_bytes 32 z))) by (apply drbg_stream, M).
  assert (EN : nonce (sign_drbg (hmac sha256) (be_bytes 32 d) (be_bytes 32 z)) 0 = k) by exact EK.
  destruct (C29_first_usable_pf dbg (sign_drbg (hmac sha256)) 1 ctx d z 0 HC D Z ST ltac:(lia)) as (r' & s' & id' & SF & E).
  - intros l Hl. lia.
  - rewrite EN. split; [exact K|]. exists x, y. split; [exact P|]. rewrite <- ER. intros E0. apply (proj1 ES). apply s0_zero; [exact K | exact E0].
  - right. intros l Hl. replace l with O by lia. rewrite EN. intros (_ & x' & y' & P' & L). rewrite P in P'. injection P' as <- <-. lia.
  - rewrite EN in SF. destruct SF as (x' & y' & P' & ER' & ES'). rewrite P in P'. injection P' as <- <-. rewrite <- ER in ER'. subst r'. rewrite E.
    cbv zeta in ES, ES'. set (s0 := (inv_mod n k * (z + r * d)) mod n) in *. clearbody s0. destruct ES as [_ ES], ES' as [_ ES'].
    assert (s' = s /\ id' = id) as [-> ->] by (destruct ES as [(A & -> & ->)|(A & -> & ->)], ES' as [(B & -> & ->)|(B & -> & ->)]; split; lia || reflexivity). reflexivity.
Qed.
(** The message "Satoshi Nakamoto" with the keys 1 and n - 1: the published signatures, from every build and every correct context. *)
Lemma C69_vectors_pf : forall dbg ctx, gen_ctx ctx ->
  sign dbg (sign_drbg (hmac sha256)) 1 ctx (scalar_of satoshi_z) (scalar_of 1) =
    Done (Sig (scalar_of 0x934b1ea10a4b3c1757e2b0c017d0b6143ce3c9a7e6a4a49860d7a6ab210ee3d8) (scalar_of 0x2442ce9d2b916064108014783e923ec36b49743e2ffa1c4496f01a512aafd9e5), 1) /\
  sign dbg (sign_drbg (hmac sha256)) 1 ctx (scalar_of satoshi_z) (scalar_of (n - 1)) =
    Done (Sig (scalar_of 0xfd567d121db66e382991534ada77a6bd3106f0a1098c231e47993447cd6af2d0) (scalar_of 0x6b39cd0eb1bc8603e159ef5c20a5c8ad685a45b06ce9bebed3f153d10d93bed5), 0).
Proof.
  intros dbg ctx HC. pose proof satoshi_range as ZR. destruct vector_pts as [PA PB]. split.
  - apply (vector_sign dbg ctx 1 satoshi_z va_k va_x va_y); [exact HC | vmr | exact ZR | exact nonce_a | vmr | exact PA | vmr | vm_compute; reflexivity |].
    split; [vm_compute; discriminate|]. right. vm_compute. repeat split; discriminate.
  - apply (vector_sign dbg ctx (n - 1) satoshi_z vb_k vb_x vb_y); [exact HC | vmr | exact ZR | exact nonce_b | vmr | exact PB | vmr | vm_compute; reflexivity |].
    split; [vm_compute; discriminate|]. right. vm_compute. repeat split; discriminate.
Qed.
Lemma C69_vectors_example_pf : exists ctx, gen_ctx ctx.
Proof. destruct C53_ecmult_gen_example_pf as (c & _ & HC). exists c. exact HC. Qed.
Lemma C69_candidates_example_pf : mac32 (hmac sha256) /\ rfc_candidate (hmac sha256) 1 (sha256 satoshi) 0 0x8f8a276c19f4149656b280621e358cce24f5f52542772691ee69063b74f15d15.
Proof. split; [apply C69_hmac_sha256_pf|]. apply C69_candidates_pf; [apply C69_hmac_sha256_pf|]. unfold bits2octets, bits2int. rewrite satoshi_hash, Z.mod_small by exact satoshi_range. symmetry. exact nonce_a. Qed.
(** A key and a hash for which [sign] returns, in a debug build, with r different from 0. *)
Lemma C69_sign_rfc6979_example_pf : exists ctx k m g id, gen_ctx ctx /\ mac32 (hmac sha256) /\ length (be_bytes 32 1) = 32%nat /\ bytes (be_bytes 32 1) /\ length (sha256 satoshi) = 32%nat /\ bytes (sha256 satoshi) /\
  sk_parse true (be_bytes 32 1) = Some (Ok k) /\ msg_parse true (sha256 satoshi) = Some m /\ sign true (sign_drbg (hmac sha256)) 1 ctx m k = Done (g, id) /\ s_is_zero (sig_r g) = false.
Proof.
  destruct C69_vectors_example_pf as (ctx & HC). destruct C69_hmac_sha256_pf as [S M]. destruct (S satoshi) as [L B]. destruct (C69_vectors_pf true ctx HC) as [E _].
  exists ctx, (scalar_of 1), (scalar_of satoshi_z). eexists. eexists. split; [exact HC|]. split; [exact M|]. split; [apply be_bytes_length|]. split; [apply be_bytes_bytes|]. split; [exact L|]. split; [exact B|].
  split; [rewrite C01_seckey_parse_pf by (apply be_bytes_length || apply be_bytes_bytes); vm_compute; reflexivity|].
  split; [rewrite (proj1 (C10_message_parse_pf true _ L B)), satoshi_hash, Z.mod_small by exact satoshi_range; reflexivity|]. split; [exact E | reflexivity].
Qed.
(** The RFC 6979 nonce of the first vector, its hypotheses met. *)
Lemma C69_rfc6979_signs_example_pf : rfc_nonce (hmac sha256) 1 (sha256 satoshi) 0 va_k /\ forall j t, (j <= 0)%nat -> rfc_candidate (hmac sha256) 1 (sha256 satoshi) j t -> ~ wraps t.
Proof.
  destruct C69_candidates_example_pf as [M C]. destruct vector_pts as [P _]. split.
  - split; [exact C|]. split; [|intros j k' H; lia]. split; [vmr|]. exists va_x, va_y. split; [exact P|]. split; [vm_compute; discriminate|]. unfold bits2int. rewrite satoshi_hash. vm_compute. discriminate.
  - intros j t Hj Ht. replace j with O in Ht by lia. apply (C69_candidates_pf _ _ _ _ _ M) in Ht. apply (C69_candidates_pf _ _ _ _ _ M) in C. rewrite <- C in Ht. subst t.
    intros (_ & x & y & P' & L). assert (E : smul va_k G = Aff x y) by exact P'. rewrite P in E. injection E as <- <-. revert L. vm_compute. intros L. apply L. reflexivity.
Qed.
