(** Where keys, encodings and accepted signatures come from: every key that parses is the key of exactly one secret,
    and every signature that verifies is what signing gives with exactly one pair of opposite nonces. *)
From Coq Require Import Znumtheory Zdiv.
From Verif Require Import Word MField MScalar MGroup MEcmult MEcdsa MDer MApi WP FieldMul FieldNorm FieldZero Spec Fp Bits FieldOps FieldCodec FieldStore ScalarMul ScalarOps ScalarMore ScalarBits Denote Unred Curve Group Chain Order Jac JacOps Table Ecmult Lift Gen Key Ctx ApiScalar ApiDer ApiPub ApiGroup Ecdsa ApiEcdsa ApiKeys ApiArith ApiMore ApiUnred.

(** * Points and secrets *)
Lemma aff_secret x y : on_curve (Aff x y) -> exists d, 1 <= d < n /\ smul d G = Aff x y /\ forall e, 1 <= e < n -> smul e G = Aff x y -> e = d.
Proof.
  intros O. destruct (proj1 C56_cyclic_pf (Aff x y) O) as (d & D & E & U). exists d. assert (D1 : 1 <= d < n).
  { assert (d <> 0); [|lia]. intros ->. rewrite smulG, emul_0 in E by lia. discriminate E. }
  split; [exact D1|]. split; [symmetry; exact E|]. intros e HE EE. apply U; [lia | symmetry; exact EE].
Qed.
Lemma secret_aff d : 1 <= d < n -> exists x y, smul d G = Aff x y /\ on_curve (Aff x y).
Proof.
  intros D. destruct (nonce_pt d D) as (X & Y & _ & E). exists (val X), (val Y). split; [exact E|]. rewrite <- E, smulG by lia. apply sp_on.
Qed.
Lemma key_on k P : key_at k P -> on_curve P.
Proof. destruct P as [|x y]; [intros _; exact I | intros (_ & _ & O & _); exact O]. Qed.
(** what a parser accepts is a key *)
Lemma parsed_key dbg b f k : bytes b -> pk_parse_slice dbg b f = Some (Ok k) -> exists x y, key_at k (Aff x y).
Proof.
  intros B H. destruct (C17_pubkey_total_pf dbg b f B) as (r & E & V). rewrite H in E. apply some_inv in E. subst r. exact (V k eq_refl).
Qed.
Lemma key_agree k P Q : key_at k P -> key_at k Q -> P <> Inf -> Q <> Inf -> P = Q.
Proof.
  destruct P as [|x y]; [congruence|]. destruct Q as [|x' y']; [congruence|]. intros (_ & _ & _ & _ & <- & <-) (_ & _ & _ & _ & <- & <-) _ _. reflexivity.
Qed.

(** * C87 *)
(** Every key any parser returns is, whatever the build and the blinding, the public key of one and only one secret. *)
Lemma C87_every_key_pf : forall dbg dbg' ctx b f k, gen_ctx ctx -> bytes b -> pk_parse_slice dbg b f = Some (Ok k) ->
  exists d k', 1 <= d < n /\ pk_from_secret_key dbg' ctx (scalar_of d) = Some k' /\ pk_eq dbg k' k = Some true /\ pk_serialize dbg' k' = pk_serialize dbg k /\
    pk_serialize_compressed dbg' k' = pk_serialize_compressed dbg k /\
    forall e k2, 1 <= e < n -> pk_from_secret_key dbg' ctx (scalar_of e) = Some k2 -> pk_eq dbg k2 k = Some true -> e = d.
Proof.
  intros dbg dbg' ctx b f k HC B H. destruct (parsed_key dbg b f k B H) as (x & y & K). destruct (aff_secret x y (key_on _ _ K)) as (d & D & E & U).
  destruct (C21_from_secret_key_pf dbg' ctx d HC D) as (k' & F & _ & K' & _). rewrite E in K'. exists d, k'. split; [exact D|]. split; [exact F|].
  destruct (pk_eq_ok dbg k' k _ _ _ _ K' K) as (b0 & E0 & V). rewrite E0. split; [f_equal; apply V; reflexivity|].
  destruct (C06_serialize_pf dbg' _ _ _ K') as [-> ->]. destruct (C06_serialize_pf dbg _ _ _ K) as [-> ->]. split; [reflexivity|]. split; [reflexivity|].
  intros e k2 HE F2 Q. destruct (C21_from_secret_key_pf dbg' ctx e HC HE) as (k3 & F3 & _ & K3 & _). rewrite F2 in F3. apply some_inv in F3. subst k3.
  destruct (secret_aff e HE) as (x2 & y2 & E2 & _). rewrite E2 in K3. destruct (pk_eq_ok dbg k2 k _ _ _ _ K3 K) as (b1 & E1 & V1). rewrite Q in E1. apply some_inv in E1. subst b1.
  apply U; [exact HE|]. rewrite E2. apply V1. reflexivity.
Qed.
Lemma C87_every_key_example_pf : bytes (sec1_full gx gy) /\ (exists k, pk_parse_slice true (sec1_full gx gy) None = Some (Ok k)) /\ exists ctx, gen_ctx ctx.
Proof.
  split; [apply G_bytes|]. split; [exact (proj2 (proj2 C06_parse_serialize_example_pf))|]. destruct C53_ecmult_gen_example_pf as (c & _ & HC). exists c. exact HC.
Qed.

(** [c] is the compressed encoding of the public key of [d]. *)
Definition encodes (dbg : bool) (ctx : genctx) (d : Z) (c : list Z) : Prop :=
  exists k, pk_from_secret_key dbg ctx (scalar_of d) = Some k /\ pk_serialize_compressed dbg k = Some c.
(** The secrets 1..n-1 and the 33-byte strings that parse are in one-to-one correspondence. *)
Lemma C87_compressed_pf : forall dbg ctx, gen_ctx ctx ->
  (forall d, 1 <= d < n -> exists c, encodes dbg ctx d c /\ length c = 33%nat /\ bytes c /\ exists k, pk_parse_compressed dbg c = Some (Ok k)) /\
  (forall d e c, 1 <= d < n -> 1 <= e < n -> encodes dbg ctx d c -> encodes dbg ctx e c -> d = e) /\
  (forall c k, length c = 33%nat -> bytes c -> pk_parse_compressed dbg c = Some (Ok k) -> exists d, 1 <= d < n /\ encodes dbg ctx d c).
Proof.
  intros dbg ctx HC. split; [|split].
  - intros d D. destruct (C21_from_secret_key_pf dbg ctx d HC D) as (k & F & _ & K & _). destruct (secret_aff d D) as (x & y & E & O). rewrite E in K.
    destruct (C06_serialize_pf dbg _ _ _ K) as [_ S]. exists (sec1_compressed x y). split; [exists k; split; assumption|].
    split; [unfold sec1_compressed; cbn [length]; rewrite be_bytes_length; reflexivity|]. split; [apply Forall_cons; [pose proof (Z.mod_pos_bound y 2 ltac:(lia)); lia | apply bytes_be]|].
    destruct (C06_roundtrip_pf dbg k x y K) as (_ & c & _ & k2 & _ & _ & _ & _ & S' & P & _). rewrite S in S'. apply some_inv in S'. subst c. exists k2. exact P.
  - intros d e c D HE (k & F & S) (k2 & F2 & S2). destruct (C21_from_secret_key_pf dbg ctx d HC D) as (k3 & F3 & _ & K & _). rewrite F in F3. apply some_inv in F3. subst k3.
    destruct (C21_from_secret_key_pf dbg ctx e HC HE) as (k3 & F3 & _ & K2 & _). rewrite F2 in F3. apply some_inv in F3. subst k3.
    destruct (secret_aff d D) as (x & y & E & O). destruct (secret_aff e HE) as (x2 & y2 & E2 & _). rewrite E in K. rewrite E2 in K2.
    destruct (C07_equality_pf dbg k k2 _ _ _ _ K K2) as (b & _ & V & _ & W). assert (b = true) by (apply W; congruence). destruct (proj1 V H) as [<- <-].
    destruct (aff_secret x y O) as (d0 & _ & _ & U). rewrite (U d D E), (U e HE E2). reflexivity.
  - intros c k L B P. assert (PS : pk_parse_slice dbg c (Some Compressed) = Some (Ok k)).
    { rewrite <- P. apply (C05_parse_slice_pf dbg c (Some Compressed)). split; [symmetry; exact L | right; reflexivity]. }
    destruct (C87_every_key_pf dbg dbg ctx c _ k HC B PS) as (d & k' & D & F & _ & _ & S & _). exists d. split; [exact D|]. exists k'. split; [exact F|]. rewrite S.
    exact (proj2 (C06_parse_serialize_pf dbg) c k L B P).
Qed.
Lemma C87_compressed_example_pf : (exists ctx, gen_ctx ctx) /\ 1 <= n - 1 < n /\ length (2 :: be_bytes 32 gx) = 33%nat /\ bytes (2 :: be_bytes 32 gx) /\ exists k, pk_parse_compressed true (2 :: be_bytes 32 gx) = Some (Ok k).
Proof.
  split; [destruct C53_ecmult_gen_example_pf as (c & _ & HC); exists c; exact HC|]. split; [vmr|]. split; [reflexivity|]. split; [exact (proj2 G_bytes)|].
  destruct (proj1 (C04_pubkey_parse_compressed_pf true 2 (be_bytes 32 gx) eq_refl (proj2 G_bytes)) gy) as (k & P & _); [rewrite val_be_bytes_32 by vmr; exact G_on | vmr | exists k; exact P].
Qed.

(** Each secret has exactly two 65-byte encodings that parse to its key: tag 4, and tag 6 or 7 after the parity of y. *)
Lemma C87_full_pf : forall dbg ctx d x y b, gen_ctx ctx -> 1 <= d < n -> smul d G = Aff x y -> length b = 65%nat -> bytes b ->
  (exists k k', pk_from_secret_key dbg ctx (scalar_of d) = Some k /\ pk_parse dbg b = Some (Ok k') /\ pk_eq dbg k k' = Some true) <->
  In b [4 :: be_bytes 32 x ++ be_bytes 32 y; (6 + y mod 2) :: be_bytes 32 x ++ be_bytes 32 y].
Proof.
  intros dbg ctx d x y b HC D E L B. destruct (C21_from_secret_key_pf dbg ctx d HC D) as (k & F & _ & K & _). rewrite E in K. pose proof (key_on _ _ K) as O. destruct (on_range _ _ O) as [RX RY]. split.
  - intros (k0 & k' & F' & P & Q). rewrite F in F'. apply some_inv in F'. subst k0. destruct (split_33 b L) as (t & bx & b_y & -> & LX & LY).
    destruct (parse_cases dbg t bx b_y LX LY B) as [(k2 & P2 & A & T)|P2]; rewrite P in P2; [|discriminate P2]. apply some_inv in P2. injection P2 as <-.
    destruct (pk_eq_ok dbg k k' _ _ _ _ K A) as (b0 & E0 & V). rewrite Q in E0. apply some_inv in E0. subst b0. pose proof (proj1 V eq_refl) as EE. injection EE as -> ->.
    apply bytes_cons_inv in B. destruct B as [_ B]. apply Forall_app in B. destruct B as [BX BY]. rewrite !be_bytes_32 by assumption. destruct T as [-> | ->]; [left | right; left]; reflexivity.
  - intros H. exists k. assert (T : exists t, b = t :: be_bytes 32 x ++ be_bytes 32 y /\ tag_fits t y) by (destruct H as [<-|[<-|[]]]; eexists; (split; [reflexivity|]); [left | right]; reflexivity).
    destruct T as (t & -> & T). pose proof p_lt256 as PL. destruct (C03_pubkey_parse_pf dbg t (be_bytes 32 x) (be_bytes 32 y) (be_bytes_length _ _) (be_bytes_length _ _) B) as [H1 _].
    rewrite !val_be_bytes_32 in H1 by lia. destruct (H1 T O) as (k' & P & K'). exists k'. split; [exact F|]. split; [exact P|].
    destruct (pk_eq_ok dbg k k' _ _ _ _ K K') as (b0 & -> & V). f_equal. apply V. reflexivity.
Qed.
Lemma C87_full_example_pf : (exists ctx, gen_ctx ctx) /\ smul 1 G = Aff gx gy /\ length (4 :: be_bytes 32 gx ++ be_bytes 32 gy) = 65%nat /\ 6 + gy mod 2 = 6.
Proof.
  split; [destruct C53_ecmult_gen_example_pf as (c & _ & HC); exists c; exact HC|]. split; [rewrite smulG, emul_1, sp_G by lia; reflexivity|]. split; [reflexivity | vmr].
Qed.

(** * Signatures *)
Lemma xmod_smul t r : 1 <= t < n -> (xmod (emul t eG) r <-> exists x y, smul t G = Aff x y /\ r = x mod n).
Proof.
  intros T. rewrite xmod_sp, <- smulG by lia. destruct (smul t G) as [|x y]; split; try contradiction.
  - intros (x & y & H & _). discriminate H.
  - intros H. exists x, y. split; [reflexivity | symmetry; exact H].
  - intros (x' & y' & H & ->). injection H as -> _. reflexivity.
Qed.
(** s is t^-1 * w *)
Lemma eqn_div t s w : 1 <= t < n -> 0 <= s < n -> (eqn (t * s) w <-> s = (inv_mod n t * w) mod n).
Proof.
  intros T S. pose proof (eqn_inv t T) as I. pose proof n_pos as NP. split.
  - intros H. apply eqn_small; [exact S | apply Z.mod_pos_bound; lia|]. rewrite eqn_mod, <- H. replace (inv_mod n t * (t * s)) with (inv_mod n t * t * s) by ring. rewrite I, Z.mul_1_l. reflexivity.
  - intros ->. rewrite eqn_mod. replace (t * (inv_mod n t * w)) with (inv_mod n t * t * w) by ring. rewrite I, Z.mul_1_l. reflexivity.
Qed.
Definition nonce_of (d z r s t : Z) : Prop := exists x y, smul t G = Aff x y /\ r = x mod n /\ s = (inv_mod n t * (z + r * d)) mod n.
Lemma valid_nonce d z r s : 1 <= d < n -> 0 <= r < n -> 0 <= s < n ->
  (ecdsa_valid (smul d G) z r s <-> 1 <= r /\ 1 <= s /\ exists t, 1 <= t < n /\ nonce_of d z r s t).
Proof.
  intros D R S. rewrite smulG by lia. rewrite valid_log. split; intros (HR & HS & t & T & H); (split; [lia|]); (split; [lia|]); exists t; (split; [exact T|]).
  - destruct H as [X Q]. apply (xmod_smul t r T) in X. destruct X as (x & y & E & X). exists x, y. split; [exact E|]. split; [exact X|]. apply (eqn_div t s _ T S), Q.
  - destruct H as (x & y & E & X & Q). split; [apply (xmod_smul t r T); exists x, y; auto|]. apply (eqn_div t s _ T S), Q.
Qed.
(** A signature is accepted exactly when the ECDSA equations hold for some nonce, and that nonce is unique. *)
Lemma C87_accepted_pf : forall dbg ctx k d z r s, verify_ctx ctx -> 1 <= d < n -> key_at k (smul d G) -> 0 <= z < n -> 0 <= r < n -> 0 <= s < n ->
  (verify dbg ctx (scalar_of z) (Sig (scalar_of r) (scalar_of s)) k = Some true <-> 1 <= r /\ 1 <= s /\ exists t, 1 <= t < n /\ nonce_of d z r s t) /\
  (1 <= s -> forall t t', 1 <= t < n -> 1 <= t' < n -> nonce_of d z r s t -> nonce_of d z r s t' -> t = t').
Proof.
  intros dbg ctx k d z r s HC D HK Z R S. split.
  - destruct (C22_verify_pf dbg ctx k (smul d G) z r s HC HK) as (b & -> & HB); try assumption. { destruct (secret_aff d D) as (x & y & -> & _). discriminate. }
    rewrite <- (valid_nonce d z r s D R S), <- HB. split; [intros H; apply some_inv in H; exact H | intros ->; reflexivity].
  - intros S1 t t' T T' (x & y & _ & _ & H) (x' & y' & _ & _ & H'). apply (eqn_div t s _ T S) in H. apply (eqn_div t' s _ T' S) in H'.
    apply eqn_small; [lia | lia|]. apply (eqn_cancel s); [lia|]. rewrite !(Z.mul_comm s). rewrite H, H'. reflexivity.
Qed.
Lemma smul_1_G : smul 1 G = Aff gx gy. Proof. rewrite smulG, emul_1, sp_G by lia. reflexivity. Qed.
(** the secret 1 signs the hash 1 with the nonce 1: s = 1 + gx *)
Lemma C87_accepted_example_pf : (exists ctx, verify_ctx ctx) /\ key_at AFFINE_G (smul 1 G) /\ nonce_of 1 1 gx (1 + gx) 1.
Proof.
  split; [destruct (proj1 C51_ecmult_example_pf) as (c & _ & HC); exists c; exact HC|]. split; [rewrite smul_1_G; exact AFFINE_G_key|].
  exists gx, gy. split; [exact smul_1_G|]. split; vmr.
Qed.

(** The signatures that verify are those signing returns for some nonce, and the same with s negated. *)
Lemma C87_reached_pf : forall dbg vctx gctx k d z r s, verify_ctx vctx -> gen_ctx gctx -> 1 <= d < n -> key_at k (smul d G) -> 0 <= z < n -> 0 <= r < n -> 0 <= s < n ->
  verify dbg vctx (scalar_of z) (Sig (scalar_of r) (scalar_of s)) k = Some true <->
  1 <= r /\ exists t s' id, 1 <= t < n /\ 1 <= s' < n /\ (s = s' \/ s = n - s') /\ sign_raw false gctx (scalar_of d) (scalar_of z) (scalar_of t) = Some (Ok (scalar_of r, scalar_of s', id)).
Proof.
  intros dbg vctx gctx k d z r s HV HG D HK Z R S. pose proof n_lt as NL. rewrite (proj1 (C87_accepted_pf dbg vctx k d z r s HV D HK Z R S)). split.
  - intros (R1 & S1 & t & T & (x & y & E & X & Q)). split; [exact R1|]. exists t.
    destruct (sign_raw_cases false gctx d z t HG ltac:(lia) Z T) as [(H & _)|[(_ & _ & r1 & s1 & id & SF & E1)|(_ & NU & _)]]; [discriminate H | |].
    + pose proof (signature_for_ok d z t r1 s1 id ltac:(lia) Z T SF) as (_ & S2 & S3 & _). destruct SF as (x' & y' & E' & X' & NE & C). rewrite E in E'. injection E' as <- <-. rewrite <- X in X'. subst r1. cbv zeta in NE, C. rewrite <- Q in NE, C.
      exists s1, id. split; [exact T|]. split; [lia|]. split; [|exact E1]. destruct C as [(_ & -> & _)|(_ & -> & _)]; [left; reflexivity | right; ring].
    + exfalso. apply NU. split; [exact T|]. exists x, y. split; [exact E|]. rewrite <- X. intros W. assert (s = 0); [|lia]. rewrite Q, Z.mul_mod, W, Z.mul_0_r by lia. reflexivity.
  - intros (R1 & t & s' & id & T & S' & C & E1). destruct (sign_raw_cases false gctx d z t HG ltac:(lia) Z T) as [(H & _)|[(_ & _ & r1 & s1 & id1 & SF & E2)|(_ & _ & E2)]]; [discriminate H | | rewrite E1 in E2; apply some_inv in E2; discriminate E2].
    rewrite E1 in E2. apply some_inv in E2. destruct (signature_for_ok d z t r1 s1 id1 ltac:(lia) Z T SF) as (RR & S2 & S3 & _).
    assert (EQ : scalar_of r = scalar_of r1 /\ scalar_of s' = scalar_of s1) by (revert E2; generalize (scalar_of r), (scalar_of r1), (scalar_of s'), (scalar_of s1); intros; split; congruence).
    destruct EQ as [EQ1 EQ2]. apply scalar_of_inj in EQ1; [|lia|lia]. apply scalar_of_inj in EQ2; [|lia|lia]. subst r1 s1. clear E2. split; [exact R1|]. split; [lia|].
    destruct SF as (x & y & E & X & NE & CC). cbv zeta in NE, CC. set (s0 := (inv_mod n t * (z + r * d)) mod n) in *.
    assert (H0 : s = s0 \/ s = n - s0) by (destruct CC as [(_ & -> & _)|(_ & -> & _)]; destruct C as [C|C]; [left | right | right | left]; lia).
    destruct H0 as [H0|H0]; [exists t; split; [exact T|]; exists x, y; auto|]. exists (n - t). split; [lia|].
    assert (XX : xmod (emul (n - t) eG) r). { rewrite emul_sub, emul_n_G, eadd_0_l. apply xmod_opp. apply (xmod_smul t r T). exists x, y. auto. }
    apply xmod_smul in XX; [|lia]. destruct XX as (x' & y' & E' & X'). exists x', y'. split; [exact E'|]. split; [exact X'|]. apply eqn_div; [lia | exact S|].
    assert (Q : eqn (t * s0) (z + r * d)). { apply eqn_div; [exact T | unfold s0; apply Z.mod_pos_bound; lia | reflexivity]. }
    rewrite <- Q, H0. apply eqn_def. replace ((n - t) * (n - s0)) with (t * s0 + (n - t - s0) * n) by ring. apply Z.mod_add. lia.
Qed.
(** debug builds panic on some nonces but return nothing else *)
Lemma C87_reached_example_pf : (exists ctx, verify_ctx ctx) /\ key_at AFFINE_G (smul 1 G) /\ exists ctx r s id, gen_ctx ctx /\ 1 <= r < n /\ 1 <= s < n /\ sign_raw false ctx (scalar_of 1) (scalar_of 1) (scalar_of 1) = Some (Ok (scalar_of r, scalar_of s, id)).
Proof.
  split; [destruct (proj1 C51_ecmult_example_pf) as (c & _ & HC); exists c; exact HC|]. split; [rewrite smul_1_G; exact AFFINE_G_key|].
  destruct C53_ecmult_gen_example_pf as (c & _ & HC). exists c. pose proof n_lt as NL. assert (N1 : 1 <= 1 < n) by vmr.
  destruct (sign_raw_cases false c 1 1 1 HC ltac:(lia) ltac:(lia) N1) as [(H & _)|[(_ & _ & r & s & id & SF & E)|(_ & NU & _)]]; [discriminate H | | elim (NU usable_1)].
  destruct (signature_for_ok 1 1 1 r s id ltac:(lia) ltac:(lia) N1 SF) as (RR & S2 & S3 & _). exists r, s, id. split; [exact HC|]. split; [|split; [lia | exact E]].
  destruct SF as (x & y & EP & X & _). rewrite smul_1_G in EP. injection EP as <- <-. subst r. revert RR. rewrite Z.mod_small by vmr. intros _. vmr.
Qed.

(** the points with a given x *)
Lemma x_points x : (exists y, on_curve (Aff x y) /\ forall y', on_curve (Aff x y') -> Aff x y' = Aff x y \/ Aff x y' = pneg (Aff x y)) \/ forall y, ~ on_curve (Aff x y).
Proof.
  assert (X : (exists y, on_curve (Aff x y)) \/ forall y, ~ on_curve (Aff x y)).
  { assert (RX : 0 <= x < p \/ ~ 0 <= x < p) by lia. destruct RX as [RX|RX]; [|right; intros y O; apply RX; exact (proj1 O)]. pose proof p_lt256 as PL.
    assert (B : forall t, 0 <= t < 256 -> bytes (t :: be_bytes 32 x)) by (intros t T; apply Forall_cons; [exact T | apply bytes_be]).
    destruct (compressed_cases true 2 (be_bytes 32 x) (be_bytes_length _ _) (B 2 ltac:(lia))) as (r & _ & [(y & k & O & _)|[N2 _]]); [left; exists y; revert O; rewrite val_be_bytes_32 by lia; tauto|].
    destruct (compressed_cases true 3 (be_bytes 32 x) (be_bytes_length _ _) (B 3 ltac:(lia))) as (r' & _ & [(y & k & O & _)|[N3 _]]); [left; exists y; revert O; rewrite val_be_bytes_32 by lia; tauto|].
    right. intros y O. rewrite val_be_bytes_32 in N2, N3 by lia. specialize (N2 y O). specialize (N3 y O). pose proof (Z.mod_pos_bound y 2 ltac:(lia)). lia. }
  destruct X as [(y & O)|N]; [left; exists y; split; [exact O|] | right; exact N]. intros y' O'. destruct O as (_ & RY & Q). destruct O' as (_ & RY' & Q'). rewrite <- Q in Q'.
  assert (D : (p | (y' - y) * (y' + y))).
  { apply Z.mod_divide; [lia|]. replace ((y' - y) * (y' + y)) with (y' * y' - y * y) by ring. rewrite Zminus_mod, Q', Z.sub_diag. reflexivity. }
  apply prime_mult in D; [|exact prime_p]. destruct D as [(c & D)|(c & D)].
  - left. f_equal. assert (c = 0) by nia. nia.
  - right. cbn [pneg]. f_equal. assert (C : c = 0 \/ c = 1) by nia. destruct C as [-> | ->].
    + assert (y = 0 /\ y' = 0) as [-> ->] by lia. reflexivity.
    + apply (Z.mod_unique _ _ (-1)); lia.
Qed.
Lemma x_two x r : r = x mod n -> 0 <= x < p -> x = r \/ x = r + n.
Proof. intros -> X. pose proof pnx as (A & B & _). pose proof n_pos. pose proof (Z.div_mod x n ltac:(lia)). pose proof (Z.mod_pos_bound x n ltac:(lia)). assert (x / n = 0 \/ x / n = 1) by nia. nia. Qed.

(** For any key and any s, the pair (r, s) is a signature of some hash exactly when r is the x coordinate, modulo n, of a curve point; the hashes are given by a list of at most four. *)
Lemma C87_some_hash_pf : forall dbg ctx k d r s, verify_ctx ctx -> 1 <= d < n -> key_at k (smul d G) -> 1 <= r < n -> 1 <= s < n ->
  ((exists z, 0 <= z < n /\ verify dbg ctx (scalar_of z) (Sig (scalar_of r) (scalar_of s)) k = Some true) <-> exists x y, on_curve (Aff x y) /\ r = x mod n) /\
  exists l, (length l <= 4)%nat /\ forall z, 0 <= z < n -> (verify dbg ctx (scalar_of z) (Sig (scalar_of r) (scalar_of s)) k = Some true <-> In z l).
Proof.
  intros dbg ctx k d r s HC D HK R S. pose proof n_lt as NL.
  assert (V : forall z, 0 <= z < n -> (verify dbg ctx (scalar_of z) (Sig (scalar_of r) (scalar_of s)) k = Some true <-> exists t, 1 <= t < n /\ xmod (emul t eG) r /\ z = (t * s - r * d) mod n)).
  { intros z Z. rewrite (proj1 (C87_accepted_pf dbg ctx k d z r s HC D HK Z ltac:(lia) ltac:(lia))). split.
    - intros (_ & _ & t & T & (x & y & E & X & Q)). exists t. split; [exact T|]. split; [apply (xmod_smul t r T); exists x, y; auto|].
      apply eqn_div in Q; [|exact T|lia]. apply eqn_small; [exact Z | apply Z.mod_pos_bound; lia|]. rewrite eqn_mod, Q. apply eqn_def. f_equal. ring.
    - intros (t & T & X & Q). split; [lia|]. split; [lia|]. exists t. split; [exact T|]. apply (xmod_smul t r T) in X. destruct X as (x & y & E & X). exists x, y. split; [exact E|]. split; [exact X|].
      apply eqn_div; [exact T | lia|]. rewrite Q. rewrite eqn_mod. apply eqn_def. f_equal. ring. }
  split.
  - split.
    + intros (z & Z & H). apply (V z Z) in H. destruct H as (t & T & X & _). apply (xmod_smul t r T) in X. destruct X as (x & y & E & X). exists x, y. split; [rewrite <- E, smulG by lia; apply sp_on | exact X].
    + intros (x & y & O & X). destruct (aff_secret x y O) as (t & T & E & _). exists ((t * s - r * d) mod n). assert (Z : 0 <= (t * s - r * d) mod n < n) by (apply Z.mod_pos_bound; lia).
      split; [exact Z|]. apply (V _ Z). exists t. split; [exact T|]. split; [apply (xmod_smul t r T); exists x, y; auto | reflexivity].
  - (* the two x coordinates, with two points each *)
    assert (L : forall x, exists l, (length l <= 2)%nat /\ (forall t, In t l -> 1 <= t < n /\ exists y, smul t G = Aff x y) /\ forall t y, 1 <= t < n -> smul t G = Aff x y -> In t l).
    { intros x. destruct (x_points x) as [(y & O & U)|N].
      - destruct (aff_secret x y O) as (t & T & E & _). exists [t; n - t]. assert (EN : smul (n - t) G = pneg (Aff x y)) by (rewrite <- E, !smulG by lia; rewrite emul_sub, emul_n_G, eadd_0_l; apply sp_opp).
        split; [cbn; lia|]. split.
        + intros t0 [<-|[<-|[]]]; (split; [lia|]); [exists y; exact E|]. cbn [pneg] in EN. eexists. exact EN.
        + intros t0 y0 T0 E0. assert (O0 : on_curve (Aff x y0)) by (rewrite <- E0, smulG by lia; apply sp_on). destruct (U y0 O0) as [K|K].
          * left. rewrite K in E0. destruct (aff_secret x y O) as (d0 & _ & _ & U0). rewrite (U0 t T E), (U0 t0 T0 E0). reflexivity.
          * right. left. rewrite K, <- EN in E0. apply eqn_small; [lia | lia|]. rewrite !smulG in E0 by lia. apply sp_inj in E0. apply eqn_def. symmetry. apply (emul_inj _ _ eG eG_neq0 E0).
      - exists []. split; [cbn; lia|]. split; [intros t []|]. intros t y T E. apply (N y). rewrite <- E, smulG by lia. apply sp_on. }
    destruct (L r) as (l1 & L1 & A1 & B1). destruct (L (r + n)) as (l2 & L2 & A2 & B2). exists (map (fun t => (t * s - r * d) mod n) (l1 ++ l2)).
    split; [rewrite map_length, app_length; lia|]. intros z Z. rewrite (V z Z), in_map_iff. split.
    + intros (t & T & X & ->). exists t. split; [reflexivity|]. apply in_or_app. apply (xmod_smul t r T) in X. destruct X as (x & y & E & X). destruct (x_two x r) as [K|K].
      { exact X. } { assert (O : on_curve (Aff x y)) by (rewrite <- E, smulG by lia; apply sp_on). exact (proj1 O). }
      * left. subst x. exact (B1 t y T E).
      * right. subst x. exact (B2 t y T E).
    + intros (t & <- & H). apply in_app_or in H. exists t. assert (XT : 1 <= t < n /\ xmod (emul t eG) r).
      { destruct H as [H|H]; [destruct (A1 t H) as (T & y & E) | destruct (A2 t H) as (T & y & E)]; (split; [exact T|]); apply (xmod_smul t r T); eexists; eexists; (split; [exact E|]).
        - symmetry. apply Z.mod_small. lia.
        - replace (r + n) with (r + 1 * n) by ring. rewrite Z.mod_add by lia. symmetry. apply Z.mod_small. lia. }
      destruct XT as [T X]. split; [exact T|]. split; [exact X | reflexivity].
Qed.
(** -631/225 modulo p: its cube plus 7 is minus the square of 13096/3375, hence not a square. *)
Definition lonely : Z := 57638728864797395055288668093213536353627725700229969655196664039492397703225.
Lemma lonely_off y : ~ on_curve (Aff lonely y).
Proof.
  intros (_ & _ & Q). set (w := 105773929220339505330627954602010317010853737103457735980340068591520870308963).
  assert (W : (lonely * lonely * lonely + 7) mod p = (- (w * w)) mod p) by vmr. rewrite W in Q. clear W. apply toF_eq in Q. rewrite toF_mul, toF_opp in Q.
  apply (neg_square (toF (w * w))); [|exists (toF w); symmetry; apply toF_mul | exists (toF y); exact Q].
  intros K. assert (E : (w * w) mod p <> 0 mod p) by (vm_compute; discriminate). apply E. apply toF_eq. rewrite K. reflexivity.
Qed.
(** r = gx is a signature of some hash whatever the key and s; [lonely] is not, as no point has that x. *)
Lemma C87_some_hash_example_pf : (exists ctx, verify_ctx ctx) /\ key_at AFFINE_G (smul 1 G) /\ on_curve (Aff gx gy) /\ gx = gx mod n /\ 1 <= lonely < n /\ forall x y, on_curve (Aff x y) -> lonely <> x mod n.
Proof.
  split; [destruct (proj1 C51_ecmult_example_pf) as (c & _ & HC); exists c; exact HC|]. split; [rewrite smul_1_G; exact AFFINE_G_key|]. split; [exact G_on|]. split; [vmr|]. split; [vmr|].
  intros x y O X. destruct (x_two x lonely X (proj1 O)) as [E|E]; [subst x; exact (lonely_off y O)|]. assert (L : p < lonely + n) by vmr. pose proof (proj1 O). lia.
Qed.

(** [random] returns a given key for exactly one value of the first usable block: all keys are equally likely. *)
Lemma C87_random_pf : forall dbg d, 1 <= d < n ->
  exists b, length b = 32%nat /\ bytes b /\ (forall rng fuel i, rng i = b -> sk_random dbg (S fuel) rng i = Done (scalar_of d)) /\
    forall c rng, length c = 32%nat -> bytes c -> rng 0%nat = c -> sk_random dbg 1 rng 0 = Done (scalar_of d) -> c = b.
Proof.
  intros dbg d D. pose proof n_lt as NL. exists (be_bytes 32 d). split; [apply be_bytes_length|]. split; [apply bytes_be|].
  assert (P : sk_parse dbg (be_bytes 32 d) = Some (Ok (scalar_of d))).
  { rewrite (C01_seckey_parse_pf dbg _ (be_bytes_length _ _) (bytes_be _ _)), val_be_bytes_32 by lia. rewrite (proj2 (Z.leb_le 1 d)), (proj2 (Z.ltb_lt d n)) by lia. reflexivity. }
  split.
  - intros rng fuel i H. cbn [sk_random]. rewrite H, P. reflexivity.
  - intros c rng L B H. cbn [sk_random]. rewrite H. rewrite (C01_seckey_parse_pf dbg c L B). pose proof (be_val_32 c L B) as R.
    destruct ((1 <=? be_val c) && (be_val c <? n)); [|intros K; discriminate K]. intros K.
    assert (E : scalar_of (be_val c) = scalar_of d) by (revert K; generalize (scalar_of (be_val c)), (scalar_of d); intros; congruence). apply scalar_of_inj in E; [|lia|lia]. rewrite <- E. symmetry. apply be_bytes_32; assumption.
Qed.
Lemma C87_random_example_pf : 1 <= n - 1 < n /\ sk_random true 1 (fun _ => be_bytes 32 n) 0 = Running.
Proof. split; vmr. Qed.
