(** The API on byte strings: which inputs are accepted and which bytes come out, with nothing of the library's types left in the statements. *)
From Verif Require Import Word MField MScalar MGroup MEcmult MEcdsa MDer MApi MWire WP FieldNorm Spec Fp Bits Denote Curve Group Order Key Ctx ApiScalar ApiDer ApiGrammar ApiPub ApiGroup ApiEcdsa ApiKeys ApiMore ApiBase64 ApiEq.

(** [b] is the 32-byte big-endian form of the secret key [d] *)
Definition secret_bytes (b : list Z) (d : Z) : Prop := 1 <= d < n /\ b = be_bytes 32 d.
(** [b] is the 64-byte form of the pair (r, s) of integers below n *)
Definition sig_bytes (b : list Z) (r s : Z) : Prop := 0 <= r < n /\ 0 <= s < n /\ b = be_bytes 32 r ++ be_bytes 32 s.
(** [b] is a 32-byte hash standing for the integer [z] modulo n *)
Definition hash_bytes (b : list Z) (z : Z) : Prop := length b = 32%nat /\ z = be_val b mod n.

Lemma be_of b : length b = 32%nat -> bytes b -> b = be_bytes 32 (be_val b).
Proof. intros L B. symmetry. rewrite <- L. apply be_bytes_be_val, B. Qed.
Lemma secret_fun b d d' : secret_bytes b d -> secret_bytes b d' -> d = d'.
Proof. intros [D ->] [D' E]. pose proof n_lt. apply be32_inj in E; lia. Qed.
Lemma sk_cases dbg b : bytes b ->
  (exists d, secret_bytes b d /\ sk_parse_slice dbg b = Some (Ok (scalar_of d))) \/
  ((forall d, ~ secret_bytes b d) /\ exists e, (forall dbg', sk_parse_slice dbg' b = Some (Err e))).
Proof.
  intros B. destruct (Nat.eq_dec (length b) 32) as [L|L].
  - assert (E : forall dbg', sk_parse_slice dbg' b = Some (if (1 <=? be_val b) && (be_val b <? n) then Ok (scalar_of (be_val b)) else Err InvalidSecretKey))
      by (intros dbg'; rewrite (proj1 (proj2 (C01_seckey_parse_slice_pf dbg' b B) L)); apply C01_seckey_parse_pf; assumption).
    destruct ((1 <=? be_val b) && (be_val b <? n)) eqn:T.
    + left. apply andb_true_iff in T. rewrite Z.leb_le, Z.ltb_lt in T. exists (be_val b). split; [|apply E]. split; [exact T | apply be_of; assumption].
    + right. split; [|exists InvalidSecretKey; exact E]. intros d [D ->]. pose proof n_lt. rewrite val_be_bytes_32 in T by lia. lia.
  - right. split; [|exists InvalidInputLength; intros dbg'; apply (C01_seckey_parse_slice_pf dbg' b B), L]. intros d [_ ->]. rewrite be_len in L. lia.
Qed.
Lemma secret_parse dbg b d : secret_bytes b d -> sk_parse_slice dbg b = Some (Ok (scalar_of d)).
Proof.
  intros S. assert (B : bytes b) by (destruct S as [_ ->]; apply bytes_be). destruct (sk_cases dbg b B) as [(d' & S' & E)|[N _]]; [|elim (N d S)].
  rewrite (secret_fun b d d' S S'). exact E.
Qed.
Lemma std_cases dbg b : bytes b ->
  (exists r s, sig_bytes b r s /\ sig_parse_standard_slice dbg b = Some (Ok (Sig (scalar_of r) (scalar_of s)))) \/
  ((forall r s, ~ sig_bytes b r s) /\ exists e, sig_parse_standard_slice dbg b = Some (Err e)).
Proof.
  intros B. destruct (Nat.eq_dec (length b) 64) as [L|L].
  - rewrite (proj1 (proj2 (C08_sig_slices_pf dbg b B) L)). destruct (split_64 b L) as (a & c & -> & LA & LC). apply Forall_app in B. destruct B as [BA BC]. rewrite (C08_sig_parse_standard_pf dbg a c LA LC BA BC).
    pose proof (be_val_range a BA). pose proof (be_val_range c BC). destruct ((be_val a <? n) && (be_val c <? n)) eqn:T.
    + left. apply andb_true_iff in T. rewrite !Z.ltb_lt in T. exists (be_val a), (be_val c). split; [|reflexivity]. split; [lia|]. split; [lia|]. rewrite <- !be_of by assumption. reflexivity.
    + right. split; [|eauto]. intros r s (R & S & E). apply app_inj_len in E; [|rewrite be_len; exact LA]. destruct E as [-> ->]. pose proof n_lt. rewrite !val_be_bytes_32 in T by lia. lia.
  - right. split; [|exists InvalidInputLength; apply (C08_sig_slices_pf dbg b B), L]. intros r s (_ & _ & ->). rewrite app_length, !be_len in L. lia.
Qed.
Lemma strict_cases dbg b : bytes b -> len b < 2 ^ 55 ->
  (exists r s, (0 <= r < n /\ 0 <= s < n /\ strict_accepts b r s) /\ sig_parse_der dbg b = Some (Ok (Sig (scalar_of r) (scalar_of s)))) \/
  ((forall r s, ~ (0 <= r < n /\ 0 <= s < n /\ strict_accepts b r s)) /\ exists e, sig_parse_der dbg b = Some (Err e)).
Proof.
  intros B L. pose proof (strict_sig_inv dbg b B L) as W. destruct (sig_parse_der dbg b) as [[g|e]|] eqn:E; cbn [wpr] in W; [| |contradiction].
  - left. destruct W as (r & s & -> & R & S & K). exists r, s. split; [|reflexivity]. split; [exact R|]. split; [exact S|]. apply strict_classify; assumption.
  - right. split; [|eauto]. intros r s (R & S & K). apply (C70_strict_grammar_pf dbg b r s B L R S) in K. rewrite E in K. discriminate K.
Qed.
Lemma lax_cases dbg b : bytes b ->
  (exists r s, (0 <= r < n /\ 0 <= s < n /\ lax_sig b r s) /\ sig_parse_der_lax dbg b = Some (Ok (Sig (scalar_of r) (scalar_of s)))) \/
  ((forall r s, ~ (0 <= r < n /\ 0 <= s < n /\ lax_sig b r s)) /\ exists e, sig_parse_der_lax dbg b = Some (Err e)).
Proof.
  intros B. pose proof (lax_sig_inv dbg b B) as W. destruct (sig_parse_der_lax dbg b) as [[g|e]|] eqn:E; cbn [wpr] in W; [| |contradiction].
  - left. destruct W as (r & s & -> & R & S & K). exists r, s. split; [|reflexivity]. split; [exact R|]. split; [exact S|]. exact K.
  - right. split; [|eauto]. intros r s (R & S & K). apply (C70_lax_grammar_pf dbg b r s B R S) in K. rewrite E in K. discriminate K.
Qed.
Lemma msg_cases dbg b : bytes b ->
  (exists z, hash_bytes b z /\ 0 <= z < n /\ msg_parse_slice dbg b = Some (Ok (scalar_of z))) \/ ((forall z, ~ hash_bytes b z) /\ exists e, msg_parse_slice dbg b = Some (Err e)).
Proof.
  intros B. rewrite (C10_message_slice_pf dbg b B). destruct (Nat.eqb_spec (length b) 32) as [L|L].
  - left. exists (be_val b mod n). split; [split; [exact L | reflexivity]|]. split; [apply Z.mod_pos_bound; pose proof n_pos; lia | reflexivity].
  - right. split; [|eauto]. intros z [L' _]. contradiction.
Qed.
Lemma sig_fun r s r' s' : 0 <= r < n -> 0 <= s < n -> 0 <= r' < n -> 0 <= s' < n -> Sig (scalar_of r) (scalar_of s) = Sig (scalar_of r') (scalar_of s') -> r = r' /\ s = s'.
Proof.
  intros R S R' S' E. pose proof (f_equal sig_r E) as E1. pose proof (f_equal sig_s E) as E2. cbn [sig_r sig_s] in E1, E2. pose proof n_lt. split; apply scalar_of_inj; (lia || assumption).
Qed.
(** one verifier, for any signature format whose parser is exact for a relation [F] *)
Lemma verify_with dbg (F : list Z -> Z -> Z -> Prop) parse ctx bm bs bp : verify_ctx ctx -> bytes bm -> bytes bp ->
  (forall r s, F bs r s -> 0 <= r < n /\ 0 <= s < n) -> (forall r s r' s', F bs r s -> F bs r' s' -> r = r' /\ s = s') ->
  ((exists r s, F bs r s /\ parse bs = Some (Ok (Sig (scalar_of r) (scalar_of s)))) \/ ((forall r s, ~ F bs r s) /\ exists e, parse bs = Some (Err e))) ->
  exists a, w_verify_with dbg parse ctx bm bs bp = Some a /\
    (a = Ok true <-> exists z r s x y, hash_bytes bm z /\ F bs r s /\ names bp x y /\ ecdsa_valid (Aff x y) z r s) /\
    (a = Ok false <-> exists z r s x y, hash_bytes bm z /\ F bs r s /\ names bp x y /\ ~ ecdsa_valid (Aff x y) z r s) /\
    ((exists e, a = Err e) <-> ~ ((exists z, hash_bytes bm z) /\ (exists r s, F bs r s) /\ exists x y, names bp x y)).
Proof.
  intros C BM BP RF FF [(r & s & FS & EP)|[NF (e & EP)]]; unfold w_verify_with.
  2: { destruct (msg_cases dbg bm BM) as [(z & HM & Z & ->)|[NM (e' & ->)]]; cbn [rbind]; [rewrite EP; cbn [rbind]|];
    (eexists; split; [reflexivity|]; split; [split; [discriminate | intros (? & ? & ? & ? & ? & _ & K & _); elim (NF _ _ K)]|]; split; [split; [discriminate | intros (? & ? & ? & ? & ? & _ & K & _); elim (NF _ _ K)]|];
     split; [intros _ (_ & (? & ? & K) & _); elim (NF _ _ K) | eauto]). }
  destruct (msg_cases dbg bm BM) as [(z & HM & Z & ->)|[NM (e' & ->)]]; cbn [rbind].
  2: { eexists; split; [reflexivity|]; split; [split; [discriminate | intros (? & ? & ? & ? & ? & K & _); elim (NM _ K)]|]; split; [split; [discriminate | intros (? & ? & ? & ? & ? & K & _); elim (NM _ K)]|];
     split; [intros _ ((? & K) & _); elim (NM _ K) | eauto]. }
  rewrite EP. cbn [rbind]. destruct (slice_cases dbg bp BP) as [(k & x & y & N & -> & K)|[NP (e' & ->)]]; cbn [rbind].
  2: { eexists; split; [reflexivity|]; split; [split; [discriminate | intros (? & ? & ? & ? & ? & _ & _ & K & _); elim (NP _ _ K)]|]; split; [split; [discriminate | intros (? & ? & ? & ? & ? & _ & _ & K & _); elim (NP _ _ K)]|];
     split; [intros _ (_ & _ & ? & ? & K); elim (NP _ _ K) | eauto]. }
  destruct (RF r s FS) as [R S]. destruct (C22_verify_pf dbg ctx k (Aff x y) z r s C K ltac:(discriminate) R S Z) as (b & -> & HB). cbn [bind]. exists (Ok b). split; [reflexivity|].
  assert (U : forall z' r' s' x' y', hash_bytes bm z' -> F bs r' s' -> names bp x' y' -> z' = z /\ r' = r /\ s' = s /\ x' = x /\ y' = y).
  { intros z' r' s' x' y' [_ H1] H2 H3. destruct HM as [_ HM], (FF _ _ _ _ H2 FS) as [-> ->], (names_fun _ _ _ _ _ H3 N) as [-> ->]. rewrite H1, HM. auto. }
  split; [|split].
  - split; [intros [= ->]; exists z, r, s, x, y; pose proof (proj1 HB eq_refl); auto|]. intros (z' & r' & s' & x' & y' & H1 & H2 & H3 & V). destruct (U _ _ _ _ _ H1 H2 H3) as (-> & -> & -> & -> & ->). rewrite (proj2 HB V). reflexivity.
  - split.
    + intros [= ->]. exists z, r, s, x, y. split; [exact HM|]. split; [exact FS|]. split; [exact N|]. intros V. apply HB in V. discriminate V.
    + intros (z' & r' & s' & x' & y' & H1 & H2 & H3 & V). destruct (U _ _ _ _ _ H1 H2 H3) as (-> & -> & -> & -> & ->). destruct b; [elim (V (proj1 HB eq_refl)) | reflexivity].
  - split; [intros [e E]; discriminate E|]. intros H. elim H. eauto 8.
Qed.

(** * C76 *)
(** Verification of byte strings. [Ok true] for exactly the triples ECDSA accepts: a 32-byte hash, two 32-byte integers below n, and one of the byte strings naming a point; [Ok false] for the well-formed rest; an error otherwise, never a panic. *)
Lemma C76_verify_pf : forall dbg ctx bm bs bp, verify_ctx ctx -> bytes bm -> bytes bs -> bytes bp ->
  exists a, w_verify dbg ctx bm bs bp = Some a /\
    (a = Ok true <-> exists z r s x y, hash_bytes bm z /\ sig_bytes bs r s /\ names bp x y /\ ecdsa_valid (Aff x y) z r s) /\
    (a = Ok false <-> exists z r s x y, hash_bytes bm z /\ sig_bytes bs r s /\ names bp x y /\ ~ ecdsa_valid (Aff x y) z r s) /\
    ((exists e, a = Err e) <-> ~ ((exists z, hash_bytes bm z) /\ (exists r s, sig_bytes bs r s) /\ exists x y, names bp x y)).
Proof.
  intros dbg ctx bm bs bp C BM BS BP. apply verify_with; [exact C | exact BM | exact BP | | |apply std_cases, BS].
  - intros r s (R & S & _). auto.
  - intros r s r' s' (R & S & ->) (R' & S' & E). apply app_inj_len in E; [|rewrite !be_len; reflexivity]. destruct E as [E1 E2]. pose proof n_lt. split; apply be32_inj; (lia || assumption).
Qed.
Lemma C76_verify_example_pf : (exists ctx, verify_ctx ctx) /\ hash_bytes (be_bytes 32 n) 0 /\ sig_bytes (be_bytes 32 gx ++ be_bytes 32 gx) gx gx /\ names (sec1_compressed gx gy) gx gy /\ ecdsa_valid (Aff gx gy) 0 gx gx.
Proof.
  split; [apply C34_public_tweak_add_example_pf|]. split; [split; [apply be_len | vmr]|]. split; [split; [vmr|]; split; [vmr | reflexivity]|]. split; [split; [apply AFFINE_G_key | tauto]|]. destruct C22_verify_example_pf as (_ & _ & _ & V & _). exact V.
Qed.
(** The same with the signature in DER, strict (the grammar of C70) or lax. *)
Lemma C76_verify_der_pf : forall dbg ctx bm bs bp, verify_ctx ctx -> bytes bm -> bytes bs -> bytes bp ->
  (len bs < 2 ^ 55 -> exists a, w_verify_der dbg ctx bm bs bp = Some a /\
    (a = Ok true <-> exists z r s x y, hash_bytes bm z /\ strict_accepts bs r s /\ names bp x y /\ ecdsa_valid (Aff x y) z r s)) /\
  (exists a, w_verify_der_lax dbg ctx bm bs bp = Some a /\
    (a = Ok true <-> exists z r s x y, hash_bytes bm z /\ lax_sig bs r s /\ names bp x y /\ ecdsa_valid (Aff x y) z r s)).
Proof.
  intros dbg ctx bm bs bp C BM BS BP.
  assert (V : forall Q z r s, ecdsa_valid Q z r s -> 0 <= r < n /\ 0 <= s < n) by (intros Q z r s (R & S & _); lia). split.
  - intros L. destruct (verify_with dbg (fun b r s => 0 <= r < n /\ 0 <= s < n /\ strict_accepts b r s) (sig_parse_der dbg) ctx bm bs bp C BM BP) as (a & E & H & _).
    + intros r s (R & S & _). auto.
    + intros r s r' s' (R & S & K) (R' & S' & K'). apply (C70_strict_grammar_pf dbg bs r s BS L R S) in K. apply (C70_strict_grammar_pf dbg bs r' s' BS L R' S') in K'. rewrite K in K'. apply some_inv in K'. apply sig_fun; try assumption. congruence.
    + apply strict_cases; assumption.
    + exists a. split; [exact E|]. rewrite H. split; intros (z & r & s & x & y & H1 & H2 & H3 & H4); exists z, r, s, x, y; pose proof (V _ _ _ _ H4); tauto.
  - destruct (verify_with dbg (fun b r s => 0 <= r < n /\ 0 <= s < n /\ lax_sig b r s) (sig_parse_der_lax dbg) ctx bm bs bp C BM BP) as (a & E & H & _).
    + intros r s (R & S & _). auto.
    + intros r s r' s' (R & S & K) (R' & S' & K'). apply (C70_lax_grammar_pf dbg bs r s BS R S) in K. apply (C70_lax_grammar_pf dbg bs r' s' BS R' S') in K'. rewrite K in K'. apply some_inv in K'. apply sig_fun; try assumption. congruence.
    + apply lax_cases; assumption.
    + exists a. split; [exact E|]. rewrite H. split; intros (z & r & s & x & y & H1 & H2 & H3 & H4); exists z, r, s, x, y; pose proof (V _ _ _ _ H4); tauto.
Qed.
Lemma C76_verify_der_example_pf : bytes [48; 7; 2; 2; 0; 128; 2; 1; 1] /\ strict_accepts [48; 7; 2; 2; 0; 128; 2; 1; 1] 128 1.
Proof. split; [repeat constructor; lia | apply C70_strict_grammar_example_pf]. Qed.

Lemma ser_at dbg k x y : key_at k (Aff x y) -> pk_serialize dbg k = Some (sec1_full x y).
Proof. apply C06_serialize_pf. Qed.
Lemma full_inj x y x' y' : on_curve (Aff x y) -> on_curve (Aff x' y') -> sec1_full x y = sec1_full x' y' -> x = x' /\ y = y'.
Proof. intros O O' E. apply (names_fun (sec1_full x y)); [split; [exact O | tauto]|]. rewrite E. split; [exact O' | tauto]. Qed.
(** Recovery from byte strings gives the 65 bytes of exactly the points the standard's recovery gives. *)
Lemma C76_recover_pf : forall dbg ctx bm bs v, verify_ctx ctx -> bytes bm -> bytes bs -> 0 <= v < 256 ->
  exists a, w_recover dbg ctx bm bs v = Some a /\
    forall out, a = Ok out <-> exists z r s x y, hash_bytes bm z /\ sig_bytes bs r s /\ v < 4 /\ recovers z r s v (Aff x y) /\ out = sec1_full x y.
Proof.
  intros dbg ctx bm bs v C BM BS V. unfold w_recover.
  destruct (msg_cases dbg bm BM) as [(z & HM & Z & ->)|[NM (e & ->)]]; cbn [rbind]; [|eexists; split; [reflexivity|]; intros out; split; [discriminate | intros (? & ? & ? & ? & ? & K & _); elim (NM _ K)]].
  destruct (std_cases dbg bs BS) as [(r & s & HS & ->)|[NS (e & ->)]]; cbn [rbind]; [|eexists; split; [reflexivity|]; intros out; split; [discriminate | intros (? & ? & ? & ? & ? & _ & K & _); elim (NS _ _ K)]].
  rewrite (proj1 (C11_recovery_id_pf v V)). destruct (Z.leb_spec v 3) as [V3|V3]; [|eexists; split; [reflexivity|]; intros out; split; [discriminate | intros (? & ? & ? & ? & ? & _ & _ & K & _); lia]].
  assert (U : forall z' r' s', hash_bytes bm z' -> sig_bytes bs r' s' -> z' = z /\ r' = r /\ s' = s).
  { intros z' r' s' [_ ->] (R' & S' & E'). destruct HM as [_ ->], HS as (R & S & E). rewrite E in E'. apply app_inj_len in E'; [|rewrite !be_len; reflexivity]. destruct E' as [E1 E2]. pose proof n_lt. split; [reflexivity|]. split; symmetry; apply be32_inj; (lia || assumption). }
  pose proof HS as (R & S & _). destruct (C25_recover_exact_pf dbg ctx z r s v C R S Z ltac:(lia)) as [(k & Q & -> & K & RQ)|[-> NR]]; cbn [rbind].
  - assert (NQ : Q <> Inf) by apply RQ. destruct Q as [|x y]; [contradiction|]. rewrite (ser_at dbg k x y K). cbn [bind]. eexists. split; [reflexivity|]. intros out. split.
    + intros [= <-]. exists z, r, s, x, y. repeat (split; [assumption || lia|]). reflexivity.
    + intros (z' & r' & s' & x' & y' & H1 & H2 & _ & H4 & ->). destruct (U _ _ _ H1 H2) as (-> & -> & ->). pose proof (recovers_fun z r s v _ _ ltac:(lia) RQ H4) as E. congruence.
  - eexists. split; [reflexivity|]. intros out. split; [discriminate|]. intros (z' & r' & s' & x' & y' & H1 & H2 & _ & H4 & _). destruct (U _ _ _ H1 H2) as (-> & -> & ->). elim (NR _ H4).
Qed.
Lemma C76_recover_example_pf : exists id x y, 0 <= id < 4 /\ hash_bytes (be_bytes 32 n) 0 /\ sig_bytes (be_bytes 32 gx ++ be_bytes 32 gx) gx gx /\ recovers 0 gx gx id (Aff x y).
Proof. destruct (proj1 C25_recover_exact_example_pf) as (id & I & R). destruct C76_verify_example_pf as (_ & HM & HS & _). exists id, gx, gy. split; [exact I|]. split; [exact HM|]. split; [exact HS | exact R]. Qed.
(** The 65 bytes of d*G from the 32 bytes of d, and nothing from any other bytes. *)
Lemma C76_public_pf : forall dbg ctx bk, gen_ctx ctx -> bytes bk ->
  exists a, w_public dbg ctx bk = Some a /\ forall out, a = Ok out <-> exists d x y, secret_bytes bk d /\ smul d G = Aff x y /\ out = sec1_full x y.
Proof.
  intros dbg ctx bk C BK. unfold w_public. destruct (sk_cases dbg bk BK) as [(d & HD & ->)|[ND (e & ->)]]; cbn [rbind]; [|eexists; split; [reflexivity|]; intros out; split; [discriminate | intros (? & ? & ? & K & _); elim (ND _ K)]].
  pose proof HD as [D _]. destruct (C21_from_secret_key_pf dbg ctx d C D) as (k & -> & _ & K & N). cbn [bind]. destruct (smul d G) as [|x y] eqn:E; [contradiction|]. rewrite (ser_at dbg k x y K). cbn [bind].
  eexists. split; [reflexivity|]. intros out. split; [intros [= <-]; exists d, x, y; auto|]. intros (d' & x' & y' & HD' & E' & ->). rewrite (secret_fun _ _ _ HD' HD), E in E'. congruence.
Qed.
Lemma C76_public_example_pf : (exists ctx, gen_ctx ctx) /\ secret_bytes (be_bytes 32 1) 1 /\ smul 1 G = Aff gx gy.
Proof. split; [apply C35_commutes_example_pf|]. split; [split; [vmr | reflexivity]|]. apply smul_1, AFFINE_G_key. Qed.
(** ECDH of byte strings: the digest of the 33 bytes of d*P. *)
Lemma C76_ecdh_pf : forall dbg D bp bk, bytes bp -> bytes bk ->
  exists a, w_ecdh dbg D bp bk = Some a /\ forall out, a = Ok out <-> exists d x y u v, names bp x y /\ secret_bytes bk d /\ smul d (Aff x y) = Aff u v /\ out = D (sec1_compressed u v).
Proof.
  intros dbg D bp bk BP BK. unfold w_ecdh.
  destruct (slice_cases dbg bp BP) as [(k & x & y & N & -> & K)|[NP (e & ->)]]; cbn [rbind]; [|eexists; split; [reflexivity|]; intros out; split; [discriminate | intros (? & ? & ? & ? & ? & H & _); elim (NP _ _ H)]].
  destruct (sk_cases dbg bk BK) as [(d & HD & ->)|[ND (e & ->)]]; cbn [rbind]; [|eexists; split; [reflexivity|]; intros out; split; [discriminate | intros (? & ? & ? & ? & ? & _ & H & _); elim (ND _ H)]].
  pose proof HD as [DR _]. destruct (proj2 (C37_ecdh_pf dbg D k (Aff x y) d K ltac:(discriminate) ltac:(lia)) ltac:(lia)) as (u & v & E & ->).
  eexists. split; [reflexivity|]. intros out. split; [intros [= <-]; exists d, x, y, u, v; auto|]. intros (d' & x' & y' & u' & v' & N' & HD' & E' & ->). destruct (names_fun _ _ _ _ _ N' N) as [-> ->]. rewrite (secret_fun _ _ _ HD' HD), E in E'. congruence.
Qed.
Lemma C76_ecdh_example_pf : names (be_bytes 32 gx ++ be_bytes 32 gy) gx gy /\ secret_bytes (be_bytes 32 1) 1 /\ smul 1 (Aff gx gy) = Aff gx gy.
Proof. destruct C76_public_example_pf as (_ & S & M). split; [exact (proj1 C73_deserialize_binary_example_pf)|]. split; [exact S | exact M]. Qed.
(** Tweaking public keys as byte strings. *)
Lemma C76_public_tweaks_pf : forall dbg ctx bp bt, verify_ctx ctx -> bytes bp -> bytes bt ->
  (exists a, w_pub_add dbg ctx bp bt = Some a /\ forall out, a = Ok out <-> exists t x y u v, names bp x y /\ secret_bytes bt t /\ padd (Aff x y) (smul t G) = Aff u v /\ out = sec1_full u v) /\
  (exists a, w_pub_mul dbg ctx bp bt = Some a /\ forall out, a = Ok out <-> exists t x y u v, names bp x y /\ secret_bytes bt t /\ smul t (Aff x y) = Aff u v /\ out = sec1_full u v).
Proof.
  intros dbg ctx bp bt C BP BT. unfold w_pub_add, w_pub_mul, w_pub_tweak.
  destruct (slice_cases dbg bp BP) as [(k & x & y & N & -> & K)|[NP (e & ->)]]; cbn [rbind]; [|split; (eexists; split; [reflexivity|]; intros out; split; [discriminate | intros (? & ? & ? & ? & ? & H & _); elim (NP _ _ H)])].
  destruct (sk_cases dbg bt BT) as [(t & HT & ->)|[NT (e & ->)]]; cbn [rbind]; [|split; (eexists; split; [reflexivity|]; intros out; split; [discriminate | intros (? & ? & ? & ? & ? & _ & H & _); elim (NT _ H)])].
  pose proof HT as [T _].
  assert (U : forall t' x' y', names bp x' y' -> secret_bytes bt t' -> t' = t /\ x' = x /\ y' = y).
  { intros t' x' y' N' HT'. destruct (names_fun _ _ _ _ _ N' N) as [-> ->]. rewrite (secret_fun _ _ _ HT' HT). auto. }
  split.
  - destruct (C34_public_tweak_add_pf dbg ctx k (Aff x y) t C K ltac:(discriminate) ltac:(lia)) as [A1 A2]. destruct (padd (Aff x y) (smul t G)) as [|u v] eqn:E.
    + rewrite (A1 eq_refl). cbn [bind]. eexists. split; [reflexivity|]. intros out. split; [discriminate|]. intros (t' & x' & y' & u' & v' & N' & HT' & E' & _). destruct (U _ _ _ N' HT') as (-> & -> & ->). rewrite E in E'. discriminate E'.
    + destruct (A2 ltac:(discriminate)) as (k' & -> & K'). cbn [bind]. rewrite (ser_at dbg k' u v (key_mono _ _ K')). cbn [bind]. eexists. split; [reflexivity|]. intros out.
      split; [intros [= <-]; exists t, x, y, u, v; auto|]. intros (t' & x' & y' & u' & v' & N' & HT' & E' & ->). destruct (U _ _ _ N' HT') as (-> & -> & ->). rewrite E in E'. congruence.
  - destruct (proj2 (C35_public_tweak_mul_pf dbg ctx k (Aff x y) t C K ltac:(discriminate) ltac:(lia)) ltac:(lia)) as (k' & -> & K' & NI). cbn [bind]. destruct (smul t (Aff x y)) as [|u v] eqn:E; [contradiction|].
    rewrite (ser_at dbg k' u v (key_mono _ _ K')). cbn [bind]. eexists. split; [reflexivity|]. intros out.
    split; [intros [= <-]; exists t, x, y, u, v; auto|]. intros (t' & x' & y' & u' & v' & N' & HT' & E' & ->). destruct (U _ _ _ N' HT') as (-> & -> & ->). rewrite E in E'. congruence.
Qed.
Lemma C76_public_tweaks_example_pf : (exists ctx, verify_ctx ctx) /\ names (sec1_full gx gy) gx gy /\ secret_bytes (be_bytes 32 1) 1.
Proof. split; [apply C34_public_tweak_add_example_pf|]. split; [split; [apply AFFINE_G_key | tauto] | exact (proj1 (proj2 C76_public_example_pf))]. Qed.
(** Tweaking secret keys as byte strings. *)
Lemma C76_secret_tweaks_pf : forall dbg bk bt, bytes bk -> bytes bt ->
  (exists a, w_sec_add dbg bk bt = Some a /\ forall out, a = Ok out <-> exists d t, secret_bytes bk d /\ secret_bytes bt t /\ secret_bytes out ((d + t) mod n)) /\
  (exists a, w_sec_mul dbg bk bt = Some a /\ forall out, a = Ok out <-> exists d t, secret_bytes bk d /\ secret_bytes bt t /\ secret_bytes out ((d * t) mod n)).
Proof.
  intros dbg bk bt BK BT. unfold w_sec_add, w_sec_mul, w_sec_tweak.
  destruct (sk_cases dbg bk BK) as [(d & HD & ->)|[ND (e & ->)]]; cbn [rbind]; [|split; (eexists; split; [reflexivity|]; intros out; split; [discriminate | intros (? & ? & H & _); elim (ND _ H)])].
  destruct (sk_cases dbg bt BT) as [(t & HT & ->)|[NT (e & ->)]]; cbn [rbind]; [|split; (eexists; split; [reflexivity|]; intros out; split; [discriminate | intros (? & ? & _ & H & _); elim (NT _ H)])].
  pose proof HD as [D _]. pose proof HT as [T _]. split.
  - destruct (C32_secret_tweak_add_pf dbg d t D T) as [-> R]. destruct (Z.eqb_spec (d + t) n) as [E|NE]; cbn [bind]; eexists; (split; [reflexivity|]); intros out.
    + split; [discriminate|]. intros (d' & t' & HD' & HT' & [RR _]). rewrite (secret_fun _ _ _ HD' HD), (secret_fun _ _ _ HT' HT), E, Z.mod_same in RR by (pose proof n_pos; lia). lia.
    + specialize (R NE). rewrite (proj1 (C02_seckey_roundtrip_pf dbg _ R)). split; [intros [= <-]; exists d, t; split; [exact HD|]; split; [exact HT|]; split; [exact R | reflexivity]|].
      intros (d' & t' & HD' & HT' & [_ ->]). rewrite (secret_fun _ _ _ HD' HD), (secret_fun _ _ _ HT' HT). reflexivity.
  - destruct (C33_secret_tweak_mul_pf dbg d t D T) as [-> R]. cbn [bind]. eexists. split; [reflexivity|]. intros out.
    rewrite (proj1 (C02_seckey_roundtrip_pf dbg _ R)). split; [intros [= <-]; exists d, t; split; [exact HD|]; split; [exact HT|]; split; [exact R | reflexivity]|].
    intros (d' & t' & HD' & HT' & [_ ->]). rewrite (secret_fun _ _ _ HD' HD), (secret_fun _ _ _ HT' HT). reflexivity.
Qed.
Lemma C76_secret_tweaks_example_pf : secret_bytes (be_bytes 32 (n - 1)) (n - 1) /\ secret_bytes (be_bytes 32 2) 2 /\ secret_bytes (be_bytes 32 1) ((n - 1 + 2) mod n).
Proof. repeat split; vmr. Qed.
(** Combining public keys as byte strings: the sum of the points they name. *)
Lemma parse_all dbg l : Forall bytes l ->
  (exists ks Ps, w_parse_all dbg l = Some (Ok ks) /\ Forall2 key_at ks Ps /\ Forall2 (fun b P => exists x y, P = Aff x y /\ names b x y) l Ps) \/
  ((forall Ps, ~ Forall2 (fun b P => exists x y, P = Aff x y /\ names b x y) l Ps) /\ exists e, w_parse_all dbg l = Some (Err e)).
Proof.
  induction 1 as [|b l B _ IH]; cbn [w_parse_all]; [left; exists [], []; auto|].
  destruct (slice_cases dbg b B) as [(k & x & y & N & -> & K)|[NP (e & ->)]]; cbn [rbind].
  - destruct IH as [(ks & Ps & -> & HK & HN)|[NF (e & ->)]]; cbn [rbind].
    + left. exists (k :: ks), (Aff x y :: Ps). split; [reflexivity|]. split; constructor; eauto.
    + right. split; [|eauto]. intros Ps H. inversion H; subst. eapply NF. eassumption.
  - right. split; [|eauto]. intros Ps H. inversion H as [|? P ? ? (x & y & _ & N)]; subst. elim (NP _ _ N).
Qed.
Lemma C76_combine_pf : forall dbg l, Forall bytes l ->
  exists a, w_combine dbg l = Some a /\ forall out, a = Ok out <-> exists Ps u v, Forall2 (fun b P => exists x y, P = Aff x y /\ names b x y) l Ps /\ psum Ps = Aff u v /\ out = sec1_full u v.
Proof.
  intros dbg l B. unfold w_combine. destruct (parse_all dbg l B) as [(ks & Ps & -> & HK & HN)|[NF (e & ->)]]; cbn [rbind]; [|eexists; split; [reflexivity|]; intros out; split; [discriminate | intros (? & ? & ? & H & _); elim (NF _ H)]].
  assert (FP : Forall fin Ps) by (clear -HN; induction HN as [|b P l Ps (x & y & -> & _) _ IH]; constructor; [discriminate | exact IH]).
  assert (U : forall Ps', Forall2 (fun b P => exists x y, P = Aff x y /\ names b x y) l Ps' -> Ps' = Ps).
  { clear -HN. induction HN as [|b P l Ps (x & y & -> & N) _ IH]; intros Ps' H; inversion H as [|? P' ? Ps2 (x' & y' & -> & N') H2]; subst; [reflexivity|]. destruct (names_fun _ _ _ _ _ N' N) as [-> ->]. rewrite (IH _ H2). reflexivity. }
  destruct (C36_combine_pf dbg ks Ps HK FP) as [A1 A2]. destruct (psum Ps) as [|u v] eqn:E.
  - rewrite (A1 eq_refl). cbn [rbind]. eexists. split; [reflexivity|]. intros out. split; [discriminate|]. intros (Ps' & u' & v' & H & E' & _). rewrite (U _ H), E in E'. discriminate E'.
  - destruct (A2 ltac:(discriminate)) as (k & -> & K). cbn [rbind]. rewrite (ser_at dbg k u v (key_mono _ _ K)). cbn [bind]. eexists. split; [reflexivity|]. intros out.
    split; [intros [= <-]; exists Ps, u, v; auto|]. intros (Ps' & u' & v' & H & E' & ->). rewrite (U _ H), E in E'. congruence.
Qed.
Lemma C76_combine_example_pf : Forall2 (fun b P => exists x y, P = Aff x y /\ names b x y) [sec1_full gx gy] [G] /\ psum [G] = Aff gx gy.
Proof. split; [constructor; [|constructor]; exists gx, gy; split; [reflexivity|]; split; [apply AFFINE_G_key | tauto]|]. cbn [psum fold_right]. apply padd_inf_r. Qed.
