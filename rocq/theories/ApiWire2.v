(** Laws between the byte-string programs: derived keys, key agreement, signatures, and independence of the format of keys. *)
From Verif Require Import Word MField MScalar MGroup MEcmult MEcdsa MDer MApi MWire WP FieldNorm Spec Fp Bits Denote Curve Group Order Key Ctx ApiScalar ApiDer ApiGrammar ApiPub ApiGroup ApiEcdsa ApiKeys ApiMore ApiBase64 ApiEq ApiWire.

Lemma pub_at dbg ctx bk d : gen_ctx ctx -> secret_bytes bk d -> exists x y, smul d G = Aff x y /\ w_public dbg ctx bk = Some (Ok (sec1_full x y)).
Proof.
  intros C HD. assert (B : bytes bk) by (destruct HD as [_ ->]; apply bytes_be). destruct (C76_public_pf dbg ctx bk C B) as (a & E & H). pose proof HD as [D _]. destruct (C21_from_secret_key_pf dbg ctx d C D) as (k & _ & _ & _ & N).
  destruct (smul d G) as [|x y] eqn:ED; [contradiction|]. exists x, y. split; [reflexivity|]. rewrite E, (proj2 (H (sec1_full x y))); [reflexivity|]. exists d, x, y. auto.
Qed.
Lemma on_G d x y : 0 <= d -> smul d G = Aff x y -> on_curve (Aff x y).
Proof. intros D <-. apply C56_cyclic_pf, D. Qed.
Lemma full_names x y : on_curve (Aff x y) -> names (sec1_full x y) x y.
Proof. intros O. split; [exact O | tauto]. Qed.

Lemma combine_swap dbg l bp bp' l' k k' : pk_parse_slice dbg bp None = Some (Ok k) -> pk_parse_slice dbg bp' None = Some (Ok k') ->
  match w_parse_all dbg (l ++ bp :: l'), w_parse_all dbg (l ++ bp' :: l') with
  | Some (Ok _), Some (Ok _) | None, None => True | Some (Err e), Some (Err e') => e = e' | _, _ => False end.
Proof.
  intros E E'. induction l as [|b l IH]; cbn [app w_parse_all].
  - rewrite E, E'. cbn [rbind]. destruct (w_parse_all dbg l') as [[]|]; cbn [rbind]; auto.
  - destruct (pk_parse_slice dbg b None) as [[]|]; cbn [rbind]; auto. destruct (w_parse_all dbg (l ++ bp :: l')) as [[]|], (w_parse_all dbg (l ++ bp' :: l')) as [[]|]; cbn [rbind]; auto.
Qed.
Lemma points_swap bp bp' x y l l' : names bp x y -> names bp' x y -> forall Ps Ps', Forall2 (fun b P => exists x y, P = Aff x y /\ names b x y) (l ++ bp :: l') Ps ->
  Forall2 (fun b P => exists x y, P = Aff x y /\ names b x y) (l ++ bp' :: l') Ps' -> Ps' = Ps.
Proof.
  intros N N'. assert (U : forall b P P', (exists x y, P = Aff x y /\ names b x y) -> (exists x y, P' = Aff x y /\ names b x y) -> P' = P) by (intros b P P' (u & v & -> & M) (u' & v' & -> & M'); destruct (names_fun _ _ _ _ _ M' M) as [-> ->]; reflexivity).
  assert (T : forall m Qs Qs', Forall2 (fun b P => exists x y, P = Aff x y /\ names b x y) m Qs -> Forall2 (fun b P => exists x y, P = Aff x y /\ names b x y) m Qs' -> Qs' = Qs).
  { intros m Qs Qs' H. revert Qs'. induction H as [|b P m Qs HP _ IH]; intros Qs' H'; inversion H' as [|? P' ? Q2 HP' H2]; subst; [reflexivity|]. rewrite (IH _ H2), (U _ _ _ HP HP'). reflexivity. }
  induction l as [|b l IH]; cbn [app]; intros Ps Ps' H H'; inversion H as [|? P ? Q HP H1]; subst; inversion H' as [|? P' ? Q' HP' H1']; subst.
  - rewrite (T _ _ _ H1 H1'). destruct HP as (u & v & -> & M), HP' as (u' & v' & -> & M'). destruct (names_fun _ _ _ _ _ M N) as [-> ->], (names_fun _ _ _ _ _ M' N') as [-> ->]. reflexivity.
  - rewrite (IH _ _ H1 H1'), (U _ _ _ HP HP'). reflexivity.
Qed.

(** * C77 *)
(** Deriving the public key of a tweaked secret key, and tweaking the public key: the same bytes, or the same error, for all byte strings. *)
Lemma C77_derive_pf : forall dbg dbg' gctx gctx' vctx bk bt, gen_ctx gctx -> gen_ctx gctx' -> verify_ctx vctx -> bytes bk -> bytes bt ->
  (let? k := w_sec_add dbg bk bt in w_public dbg gctx k) = (let? q := w_public dbg' gctx' bk in w_pub_add dbg' vctx q bt) /\
  (let? k := w_sec_mul dbg bk bt in w_public dbg gctx k) = (let? q := w_public dbg' gctx' bk in w_pub_mul dbg' vctx q bt).
Proof.
  intros dbg dbg' gctx gctx' vctx bk bt C C' CV BK BT.
  destruct (sk_cases dbg bk BK) as [(d & HD & ED)|[ND (e & ED)]].
  2: { unfold w_sec_add, w_sec_mul, w_sec_tweak. unfold w_public at 2 4. rewrite !ED. auto. }
  pose proof HD as [D _]. destruct (pub_at dbg' gctx' bk d C' HD) as (x & y & E & ->). cbn [rbind].
  pose proof (on_G d x y ltac:(lia) E) as O. pose proof (full_names x y O) as N. destruct (names_bytes _ _ _ N) as [BF _].
  destruct (sk_cases dbg bt BT) as [(t & HT & ET)|[NT (e & ET)]].
  2: { destruct (slice_names dbg' _ x y N) as (k & EK & _). unfold w_sec_add, w_sec_mul, w_sec_tweak, w_pub_add, w_pub_mul, w_pub_tweak. rewrite !ED, EK. cbn [rbind]. rewrite !ET. auto. }
  pose proof HT as [T _]. destruct (slice_names dbg' _ x y N) as (k & EK & KA). split.
  - unfold w_sec_add, w_sec_tweak, w_pub_add, w_pub_tweak. rewrite ED, EK, (secret_parse dbg bt t HT), (secret_parse dbg' bt t HT). cbn [rbind].
    rewrite <- E in KA. destruct (C34_commutes_pf dbg' dbg vctx gctx k d t CV C D T KA) as [[-> ->]|(k1 & d1 & k2 & E1 & E2 & E3 & Q)]; [reflexivity|]. rewrite E1, E2. cbn [bind rbind].
    destruct (C32_secret_tweak_add_pf dbg d t D T) as [S R]. rewrite E2 in S. destruct (Z.eqb_spec (d + t) n) as [EN|NE]; [discriminate S|]. specialize (R NE). assert (d1 = scalar_of ((d + t) mod n)) as -> by (apply some_inv in S; congruence). clear S.
    rewrite (proj1 (C02_seckey_roundtrip_pf dbg _ R)). unfold w_public. rewrite (secret_parse dbg (be_bytes 32 ((d + t) mod n)) _ (conj R eq_refl)). cbn [rbind]. rewrite E3. cbn [bind].
    destruct (C34_public_tweak_add_pf dbg' vctx k (smul d G) t CV KA) as [A1 A2]; [rewrite E; discriminate | lia|].
    destruct (C21_from_secret_key_pf dbg gctx _ C R) as (k2' & E3' & _ & K2 & N2). rewrite E3 in E3'. apply some_inv in E3'. subst k2'.
    assert (PE : padd (smul d G) (smul t G) = smul ((d + t) mod n) G) by (rewrite smulG_mod, smulG_add by lia; reflexivity). rewrite PE in A2. destruct (A2 N2) as (k1' & E1' & K1). rewrite E1 in E1'. apply some_inv in E1'. assert (k1' = k1) as -> by congruence.
    destruct (smul ((d + t) mod n) G) as [|u v]; [contradiction|]. rewrite (ser_at dbg k2 u v K2), (ser_at dbg' k1 u v (key_mono _ _ K1)). reflexivity.
  - unfold w_sec_mul, w_sec_tweak, w_pub_mul, w_pub_tweak. rewrite ED, EK, (secret_parse dbg bt t HT), (secret_parse dbg' bt t HT). cbn [rbind].
    rewrite <- E in KA. destruct (C33_secret_tweak_mul_pf dbg d t D T) as [S R]. rewrite S. cbn [bind rbind]. rewrite (proj1 (C02_seckey_roundtrip_pf dbg _ R)). unfold w_public. rewrite (secret_parse dbg (be_bytes 32 ((d * t) mod n)) _ (conj R eq_refl)). cbn [rbind].
    destruct (proj2 (C35_public_tweak_mul_pf dbg' vctx k (smul d G) t CV KA ltac:(rewrite E; discriminate) ltac:(lia)) ltac:(lia)) as (k1 & -> & K1 & N1). cbn [bind].
    destruct (C21_from_secret_key_pf dbg gctx _ C R) as (k2 & -> & _ & K2 & N2). cbn [bind].
    assert (OG : on_curve G) by apply C56_cyclic_example_pf. destruct (C56_scalar_action_pf G t d OG ltac:(lia) ltac:(lia)) as (_ & M & _ & _). destruct (C56_scalar_action_pf G (t * d) 0 OG ltac:(nia) ltac:(lia)) as (_ & _ & MM & _).
    rewrite <- M, <- MM, (Z.mul_comm t d) in K1. destruct (smul ((d * t) mod n) G) as [|u v]; [contradiction|]. rewrite (ser_at dbg k2 u v K2), (ser_at dbg' k1 u v (key_mono _ _ K1)). reflexivity.
Qed.
(** The error for a tweak to zero is met, too. *)
Lemma C77_derive_example_pf : (exists ctx, gen_ctx ctx) /\ (exists ctx, verify_ctx ctx) /\ w_sec_add true (be_bytes 32 1) (be_bytes 32 (n - 1)) = Some (Err TweakOutOfRange) /\ w_sec_add true (be_bytes 32 1) (be_bytes 32 1) = Some (Ok (be_bytes 32 2)).
Proof. split; [apply C35_commutes_example_pf|]. split; [apply C34_public_tweak_add_example_pf|]. split; vmr. Qed.
(** The result depends on the point a key names, not on the format it is written in: verification, ECDH, tweaks. *)
Lemma C77_formats_pf : forall dbg bp bp' x y, names bp x y -> names bp' x y ->
  (forall ctx bm bs, verify_ctx ctx -> bytes bm -> bytes bs -> w_verify dbg ctx bm bs bp = w_verify dbg ctx bm bs bp') /\
  (forall D bk, bytes bk -> w_ecdh dbg D bp bk = w_ecdh dbg D bp' bk) /\
  (forall ctx bt, verify_ctx ctx -> bytes bt -> w_pub_add dbg ctx bp bt = w_pub_add dbg ctx bp' bt /\ w_pub_mul dbg ctx bp bt = w_pub_mul dbg ctx bp' bt) /\
  (forall l l', Forall bytes l -> Forall bytes l' -> w_combine dbg (l ++ bp :: l') = w_combine dbg (l ++ bp' :: l')).
Proof.
  intros dbg bp bp' x y N N'. destruct (slice_names dbg bp x y N) as (k & E & K), (slice_names dbg bp' x y N') as (k' & E' & K').
  assert (Q : pk_eq dbg k k' = Some true) by exact (key_same _ _ _ dbg K K' ltac:(discriminate)).
  split; [|split; [|split]].
  - intros ctx bm bs C BM BS. unfold w_verify, w_verify_with. destruct (msg_cases dbg bm BM) as [(z & _ & Z & ->)|[_ (e & ->)]]; [|reflexivity]. cbn [rbind].
    destruct (std_cases dbg bs BS) as [(r & s & (R & S & _) & ->)|[_ (e & ->)]]; [|reflexivity]. cbn [rbind]. rewrite E, E'. cbn [rbind].
    destruct (C22_verify_pf dbg ctx k (Aff x y) z r s C K ltac:(discriminate) R S Z) as (b & -> & HB), (C22_verify_pf dbg ctx k' (Aff x y) z r s C K' ltac:(discriminate) R S Z) as (b' & -> & HB').
    cbn [bind]. do 2 f_equal. apply Bool.eq_iff_eq_true. rewrite HB, HB'. reflexivity.
  - intros D bk BK. unfold w_ecdh. rewrite E, E'. cbn [rbind]. destruct (sk_cases dbg bk BK) as [(d & [DR _] & ->)|[_ (e & ->)]]; [|reflexivity]. cbn [rbind].
    destruct (proj2 (C37_ecdh_pf dbg D k (Aff x y) d K ltac:(discriminate) ltac:(lia)) ltac:(lia)) as (u & v & EU & ->), (proj2 (C37_ecdh_pf dbg D k' (Aff x y) d K' ltac:(discriminate) ltac:(lia)) ltac:(lia)) as (u' & v' & EU' & ->).
    rewrite EU in EU'. congruence.
  - intros ctx bt C BT. unfold w_pub_add, w_pub_mul, w_pub_tweak. rewrite E, E'. cbn [rbind]. destruct (sk_cases dbg bt BT) as [(t & [T _] & ->)|[_ (e & ->)]]; [|auto]. cbn [rbind]. split.
    + destruct (C34_public_tweak_add_pf dbg ctx k (Aff x y) t C K ltac:(discriminate) ltac:(lia)) as [A1 A2], (C34_public_tweak_add_pf dbg ctx k' (Aff x y) t C K' ltac:(discriminate) ltac:(lia)) as [B1 B2].
      destruct (padd (Aff x y) (smul t G)) as [|u v]; [rewrite (A1 eq_refl), (B1 eq_refl); reflexivity|]. destruct (A2 ltac:(discriminate)) as (q & -> & KQ), (B2 ltac:(discriminate)) as (q' & -> & KQ'). cbn [bind].
      rewrite (ser_at dbg q u v (key_mono _ _ KQ)), (ser_at dbg q' u v (key_mono _ _ KQ')). reflexivity.
    + destruct (proj2 (C35_public_tweak_mul_pf dbg ctx k (Aff x y) t C K ltac:(discriminate) ltac:(lia)) ltac:(lia)) as (q & -> & KQ & NQ), (proj2 (C35_public_tweak_mul_pf dbg ctx k' (Aff x y) t C K' ltac:(discriminate) ltac:(lia)) ltac:(lia)) as (q' & -> & KQ' & _). cbn [bind].
      destruct (smul t (Aff x y)) as [|u v]; [contradiction|]. rewrite (ser_at dbg q u v (key_mono _ _ KQ)), (ser_at dbg q' u v (key_mono _ _ KQ')). reflexivity.
  - intros l l' B B'. destruct (names_bytes _ _ _ N) as [BP _], (names_bytes _ _ _ N') as [BP' _].
    assert (F : Forall bytes (l ++ bp :: l')) by (apply Forall_app; split; [exact B | constructor; assumption]). assert (F' : Forall bytes (l ++ bp' :: l')) by (apply Forall_app; split; [exact B | constructor; assumption]).
    unfold w_combine. pose proof (combine_swap dbg l bp bp' l' k k' E E') as W.
    destruct (w_parse_all dbg (l ++ bp :: l')) as [[ks|e]|] eqn:EA, (w_parse_all dbg (l ++ bp' :: l')) as [[ks'|e']|] eqn:EB; try contradiction; [|cbn [rbind]; congruence|reflexivity]. cbn [rbind].
    destruct (parse_all dbg _ F) as [(ks0 & Ps & E1 & H1 & M1)|[_ (e & E1)]]; [|rewrite EA in E1; discriminate E1]. rewrite EA in E1. assert (ks0 = ks) as -> by (apply some_inv in E1; congruence). clear E1.
    destruct (parse_all dbg _ F') as [(ks0 & Ps' & E1 & H1' & M1')|[_ (e & E1)]]; [|rewrite EB in E1; discriminate E1]. rewrite EB in E1. assert (ks0 = ks') as -> by (apply some_inv in E1; congruence). clear E1.
    assert (Ps' = Ps) as -> by exact (points_swap bp bp' x y l l' N N' Ps Ps' M1 M1').
    assert (FP : Forall fin Ps) by (clear -M1; induction M1 as [|b P m Qs (u & v & -> & _) _ IH]; constructor; [discriminate | exact IH]).
    destruct (C36_combine_pf dbg ks Ps H1 FP) as [A1 A2], (C36_combine_pf dbg ks' Ps H1' FP) as [B1 B2]. destruct (psum Ps) as [|u v]; [rewrite (A1 eq_refl), (B1 eq_refl); reflexivity|].
    destruct (A2 ltac:(discriminate)) as (q & -> & KQ), (B2 ltac:(discriminate)) as (q' & -> & KQ'). cbn [rbind]. rewrite (ser_at dbg q u v (key_mono _ _ KQ)), (ser_at dbg q' u v (key_mono _ _ KQ')). reflexivity.
Qed.
Lemma C77_formats_example_pf : names (sec1_full gx gy) gx gy /\ names (sec1_compressed gx gy) gx gy /\ sec1_full gx gy <> sec1_compressed gx gy.
Proof. assert (O : on_curve (Aff gx gy)) by apply AFFINE_G_key. split; [split; [exact O | tauto]|]. split; [split; [exact O | tauto]|]. intros E. apply (f_equal (@length Z)) in E. unfold sec1_full, sec1_compressed in E. cbn [length] in E. rewrite app_length, !be_len in E. lia. Qed.
(** Key agreement: each party parses its own secret and the key the other sent, in any format, and both get the same digest. *)
Lemma C77_agreement_pf : forall dbg dbg' ctx ctx' D ba bb pa pb qa qb xa ya xb yb, gen_ctx ctx -> gen_ctx ctx' -> bytes ba -> bytes bb ->
  w_public dbg ctx ba = Some (Ok pa) -> w_public dbg' ctx' bb = Some (Ok pb) -> names pa xa ya -> names qa xa ya -> names pb xb yb -> names qb xb yb ->
  exists k, w_ecdh dbg D qb ba = Some (Ok k) /\ w_ecdh dbg' D qa bb = Some (Ok k).
Proof.
  intros dbg dbg' ctx ctx' D ba bb pa pb qa qb xa ya xb yb C C' BA BB PA PB NA NA' NB NB'.
  destruct (C76_public_pf dbg ctx ba C BA) as (a & E & H). rewrite PA in E. apply some_inv in E. subst a. destruct (proj1 (H pa) eq_refl) as (a & x & y & SA & GA & ->). clear H.
  destruct (C76_public_pf dbg' ctx' bb C' BB) as (b & E & H). rewrite PB in E. apply some_inv in E. subst b. destruct (proj1 (H pb) eq_refl) as (b & x' & y' & SB & GB & ->). clear H.
  pose proof SA as [A _]. pose proof SB as [B _]. destruct (names_fun _ _ _ _ _ NA (full_names _ _ (on_G a x y ltac:(lia) GA))) as [-> ->], (names_fun _ _ _ _ _ NB (full_names _ _ (on_G b x' y' ltac:(lia) GB))) as [-> ->].
  destruct (slice_names dbg qb x' y' NB') as (kb & EB & KB), (slice_names dbg' qa x y NA') as (ka & EA & KA). rewrite <- GB in KB. rewrite <- GA in KA.
  destruct (C38_ecdh_symmetric_pf dbg' dbg D a b ka kb A B KA KB) as (u & v & _ & E1 & E2). exists (D (sec1_compressed u v)).
  unfold w_ecdh. rewrite EA, EB. cbn [rbind]. rewrite (secret_parse dbg ba a SA), (secret_parse dbg' bb b SB). cbn [rbind]. auto.
Qed.
Lemma C77_agreement_example_pf : exists ctx x y, gen_ctx ctx /\ bytes (be_bytes 32 1) /\ w_public true ctx (be_bytes 32 1) = Some (Ok (sec1_full x y)) /\ names (sec1_full x y) x y.
Proof.
  destruct C35_commutes_example_pf as (_ & (ctx & C) & _). destruct (pub_at true ctx (be_bytes 32 1) 1 C (proj1 (proj2 C76_public_example_pf))) as (x & y & E & P). exists ctx, x, y. split; [exact C|]. split; [apply bytes_be|]. split; [exact P|].
  apply full_names, (on_G 1 x y ltac:(lia) E).
Qed.
(** Signing, verification and recovery over the wire: the signature is accepted under the signer's key in any format, and the id gives the signer's 65 bytes back. *)
Lemma C77_sign_verify_pf : forall dbg dbg' drbg fuel gctx gctx' vctx bm bk bs id bp bq x y, gen_ctx gctx -> gen_ctx gctx' -> verify_ctx vctx -> bytes bm -> bytes bk -> (forall s m, stream (drbg s m)) ->
  w_sign dbg drbg fuel gctx bm bk = Done (Ok (bs, id)) -> w_public dbg' gctx' bk = Some (Ok bp) -> dbg = true \/ firstn 32 bs <> repeat 0 32 -> names bp x y -> names bq x y ->
  w_verify dbg' vctx bm bs bq = Some (Ok true) /\ w_recover dbg' vctx bm bs id = Some (Ok bp).
Proof.
  intros dbg dbg' drbg fuel gctx gctx' vctx bm bk bs id bp bq x y C C' CV BM BK ST ES EP NZ N NQ. unfold w_sign in ES.
  destruct (msg_cases dbg bm BM) as [(z & HM & Z & EM)|[_ (e & EM)]]; rewrite EM in ES; [|discriminate ES].
  destruct (sk_cases dbg bk BK) as [(d & HD & ED)|[_ (e & ED)]]; rewrite ED in ES; [|discriminate ES].
  destruct (sign dbg drbg fuel gctx (scalar_of z) (scalar_of d)) as [[g i]| |] eqn:SG; [|discriminate ES|discriminate ES]. injection ES as <- <-. unfold rid_serialize.
  pose proof HD as [D _]. destruct (C28_low_s_pf dbg drbg fuel gctx d z g i C ltac:(lia) Z (ST _ _) SG) as (r & s & EG & R & S & _). assert (S2 : 1 <= s < n) by (split; [lia|]; eapply Z.le_lt_trans; [apply S | vmr]). pose proof n_lt as NL.
  assert (SB : sig_serialize g = be_bytes 32 r ++ be_bytes 32 s) by (rewrite EG; apply (C08_sig_roundtrip_pf dbg r s); lia).
  assert (RZ : s_is_zero (sig_r g) = false).
  { destruct NZ as [->|NZ]; [destruct (s_is_zero (sig_r g)) eqn:K; [|reflexivity]; destruct (C23_r_zero_pf true drbg fuel gctx d z g i C ltac:(lia) Z (ST _ _) SG K) as [K' _]; discriminate K'|].
    destruct (s_is_zero (sig_r g)) eqn:K; [|reflexivity]. exfalso. apply NZ. rewrite SB, EG in *. cbn [sig_r] in K. rewrite s_is_zero_eq in K by lia. apply Z.eqb_eq in K. subst r. rewrite firstn_app, be_len, Nat.sub_diag, firstn_O, app_nil_r, firstn_all2 by (rewrite be_len; lia). vmr. }
  destruct (pub_at dbg' gctx' bk d C' HD) as (x' & y' & GD & EP'). rewrite EP in EP'. apply some_inv in EP'. assert (bp = sec1_full x' y') as -> by congruence. clear EP EP'.
  destruct (names_fun _ _ _ _ _ N (full_names _ _ (on_G d x' y' ltac:(lia) GD))) as [-> ->].
  assert (HS : sig_bytes (sig_serialize g) r s) by (split; [lia|]; split; [lia | exact SB]). assert (BS : bytes (sig_serialize g)) by (rewrite SB; apply Forall_app; split; apply bytes_be).
  destruct (slice_names dbg' bq x' y' NQ) as (k & EK & KA). destruct (names_bytes _ _ _ NQ) as [BQ _].
  assert (EM' : msg_parse_slice dbg' bm = Some (Ok (scalar_of z))) by (destruct HM as [L ->]; rewrite (C10_message_slice_pf dbg' bm BM), L; reflexivity).
  assert (EG' : sig_parse_standard_slice dbg' (sig_serialize g) = Some (Ok g)).
  { destruct (std_cases dbg' _ BS) as [(r' & s' & (R' & S' & E') & E)|[NS _]]; [|elim (NS _ _ HS)]. rewrite E. do 2 f_equal. rewrite SB in E'. apply app_inj_len in E'; [|rewrite !be_len; reflexivity]. destruct E' as [E1 E2]. rewrite (be32_inj r r' ltac:(lia) ltac:(lia) E1), (be32_inj s s' ltac:(lia) ltac:(lia) E2) in EG. symmetry. exact EG. }
  rewrite <- GD in KA. split.
  - unfold w_verify, w_verify_with. rewrite EM'. cbn [rbind]. rewrite EG'. cbn [rbind]. rewrite EK. cbn [rbind]. rewrite (C23_sign_verify_pf dbg dbg' drbg fuel gctx vctx d z g i k C CV D Z (ST _ _) SG RZ KA). reflexivity.
  - destruct (C24_sign_recover_pf dbg dbg' drbg fuel gctx vctx d z g i C CV D Z (ST _ _) SG RZ) as (ID & q & EQ & KQ & _). unfold w_recover. rewrite EM'. cbn [rbind]. rewrite EG'. cbn [rbind].
    unfold rid_parse. destruct (Z.ltb_spec i 4); [|lia]. rewrite EQ. cbn [rbind]. rewrite GD in KQ. rewrite (ser_at dbg' q x' y' KQ). reflexivity.
Qed.
Lemma C77_sign_verify_example_pf : exists drbg gctx bs id, gen_ctx gctx /\ (forall s m, stream (drbg s m)) /\ w_sign true drbg 2 gctx (be_bytes 32 1) (be_bytes 32 1) = Done (Ok (bs, id)).
Proof.
  destruct C23_sign_verify_example_pf as (drbg & gctx & g & id & HG & ST & ES & NZ). exists (fun _ _ => drbg (be_bytes 32 1) (be_bytes 32 1)), gctx, (sig_serialize g), id. split; [exact HG|]. split; [intros _ _; exact ST|].
  unfold w_sign.
  assert (EM : msg_parse_slice true (be_bytes 32 1) = Some (Ok (scalar_of 1))) by vmr. assert (EK : sk_parse_slice true (be_bytes 32 1) = Some (Ok (scalar_of 1))) by vmr. rewrite EM, EK.
  unfold sign in ES |- *. cbv beta. change (drbg (s_b32 (scalar_of 1)) (s_b32 (scalar_of 1))) with (drbg (sk_serialize (scalar_of 1)) (sk_serialize (scalar_of 1))) in ES.
  assert (O : 1 <= 1 < n) by vmr. rewrite (proj1 (C02_seckey_roundtrip_pf true 1 O)) in ES. rewrite ES. reflexivity.
Qed.
