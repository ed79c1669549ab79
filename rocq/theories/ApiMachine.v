(** Any program against the API computes what an abstract machine on integers, points and bytes computes. *)
From Verif Require Import Word MField MScalar MGroup MEcmult MEcdsa MDer MApi MEq MMachine MDrbg WP FieldNorm Spec Fp Bits Denote Curve Group Order Key Ctx ApiScalar ApiDer ApiGrammar ApiPub ApiGroup ApiEcdsa ApiKeys ApiMore ApiBase64 ApiEq ApiWire ApiDrbg.

(** * The abstract machine *)
(** Values: points (x, y) of the curve, integers, bytes. *)
Inductive aval :=
| APub (x y : Z) | ASec (d : Z) | ASig (r s : Z) | AMsg (z : Z) | ARid (i : Z)
| ABytes (b : list Z) | AByte (v : Z) | ABool (b : bool) | AErr (e : error) | AUnit.
Inductive kind := KPub | KSec | KSig | KMsg | KRid | KBytes | KOther.
Definition akind (v : aval) : kind :=
  match v with APub _ _ => KPub | ASec _ => KSec | ASig _ _ => KSig | AMsg _ => KMsg | ARid _ => KRid | ABytes _ => KBytes | _ => KOther end.
Definition has (st : list aval) (k : kind) (i : nat) : Prop := exists v, nth_error st i = Some v /\ akind v = k.
(** the call has arguments of its types *)
Definition applies (st : list aval) (c : cmd) : Prop :=
  match c with
  | Input _ | SkRandom _ | SkDefault | RidParse _ | RidParseRpc _ => True
  | PkParse i _ | SkParse i | SigParseStandard i | SigParseOverflowing i | SigParseDer i | SigParseDerLax i | MsgParse i => has st KBytes i
  | PkSerialize i | PkSerializeCompressed i => has st KPub i
  | PkFromSecret i | SkSerialize i | SkInv i => has st KSec i
  | PkTweakAdd i j | PkTweakMul i j | Ecdh i j => has st KPub i /\ has st KSec j
  | PkCombine l => Forall (has st KPub) l
  | PkEqual i j => has st KPub i /\ has st KPub j
  | SkTweakAdd i j | SkTweakMul i j | SkEqual i j => has st KSec i /\ has st KSec j
  | SigNormalize i | SigSerialize i | SigSerializeDer i => has st KSig i
  | SigEqual i j => has st KSig i /\ has st KSig j
  | MsgSerialize i => has st KMsg i
  | RidSerialize i => has st KRid i
  | Verify i j l => has st KMsg i /\ has st KSig j /\ has st KPub l
  | Recover i j l => has st KMsg i /\ has st KSig j /\ has st KRid l
  | Sign i j => has st KMsg i /\ has st KSec j
  end.

(** the value with property [F] if there is one, otherwise the error *)
Definition answers {X} (F : X -> Prop) (inj : X -> aval) (e : error) (v : aval) : Prop :=
  (exists x, F x /\ v = inj x) \/ ((forall x, ~ F x) /\ v = AErr e).
Definition decides (P : Prop) (v : aval) : Prop := (P /\ v = ABool true) \/ (~ P /\ v = ABool false).
(** the lengths a format allows *)
Definition fits (f : option pkformat) (l : nat) : bool :=
  match f with
  | None => (l =? 33)%nat || (l =? 64)%nat || (l =? 65)%nat
  | Some Compressed => (l =? 33)%nat | Some Raw => (l =? 64)%nat | Some Full => (l =? 65)%nat
  end.
Definition wrong_length (good : bool) (e : error) : error := if good then e else InvalidInputLength.
(** both halves taken modulo n *)
Definition overflowing (b : list Z) (r s : Z) : Prop := exists u v, length u = 32%nat /\ length v = 32%nat /\ b = u ++ v /\ r = be_val u mod n /\ s = be_val v mod n.
(** the first block that is a secret key *)
Definition draws (rng : nat -> list Z) (d : Z) : Prop := exists j, (forall l e, (l < j)%nat -> ~ secret_bytes (rng l) e) /\ secret_bytes (rng j) d.
(** the signature by the first usable nonce *)
Definition signs (gen : nat -> list Z) (d z r s id : Z) : Prop :=
  exists j, (forall l, (l < j)%nat -> ~ usable d z (nonce gen l)) /\ usable d z (nonce gen j) /\ signature_for d z (nonce gen j) r s id.
(** the points at these positions *)
Inductive points (st : list aval) : list nat -> list point -> Prop :=
| pts_nil : points st [] []
| pts_cons i l x y Ps : nth_error st i = Some (APub x y) -> points st l Ps -> points st (i :: l) (Aff x y :: Ps).

Section Abstract.
Variable D : list Z -> list Z.
Variable drbg : list Z -> list Z -> nat -> list Z.

(** One call: the state before, the command, the state after. *)
Inductive astep (st : list aval) : cmd -> list aval -> Prop :=
| a_skip c : ~ applies st c -> astep st c st
| a_input b : astep st (Input b) (st ++ [ABytes b])
| a_pk_parse i f b v : nth_error st i = Some (ABytes b) ->
    answers (fun q => fits f (length b) = true /\ names b (fst q) (snd q)) (fun q => APub (fst q) (snd q)) (wrong_length (fits f (length b)) InvalidPublicKey) v -> astep st (PkParse i f) (st ++ [v])
| a_pk_from i d x y : nth_error st i = Some (ASec d) -> smul d G = Aff x y -> astep st (PkFromSecret i) (st ++ [APub x y])
| a_pk_ser i x y : nth_error st i = Some (APub x y) -> astep st (PkSerialize i) (st ++ [ABytes (sec1_full x y)])
| a_pk_serc i x y : nth_error st i = Some (APub x y) -> astep st (PkSerializeCompressed i) (st ++ [ABytes (sec1_compressed x y)])
| a_pk_add i j x y t u v : nth_error st i = Some (APub x y) -> nth_error st j = Some (ASec t) -> padd (Aff x y) (smul t G) = Aff u v -> astep st (PkTweakAdd i j) (upd st i (APub u v) ++ [AUnit])
| a_pk_add_inf i j x y t : nth_error st i = Some (APub x y) -> nth_error st j = Some (ASec t) -> padd (Aff x y) (smul t G) = Inf -> astep st (PkTweakAdd i j) (st ++ [AErr TweakOutOfRange])
| a_pk_mul i j x y t u v : nth_error st i = Some (APub x y) -> nth_error st j = Some (ASec t) -> smul t (Aff x y) = Aff u v -> astep st (PkTweakMul i j) (upd st i (APub u v) ++ [AUnit])
| a_pk_combine l Ps v : points st l Ps -> answers (fun q => psum Ps = Aff (fst q) (snd q)) (fun q => APub (fst q) (snd q)) InvalidPublicKey v -> astep st (PkCombine l) (st ++ [v])
| a_pk_eq i j x y x' y' v : nth_error st i = Some (APub x y) -> nth_error st j = Some (APub x' y') -> decides (x = x' /\ y = y') v -> astep st (PkEqual i j) (st ++ [v])
| a_sk_parse i b v : nth_error st i = Some (ABytes b) -> answers (secret_bytes b) ASec (wrong_length (length b =? 32)%nat InvalidSecretKey) v -> astep st (SkParse i) (st ++ [v])
| a_sk_random rng d : draws rng d -> astep st (SkRandom rng) (st ++ [ASec d])
| a_sk_default : astep st SkDefault (st ++ [ASec 1])
| a_sk_ser i d : nth_error st i = Some (ASec d) -> astep st (SkSerialize i) (st ++ [ABytes (be_bytes 32 d)])
| a_sk_add i j d t : nth_error st i = Some (ASec d) -> nth_error st j = Some (ASec t) -> d + t <> n -> astep st (SkTweakAdd i j) (upd st i (ASec ((d + t) mod n)) ++ [AUnit])
| a_sk_add_zero i j d t : nth_error st i = Some (ASec d) -> nth_error st j = Some (ASec t) -> d + t = n -> astep st (SkTweakAdd i j) (st ++ [AErr TweakOutOfRange])
| a_sk_mul i j d t : nth_error st i = Some (ASec d) -> nth_error st j = Some (ASec t) -> astep st (SkTweakMul i j) (upd st i (ASec ((d * t) mod n)) ++ [AUnit])
| a_sk_inv i d e : nth_error st i = Some (ASec d) -> 1 <= e < n -> (e * d) mod n = 1 -> astep st (SkInv i) (st ++ [ASec e])
| a_sk_eq i j d e v : nth_error st i = Some (ASec d) -> nth_error st j = Some (ASec e) -> decides (d = e) v -> astep st (SkEqual i j) (st ++ [v])
| a_sig_standard i b v : nth_error st i = Some (ABytes b) -> answers (fun g => sig_bytes b (fst g) (snd g)) (fun g => ASig (fst g) (snd g)) (wrong_length (length b =? 64)%nat InvalidSignature) v -> astep st (SigParseStandard i) (st ++ [v])
| a_sig_overflowing i b v : nth_error st i = Some (ABytes b) -> answers (fun g => overflowing b (fst g) (snd g)) (fun g => ASig (fst g) (snd g)) InvalidInputLength v -> astep st (SigParseOverflowing i) (st ++ [v])
| a_sig_der i b v : nth_error st i = Some (ABytes b) -> answers (fun g => 0 <= fst g < n /\ 0 <= snd g < n /\ strict_accepts b (fst g) (snd g)) (fun g => ASig (fst g) (snd g)) InvalidSignature v -> astep st (SigParseDer i) (st ++ [v])
| a_sig_der_lax i b v : nth_error st i = Some (ABytes b) -> answers (fun g => 0 <= fst g < n /\ 0 <= snd g < n /\ lax_sig b (fst g) (snd g)) (fun g => ASig (fst g) (snd g)) InvalidSignature v -> astep st (SigParseDerLax i) (st ++ [v])
| a_sig_norm i r s : nth_error st i = Some (ASig r s) -> astep st (SigNormalize i) (upd st i (ASig r (if s <? (n - 1) / 2 then s else n - s)))
| a_sig_ser i r s : nth_error st i = Some (ASig r s) -> astep st (SigSerialize i) (st ++ [ABytes (be_bytes 32 r ++ be_bytes 32 s)])
| a_sig_der_ser i r s b : nth_error st i = Some (ASig r s) -> der_sig r s b -> astep st (SigSerializeDer i) (st ++ [ABytes b])
| a_sig_eq i j r s r' s' v : nth_error st i = Some (ASig r s) -> nth_error st j = Some (ASig r' s') -> decides (r = r' /\ s = s') v -> astep st (SigEqual i j) (st ++ [v])
| a_msg_parse i b v : nth_error st i = Some (ABytes b) -> answers (hash_bytes b) AMsg InvalidInputLength v -> astep st (MsgParse i) (st ++ [v])
| a_msg_ser i z : nth_error st i = Some (AMsg z) -> astep st (MsgSerialize i) (st ++ [ABytes (be_bytes 32 z)])
| a_rid_parse b v : answers (fun i => 0 <= i < 4 /\ b = i) ARid InvalidRecoveryId v -> astep st (RidParse b) (st ++ [v])
| a_rid_rpc b v : answers (fun i => 0 <= i < 4 /\ b = 27 + i) ARid InvalidRecoveryId v -> astep st (RidParseRpc b) (st ++ [v])
| a_rid_ser i r : nth_error st i = Some (ARid r) -> astep st (RidSerialize i) (st ++ [AByte r])
| a_ecdh i j x y d u v : nth_error st i = Some (APub x y) -> nth_error st j = Some (ASec d) -> smul d (Aff x y) = Aff u v -> astep st (Ecdh i j) (st ++ [ABytes (D (sec1_compressed u v))])
| a_verify i j l z r s x y v : nth_error st i = Some (AMsg z) -> nth_error st j = Some (ASig r s) -> nth_error st l = Some (APub x y) -> decides (ecdsa_valid (Aff x y) z r s) v -> astep st (Verify i j l) (st ++ [v])
| a_recover i j l z r s id v : nth_error st i = Some (AMsg z) -> nth_error st j = Some (ASig r s) -> nth_error st l = Some (ARid id) ->
    answers (fun q => recovers z r s id (Aff (fst q) (snd q))) (fun q => APub (fst q) (snd q)) InvalidSignature v -> astep st (Recover i j l) (st ++ [v])
| a_sign i j z d r s id : nth_error st i = Some (AMsg z) -> nth_error st j = Some (ASec d) -> signs (drbg (be_bytes 32 d) (be_bytes 32 z)) d z r s id -> astep st (Sign i j) (st ++ [ASig r s; ARid id]).
Inductive aruns : list aval -> list cmd -> list aval -> Prop :=
| aruns_nil st : aruns st [] st
| aruns_cons st c st1 p st2 : astep st c st1 -> aruns st1 p st2 -> aruns st (c :: p) st2.

(** A debug build panics here: the nonces before it give no signature, and this one's point has x >= n. *)
Definition faults (st : list aval) (c : cmd) : Prop := exists i j z d l, c = Sign i j /\ nth_error st i = Some (AMsg z) /\ nth_error st j = Some (ASec d) /\
  let gen := drbg (be_bytes 32 d) (be_bytes 32 z) in (forall l', (l' < l)%nat -> ~ usable d z (nonce gen l')) /\ wraps (nonce gen l).
(** The loop of this call has not ended after [fuel] iterations: no block so far was a key or a usable nonce. *)
Definition waits (fuel : nat) (st : list aval) (c : cmd) : Prop :=
  (exists rng, c = SkRandom rng /\ forall l d, (l < fuel)%nat -> ~ secret_bytes (rng l) d) \/
  (exists i j z d, c = Sign i j /\ nth_error st i = Some (AMsg z) /\ nth_error st j = Some (ASec d) /\ forall l, (l < fuel)%nat -> ~ usable d z (nonce (drbg (be_bytes 32 d) (be_bytes 32 z)) l)).
End Abstract.

(** * Which abstract value a value of the library stands for *)
Definition small (b : list Z) : Prop := bytes b /\ len b < 2 ^ 55.
Inductive rep : cval -> aval -> Prop :=
| rep_pub k x y : key_at k (Aff x y) -> rep (CPub k) (APub x y)
| rep_sec d : 1 <= d < n -> rep (CSec (scalar_of d)) (ASec d)
| rep_sig r s : 0 <= r < n -> 0 <= s < n -> rep (CSig (Sig (scalar_of r) (scalar_of s))) (ASig r s)
| rep_msg z : 0 <= z < n -> rep (CMsg (scalar_of z)) (AMsg z)
| rep_rid i : 0 <= i < 4 -> rep (CRid i) (ARid i)
| rep_bytes b : small b -> rep (CBytes b) (ABytes b)
| rep_byte v : rep (CByte v) (AByte v)
| rep_bool b : rep (CBool b) (ABool b)
| rep_err e : rep (CErr e) (AErr e)
| rep_unit : rep CUnit AUnit.
Notation reps := (Forall2 rep).
(** the input of the program is bytes, the random generator gives blocks of 32 bytes *)
Definition cmd_ok (c : cmd) : Prop :=
  match c with Input b => small b | SkRandom rng => stream rng | RidParse v | RidParseRpc v => 0 <= v < 256 | _ => True end.

Lemma reps_nth st ast : reps st ast -> forall i, (exists v a, nth_error st i = Some v /\ nth_error ast i = Some a /\ rep v a) \/ (nth_error st i = None /\ nth_error ast i = None).
Proof. induction 1 as [|v a st ast V _ IH]; intros [|i]; cbn [nth_error]; [auto | auto | left; eauto | apply IH]. Qed.
Lemma reps_app st ast st' ast' : reps st ast -> reps st' ast' -> reps (st ++ st') (ast ++ ast').
Proof. apply Forall2_app. Qed.
Lemma reps_push st ast v a : reps st ast -> rep v a -> reps (st ++ [v]) (ast ++ [a]).
Proof. intros H V. apply reps_app; [exact H | repeat constructor; exact V]. Qed.
Lemma reps_upd st ast : reps st ast -> forall i v a, rep v a -> reps (upd st i v) (upd ast i a).
Proof. induction 1 as [|v a st ast V H IH]; intros [|i] w b W; cbn [upd]; constructor; auto. Qed.
Lemma upd_same {A} (st : list A) : forall i v, nth_error st i = Some v -> upd st i v = st.
Proof. induction st as [|w st IH]; intros [|i] v H; cbn [nth_error upd] in *; [discriminate | discriminate | congruence | rewrite IH by exact H; reflexivity]. Qed.

Section Views.
Context {st : list cval} {ast : list aval} (R : reps st ast).
Ltac view i := destruct (reps_nth st ast R i) as [(v & a & E & EA & V)|[E EA]];
  [destruct V; try (right; split; [intros (? & K & KA); rewrite EA in K; injection K as <-; discriminate KA | intros ? K; rewrite E in K; discriminate K]); left; repeat match goal with |- exists _, _ => eexists end; repeat (split; [eassumption|]); assumption
  |right; split; [intros (? & K & _); congruence | congruence]].
Lemma view_pub i : (exists k x y, nth_error st i = Some (CPub k) /\ nth_error ast i = Some (APub x y) /\ key_at k (Aff x y)) \/ (~ has ast KPub i /\ forall k, nth_error st i <> Some (CPub k)).
Proof. view i. Qed.
Lemma view_sec i : (exists d, nth_error st i = Some (CSec (scalar_of d)) /\ nth_error ast i = Some (ASec d) /\ 1 <= d < n) \/ (~ has ast KSec i /\ forall k, nth_error st i <> Some (CSec k)).
Proof. view i. Qed.
Lemma view_sig i : (exists r s, nth_error st i = Some (CSig (Sig (scalar_of r) (scalar_of s))) /\ nth_error ast i = Some (ASig r s) /\ 0 <= r < n /\ 0 <= s < n) \/ (~ has ast KSig i /\ forall k, nth_error st i <> Some (CSig k)).
Proof. view i. Qed.
Lemma view_msg i : (exists z, nth_error st i = Some (CMsg (scalar_of z)) /\ nth_error ast i = Some (AMsg z) /\ 0 <= z < n) \/ (~ has ast KMsg i /\ forall k, nth_error st i <> Some (CMsg k)).
Proof. view i. Qed.
Lemma view_rid i : (exists r, nth_error st i = Some (CRid r) /\ nth_error ast i = Some (ARid r) /\ 0 <= r < 4) \/ (~ has ast KRid i /\ forall k, nth_error st i <> Some (CRid k)).
Proof. view i. Qed.
Lemma view_bytes i : (exists b, nth_error st i = Some (CBytes b) /\ nth_error ast i = Some (ABytes b) /\ bytes b /\ len b < 2 ^ 55) \/ (~ has ast KBytes i /\ forall k, nth_error st i <> Some (CBytes k)).
Proof.
  destruct (reps_nth st ast R i) as [(v & a & E & EA & V)|[E EA]]; [destruct V as [| | | | |b SB| | | |]; try (right; split; [intros (? & K & KA); rewrite EA in K; injection K as <-; discriminate KA | intros ? K; rewrite E in K; discriminate K])|].
  - left. exists b. destruct SB. auto.
  - right; split; [intros (? & K & _); congruence | congruence].
Qed.
Lemma view_pubs l : (exists ks Ps, pubs st l = Some ks /\ points ast l Ps /\ Forall2 key_at ks Ps /\ Forall fin Ps) \/ (~ Forall (has ast KPub) l /\ pubs st l = None).
Proof.
  induction l as [|i l IH]; [left; exists [], []; repeat constructor|]. cbn [pubs]. destruct (view_pub i) as [(k & x & y & -> & EA & K)|[N NK]].
  - destruct IH as [(ks & Ps & -> & HP & HK & HF)|[N ->]].
    + left. exists (k :: ks), (Aff x y :: Ps). split; [reflexivity|]. split; [constructor; assumption|]. split; constructor; [exact K | exact HK | discriminate | exact HF].
    + right. split; [|reflexivity]. intros H. apply N. inversion H; assumption.
  - right. split; [intros H; apply N; inversion H; assumption|]. destruct (nth_error st i) as [[]|]; try reflexivity. elim (NK k eq_refl).
Qed.
End Views.

Lemma small_be l : bytes l -> (length l <= 1000)%nat -> small l.
Proof. intros B L. split; [exact B|]. apply Z.le_lt_trans with 1000; [lia | reflexivity]. Qed.

(** * Exact answers, with the error kinds *)
Lemma fits_none f l : fits f l = true -> pk_format l f = pk_format l None.
Proof.
  destruct f as [[]|]; cbn [fits]; rewrite ?orb_true_iff, ?Nat.eqb_eq; intros H; [rewrite H; reflexivity..|reflexivity].
Qed.
Lemma fits_wrong f l : fits f l = false -> pk_format l f = None.
Proof.
  assert (N : forall k, pk_format l f = Some k -> fits f l = true).
  { unfold pk_format, FULL_PUBLIC_KEY_SIZE, COMPRESSED_PUBLIC_KEY_SIZE, RAW_PUBLIC_KEY_SIZE. destruct (Nat.eqb_spec l 65) as [->|N1]; [destruct f as [[]|]; intros k E; (reflexivity || discriminate E)|].
    destruct (Nat.eqb_spec l 33) as [->|N2]; [destruct f as [[]|]; intros k E; (reflexivity || discriminate E)|].
    destruct (Nat.eqb_spec l 64) as [->|N3]; [destruct f as [[]|]; intros k E; (reflexivity || discriminate E)|]. destruct f as [[]|]; intros k E; discriminate E. }
  destruct (pk_format l f) as [k|]; [|reflexivity]. rewrite (N k eq_refl). discriminate.
Qed.
Lemma slice_error dbg b e : bytes b -> fits None (length b) = true -> pk_parse_slice dbg b None = Some (Err e) -> e = InvalidPublicKey.
Proof.
  intros B. cbn [fits]. rewrite !orb_true_iff, !Nat.eqb_eq. intros L. unfold pk_parse_slice.
  assert (P : forall t c, bytes (t :: c) -> length c = 64%nat -> pk_parse dbg (t :: c) = Some (Err e) -> e = InvalidPublicKey).
  { intros t c BC LC E. destruct (split_33 (t :: c)) as (t' & bx & b_y & E' & LX & LY); [cbn [length]; rewrite LC; reflexivity|]. rewrite E' in BC, E.
    destruct (parse_cases dbg t' bx b_y LX LY BC) as [(k & EK & _)|EE]; [rewrite EK in E; discriminate E | rewrite EE in E; apply some_inv in E; congruence]. }
  destruct L as [[L|L]|L]; rewrite L.
  - change (pk_format 33 None) with (Some Compressed). cbv iota. destruct b as [|t c]; [discriminate L|]. injection L as L. intros E.
    destruct (compressed_cases dbg t c L B) as (r & EK & [(y & k & _ & _ & -> & _)|[_ ->]]); rewrite EK in E; [discriminate E | apply some_inv in E; congruence].
  - change (pk_format 64 None) with (Some Raw). cbv iota. apply P; [constructor; [unfold TAG_PUBKEY_FULL; lia | exact B] | exact L].
  - change (pk_format 65 None) with (Some Full). cbv iota. destruct b as [|t c]; [discriminate L|]. injection L as L. apply P; [exact B | exact L].
Qed.
(** an answer of the library and the abstract answer *)
Definition res_val {A} (f : A -> cval) (r : result A) : cval := match r with Ok a => f a | Err e => CErr e end.
Definition answered {X A} (o : option (result A)) (f : A -> cval) (F : X -> Prop) (inj : X -> aval) (e : error) : Prop :=
  exists r a, o = Some r /\ answers F inj e a /\ rep (res_val f r) a.
Lemma answered_ok {X A} (o : option (result A)) f (F : X -> Prop) inj e k x : o = Some (Ok k) -> F x -> rep (f k) (inj x) -> answered o f F inj e.
Proof. intros E H R. exists (Ok k), (inj x). split; [exact E|]. split; [left; eauto | exact R]. Qed.
Lemma answered_err {X A} (o : option (result A)) (f : A -> cval) (F : X -> Prop) inj e : o = Some (Err e) -> (forall x, ~ F x) -> answered o f F inj e.
Proof. intros E H. exists (Err e), (AErr e). split; [exact E|]. split; [right; auto | constructor]. Qed.

Lemma pk_answer dbg b f : bytes b -> answered (pk_parse_slice dbg b f) CPub (fun q => fits f (length b) = true /\ names b (fst q) (snd q)) (fun q => APub (fst q) (snd q)) (wrong_length (fits f (length b)) InvalidPublicKey).
Proof.
  intros B. destruct (fits f (length b)) eqn:FT.
  - assert (E : pk_parse_slice dbg b f = pk_parse_slice dbg b None) by (unfold pk_parse_slice; rewrite (fits_none f _ FT); reflexivity). rewrite E. clear E.
    assert (FN : fits None (length b) = true) by (revert FT; destruct f as [[]|]; cbn [fits]; rewrite ?orb_true_iff; tauto).
    destruct (slice_cases dbg b B) as [(k & x & y & N & E & K)|[N (e & E)]].
    + apply answered_ok with (k := k) (x := (x, y)); [exact E | split; [reflexivity | exact N] | constructor; exact K].
    + pose proof (slice_error dbg b e B FN E) as ->. apply answered_err; [exact E|]. intros q [_ H]. exact (N _ _ H).
  - apply answered_err; [unfold pk_parse_slice; rewrite (fits_wrong f _ FT); reflexivity|]. intros q [H _]. discriminate H.
Qed.
Lemma sk_answer dbg b : bytes b -> answered (sk_parse_slice dbg b) CSec (secret_bytes b) ASec (wrong_length (length b =? 32)%nat InvalidSecretKey).
Proof.
  intros B. destruct (sk_cases dbg b B) as [(d & S & E)|[N (e & E)]].
  - apply answered_ok with (k := scalar_of d) (x := d); [exact E | exact S | constructor; apply S].
  - apply answered_err; [|exact N]. specialize (E dbg). destruct (C01_seckey_parse_slice_pf dbg b B) as [H1 H2]. destruct (Nat.eqb_spec (length b) 32) as [L|L]; cbn [wrong_length].
    + rewrite (proj1 (H2 L)), (C01_seckey_parse_pf dbg b L B) in *. destruct ((1 <=? be_val b) && (be_val b <? n)); [discriminate E | reflexivity].
    + exact (H1 L).
Qed.
Lemma standard_answer dbg b : bytes b -> answered (sig_parse_standard_slice dbg b) CSig (fun g => sig_bytes b (fst g) (snd g)) (fun g => ASig (fst g) (snd g)) (wrong_length (length b =? 64)%nat InvalidSignature).
Proof.
  intros B. destruct (std_cases dbg b B) as [(r & s & S & E)|[N (e & E)]].
  - apply answered_ok with (k := Sig (scalar_of r) (scalar_of s)) (x := (r, s)); [exact E | exact S | constructor; apply S].
  - apply answered_err; [|intros g; apply N]. destruct (C08_sig_slices_pf dbg b B) as [H1 H2]. destruct (Nat.eqb_spec (length b) 64) as [L|L]; cbn [wrong_length].
    + destruct (H2 L) as [E2 _]. rewrite E2 in *. destruct (split_64 b L) as (u & v & -> & LU & LV). apply Forall_app in B. destruct B as [BU BV]. rewrite (C08_sig_parse_standard_pf dbg u v LU LV BU BV) in *.
      destruct ((be_val u <? n) && (be_val v <? n)); [discriminate E | reflexivity].
    + exact (proj1 (H1 L)).
Qed.
Lemma modn v : 0 <= v mod n < n. Proof. pose proof n_pos. apply Z.mod_pos_bound. lia. Qed.
Lemma overflowing_answer dbg b : bytes b -> answered (sig_parse_overflowing_slice dbg b) CSig (fun g => overflowing b (fst g) (snd g)) (fun g => ASig (fst g) (snd g)) InvalidInputLength.
Proof.
  intros B. destruct (C08_sig_slices_pf dbg b B) as [H1 H2]. destruct (Nat.eq_dec (length b) 64) as [L|L].
  - destruct (H2 L) as (_ & _ & g & E1 & E2). destruct (split_64 b L) as (u & v & -> & LU & LV). apply Forall_app in B. destruct B as [BU BV]. rewrite (C09_sig_parse_overflowing_pf dbg u v LU LV BU BV) in E1. apply some_inv in E1. subst g.
    apply answered_ok with (k := Sig (scalar_of (be_val u mod n)) (scalar_of (be_val v mod n))) (x := (be_val u mod n, be_val v mod n)); [exact E2 | exists u, v; cbn [fst snd]; auto 6 | constructor; apply modn].
  - apply answered_err; [exact (proj2 (H1 L))|]. intros g (u & v & LU & LV & -> & _). rewrite app_length, LU, LV in L. exact (L eq_refl).
Qed.
Lemma der_answer dbg b : bytes b -> len b < 2 ^ 55 -> answered (sig_parse_der dbg b) CSig (fun g => 0 <= fst g < n /\ 0 <= snd g < n /\ strict_accepts b (fst g) (snd g)) (fun g => ASig (fst g) (snd g)) InvalidSignature.
Proof.
  intros B L. destruct (strict_cases dbg b B L) as [(r & s & S & E)|[N (e & E)]].
  - apply answered_ok with (k := Sig (scalar_of r) (scalar_of s)) (x := (r, s)); [exact E | exact S | constructor; apply S].
  - pose proof (strict_sig_inv dbg b B L) as W. rewrite E in W. cbn [wpr] in W. subst e. apply answered_err; [exact E | intros g; apply N].
Qed.
Lemma lax_answer dbg b : bytes b -> answered (sig_parse_der_lax dbg b) CSig (fun g => 0 <= fst g < n /\ 0 <= snd g < n /\ lax_sig b (fst g) (snd g)) (fun g => ASig (fst g) (snd g)) InvalidSignature.
Proof.
  intros B. destruct (lax_cases dbg b B) as [(r & s & S & E)|[N (e & E)]].
  - apply answered_ok with (k := Sig (scalar_of r) (scalar_of s)) (x := (r, s)); [exact E | exact S | constructor; apply S].
  - pose proof (lax_sig_inv dbg b B) as W. rewrite E in W. cbn [wpr] in W. subst e. apply answered_err; [exact E | intros g; apply N].
Qed.
Lemma msg_answer dbg b : bytes b -> answered (msg_parse_slice dbg b) CMsg (hash_bytes b) AMsg InvalidInputLength.
Proof.
  intros B. destruct (msg_cases dbg b B) as [(z & H & Z & E)|[N _]].
  - apply answered_ok with (k := scalar_of z) (x := z); [exact E | exact H | constructor; exact Z].
  - apply answered_err; [|exact N]. rewrite (C10_message_slice_pf dbg b B). destruct (Nat.eqb_spec (length b) 32) as [L|L]; [|reflexivity]. elim (N (be_val b mod n)). split; auto.
Qed.
Lemma rid_answer v : 0 <= v < 256 -> answered (Some (rid_parse v)) CRid (fun i => 0 <= i < 4 /\ v = i) ARid InvalidRecoveryId /\ answered (Some (rid_parse_rpc v)) CRid (fun i => 0 <= i < 4 /\ v = 27 + i) ARid InvalidRecoveryId.
Proof.
  intros V. destruct (C11_recovery_id_pf v V) as (E1 & E2 & _). rewrite E1, E2. split.
  - destruct (Z.leb_spec v 3); [apply answered_ok with (k := v) (x := v); [reflexivity | lia | constructor; lia] | apply answered_err; [reflexivity | intros i; lia]].
  - destruct (Z.leb_spec 27 v), (Z.leb_spec v 30); cbn [andb]; try (apply answered_err; [reflexivity | intros i; lia]). apply answered_ok with (k := v - 27) (x := v - 27); [reflexivity | lia | constructor; lia].
Qed.
Lemma recover_answer dbg ctx z r s id : verify_ctx ctx -> 0 <= r < n -> 0 <= s < n -> 0 <= z < n -> 0 <= id < 4 ->
  answered (recover dbg ctx (scalar_of z) (Sig (scalar_of r) (scalar_of s)) id) CPub (fun q => recovers z r s id (Aff (fst q) (snd q))) (fun q => APub (fst q) (snd q)) InvalidSignature.
Proof.
  intros C R S Z I. destruct (C25_recover_exact_pf dbg ctx z r s id C R S Z I) as [(k & Q & E & K & H)|[E N]].
  - destruct Q as [|x y]; [elim (proj1 (proj2 (proj2 H))); reflexivity|]. apply answered_ok with (k := k) (x := (x, y)); [exact E | exact H | constructor; exact K].
  - apply answered_err; [exact E | intros q; apply N].
Qed.
Lemma combine_answer dbg ks Ps : Forall2 key_at ks Ps -> Forall fin Ps -> answered (pk_combine dbg ks) CPub (fun q => psum Ps = Aff (fst q) (snd q)) (fun q => APub (fst q) (snd q)) InvalidPublicKey.
Proof.
  intros K F. destruct (C36_combine_pf dbg ks Ps K F) as [H1 H2]. destruct (psum Ps) as [|x y].
  - apply answered_err; [exact (H1 eq_refl) | intros q; discriminate].
  - destruct (H2 ltac:(discriminate)) as (k & E & A). apply answered_ok with (k := k) (x := (x, y)); [exact E | reflexivity | constructor; exact (key_mono _ _ A)].
Qed.
Lemma norm_eq dbg r s : 0 <= r < n -> 0 <= s < n -> sig_normalize_s dbg (Sig (scalar_of r) (scalar_of s)) = Some (Sig (scalar_of r) (scalar_of (if s <? (n - 1) / 2 then s else n - s))) /\ 0 <= (if s <? (n - 1) / 2 then s else n - s) < n.
Proof.
  intros R S. pose proof n_lt. pose proof half_n as [HN HP]. unfold sig_normalize_s. cbn [sig_s sig_r].
  rewrite s_is_high_eq by lia. rewrite Z.ltb_antisym. destruct (Z.leb_spec halfn s); cbn [negb].
  - rewrite s_neg_eq by exact S. cbn [bind]. rewrite neg_mod_n by lia. split; [reflexivity | lia].
  - split; [reflexivity | lia].
Qed.

(** * One call *)
Section Sim.
Variables (dbg : bool) (gctx : genctx) (vctx : ecctx) (D : list Z -> list Z) (drbg : list Z -> list Z -> nat -> list Z) (fuel : nat).
Hypothesis GC : gen_ctx gctx.
Hypothesis VC : verify_ctx vctx.
Hypothesis DS : forall b, small (D b).
Hypothesis RS : forall s s', stream (drbg s s').
Definition goes (o : outcome (list cval)) (ast : list aval) (c : cmd) : Prop := exists st' ast', o = Done st' /\ astep D drbg ast c ast' /\ reps st' ast'.
Definition one (o : outcome (list cval)) (ast : list aval) (c : cmd) : Prop :=
  goes o ast c \/ (o = Running /\ waits drbg fuel ast c) \/ (o = Panic /\ dbg = true /\ faults drbg ast c).

Lemma go_push st ast c v a : reps st ast -> rep v a -> astep D drbg ast c (ast ++ [a]) -> goes (Done (st ++ [v])) ast c.
Proof. intros R V A. exists (st ++ [v]), (ast ++ [a]). split; [reflexivity|]. split; [exact A | apply reps_push; assumption]. Qed.
Lemma go_answer {X A} st ast c (o : option (result A)) f (F : X -> Prop) inj e : reps st ast -> answered o f F inj e -> (forall a, answers F inj e a -> astep D drbg ast c (ast ++ [a])) -> goes (push st (of_res f o)) ast c.
Proof. intros R (r & a & -> & HA & V) H. unfold of_res. cbn [bind push]. apply go_push with (a := a); [exact R | exact V | apply H, HA]. Qed.
Lemma go_opt {A} st ast c (o : option A) f k a : reps st ast -> o = Some k -> rep (f k) a -> astep D drbg ast c (ast ++ [a]) -> goes (push st (of_opt f o)) ast c.
Proof. intros R -> V H. unfold of_opt. cbn [bind push]. apply go_push with (a := a); assumption. Qed.
Lemma go_decide st ast c (o : option bool) P : reps st ast -> (exists b, o = Some b /\ (b = true <-> P)) -> (forall a, decides P a -> astep D drbg ast c (ast ++ [a])) -> goes (push st (of_opt CBool o)) ast c.
Proof.
  intros R (b & -> & H) HA. apply go_opt with (k := b) (a := ABool b); [exact R | reflexivity | constructor|]. apply HA. destruct b; [left | right]; split; auto; [apply H; reflexivity | intros K; apply H in K; discriminate K].
Qed.
Lemma go_skip st ast c : reps st ast -> ~ applies ast c -> goes (Done st) ast c.
Proof. intros R N. exists st, ast. split; [reflexivity|]. split; [apply a_skip, N | exact R]. Qed.

Lemma random_cases rng : stream rng -> forall f i,
  (exists j d, (i <= j)%nat /\ (forall l e, (i <= l < j)%nat -> ~ secret_bytes (rng l) e) /\ secret_bytes (rng j) d /\ sk_random dbg f rng i = Done (scalar_of d)) \/
  (sk_random dbg f rng i = Running /\ forall l e, (i <= l < i + f)%nat -> ~ secret_bytes (rng l) e).
Proof.
  intros S. induction f as [|f IH]; intros i; [right; split; [reflexivity | intros; lia]|]. cbn [sk_random]. destruct (S i) as [L B].
  destruct (sk_cases dbg (rng i) B) as [(d & H & E)|[N (e & E)]].
  - left. exists i, d. split; [lia|]. split; [intros; lia|]. split; [exact H|]. rewrite (proj1 (proj2 (C01_seckey_parse_slice_pf dbg _ B) L)) in E. rewrite E. reflexivity.
  - specialize (E dbg). rewrite (proj1 (proj2 (C01_seckey_parse_slice_pf dbg _ B) L)) in E. rewrite E. destruct (IH (Datatypes.S i)) as [(j & d & J & H1 & H2 & H3)|[H1 H2]].
    + left. exists j, d. split; [lia|]. split; [|auto]. intros l e' Hl. destruct (Nat.eq_dec l i) as [->|NE]; [apply N | apply H1; lia].
    + right. split; [exact H1|]. intros l e' Hl. destruct (Nat.eq_dec l i) as [->|NE]; [apply N | apply H2; lia].
Qed.
Lemma sign_cases gen d z : stream gen -> 0 <= d < n -> 0 <= z < n -> forall f i, let o := sign_loop dbg f gen i gctx (scalar_of d) (scalar_of z) in
  (exists j r s id, (i <= j)%nat /\ (forall l, (i <= l < j)%nat -> ~ usable d z (nonce gen l)) /\ usable d z (nonce gen j) /\ signature_for d z (nonce gen j) r s id /\ o = Done (Sig (scalar_of r) (scalar_of s), id)) \/
  (o = Running /\ forall l, (i <= l < i + f)%nat -> ~ usable d z (nonce gen l)) \/
  (o = Panic /\ dbg = true /\ exists j, (i <= j)%nat /\ (forall l, (i <= l < j)%nat -> ~ usable d z (nonce gen l)) /\ wraps (nonce gen j)).
Proof.
  intros S HD Z. induction f as [|f IH]; intros i o; subst o; [right; left; split; [reflexivity | intros; lia]|].
  destruct (sign_loop_step dbg f gen i gctx d z GC S HD Z) as [(E & W & ->)|[(_ & U & r & s & id & SF & ->)|(_ & NU & ->)]].
  - right. right. split; [reflexivity|]. split; [exact E|]. exists i. split; [lia|]. split; [intros; lia | exact W].
  - left. exists i, r, s, id. split; [lia|]. split; [intros; lia|]. auto.
  - destruct (IH (Datatypes.S i)) as [(j & r & s & id & J & H1 & H2)|[[H1 H2]|(H1 & H2 & j & J & H3 & H4)]].
    + left. exists j, r, s, id. split; [lia|]. split; [|exact H2]. intros l Hl. destruct (Nat.eq_dec l i) as [->|NE]; [exact NU | apply H1; lia].
    + right. left. split; [exact H1|]. intros l Hl. destruct (Nat.eq_dec l i) as [->|NE]; [exact NU | apply H2; lia].
    + right. right. split; [exact H1|]. split; [exact H2|]. exists j. split; [lia|]. split; [|exact H4]. intros l Hl. destruct (Nat.eq_dec l i) as [->|NE]; [exact NU | apply H3; lia].
Qed.

Ltac skip := apply go_skip; [assumption|]; cbn [applies]; tauto.
(** the argument has another type: nothing happens *)
Ltac miss i NK := match goal with |- goes (match nth_error ?st i with _ => _ end) _ _ => destruct (nth_error st i) as [[]|]; try solve [skip]; elim (NK _ eq_refl) end.
Tactic Notation "apub" constr(R) constr(i) ident(k) ident(x) ident(y) ident(E) ident(EA) ident(K) := let N := fresh in let NK := fresh in destruct (view_pub R i) as [(k & x & y & E & EA & K)|[N NK]]; [rewrite E; cbv iota | miss i NK].
Tactic Notation "asec" constr(R) constr(i) ident(d) ident(E) ident(EA) ident(K) := let N := fresh in let NK := fresh in destruct (view_sec R i) as [(d & E & EA & K)|[N NK]]; [rewrite E; cbv iota | miss i NK].
Tactic Notation "asig" constr(R) constr(i) ident(r) ident(s) ident(E) ident(EA) ident(K) ident(S) := let N := fresh in let NK := fresh in destruct (view_sig R i) as [(r & s & E & EA & K & S)|[N NK]]; [rewrite E; cbv iota | miss i NK].
Tactic Notation "amsg" constr(R) constr(i) ident(d) ident(E) ident(EA) ident(K) := let N := fresh in let NK := fresh in destruct (view_msg R i) as [(d & E & EA & K)|[N NK]]; [rewrite E; cbv iota | miss i NK].
Tactic Notation "arid" constr(R) constr(i) ident(d) ident(E) ident(EA) ident(K) := let N := fresh in let NK := fresh in destruct (view_rid R i) as [(d & E & EA & K)|[N NK]]; [rewrite E; cbv iota | miss i NK].
Tactic Notation "abytes" constr(R) constr(i) ident(b) ident(E) ident(EA) ident(B) ident(L) := let N := fresh in let NK := fresh in destruct (view_bytes R i) as [(b & E & EA & B & L)|[N NK]]; [rewrite E; cbv iota | miss i NK].

Lemma assign_ok {A} st ast i j (f : A -> cval) c k v (o : option (A * result unit)) : reps st ast -> o = Some (k, Ok tt) -> rep (f k) v -> astep D drbg ast c (upd ast i v ++ [AUnit]) -> j = i -> goes (assign f st j o) ast c.
Proof. intros R -> V H ->. unfold assign. eexists. exists (upd ast i v ++ [AUnit]). split; [reflexivity|]. split; [exact H|]. apply reps_push; [apply reps_upd; assumption | constructor]. Qed.
Lemma assign_err {A} st ast i (f : A -> cval) c k e (o : option (A * result unit)) : reps st ast -> o = Some (k, Err e) -> nth_error st i = Some (f k) -> astep D drbg ast c (ast ++ [AErr e]) -> goes (assign f st i o) ast c.
Proof. intros R -> V H. unfold assign. rewrite (upd_same st i _ V). eexists. exists (ast ++ [AErr e]). split; [reflexivity|]. split; [exact H|]. apply reps_push; [assumption | constructor]. Qed.
Lemma full_small x y : small (sec1_full x y).
Proof. apply small_be; [apply full_bytes; lia|]. unfold sec1_full. cbn [length]. rewrite app_length, !be_len. lia. Qed.
Lemma compressed_small x y : small (sec1_compressed x y).
Proof. pose proof (mod2_cases y). apply small_be; [constructor; [lia | apply bytes_be]|]. unfold sec1_compressed. cbn [length]. rewrite be_len. lia. Qed.
Lemma be_small v : small (be_bytes 32 v).
Proof. apply small_be; [apply bytes_be | rewrite be_len; lia]. Qed.
Lemma der_bytes r s b : der_sig r s b -> small b.
Proof.
  intros (cr & cs & (BR & _) & (BS & _) & LR & LS & LT & ->). apply small_be.
  - repeat (constructor; [lia|]). apply Forall_app. split; [exact BR|]. repeat (constructor; [lia|]). exact BS.
  - cbn [length]. rewrite app_length. cbn [length]. lia.
Qed.

Lemma step_goes st ast c : reps st ast -> cmd_ok c -> (forall rng, c <> SkRandom rng) -> (forall i j, c <> Sign i j) -> goes (step dbg gctx vctx D drbg fuel st c) ast c.
Proof.
  intros R OK NR NS. pose proof n_pos as NP. pose proof n_lt as NL. destruct c as [b|i f|i|i|i|i j|i j|l|i j|i|rng| |i|i j|i j|i|i j|i|i|i|i|i|i|i|i j|i|i|v|v|i|i j|i j l|i j l|i j]; cbn [step cmd_ok] in *.
  - apply go_push with (a := ABytes b); [exact R | constructor; exact OK | apply a_input].
  - abytes R i b E EA B L. eapply go_answer; [exact R | apply pk_answer, B|]. intros a HA. eapply a_pk_parse; eassumption.
  - asec R i d E EA DD. destruct (C21_from_secret_key_pf dbg gctx d GC DD) as (k & EK & _ & K & NI). destruct (smul d G) as [|x y] eqn:ES; [elim NI; reflexivity|].
    eapply go_opt with (a := APub x y); [exact R | exact EK | constructor; exact K | eapply a_pk_from; eassumption].
  - apub R i k x y E EA K. eapply go_opt with (a := ABytes (sec1_full x y)); [exact R | apply (C06_serialize_pf dbg k x y K) | constructor; apply full_small | eapply a_pk_ser; eassumption].
  - apub R i k x y E EA K. eapply go_opt with (a := ABytes (sec1_compressed x y)); [exact R | apply (C06_serialize_pf dbg k x y K) | constructor; apply compressed_small | eapply a_pk_serc; eassumption].
  - apub R i k x y E EA K. asec R j t E' EA' T. destruct (C34_public_tweak_add_pf dbg vctx k (Aff x y) t VC K ltac:(discriminate) ltac:(lia)) as [H1 H2].
    destruct (padd (Aff x y) (smul t G)) as [|u v] eqn:EP.
    + eapply assign_err; [exact R | exact (H1 eq_refl) | exact E | eapply a_pk_add_inf; eassumption].
    + destruct (H2 ltac:(discriminate)) as (k' & EK & A). eapply assign_ok with (v := APub u v); [exact R | exact EK | constructor; exact (key_mono _ _ A) | eapply a_pk_add; eassumption | reflexivity].
  - apub R i k x y E EA K. asec R j t E' EA' T. destruct (C35_public_tweak_mul_pf dbg vctx k (Aff x y) t VC K ltac:(discriminate) ltac:(lia)) as [_ H2].
    destruct (H2 ltac:(lia)) as (k' & EK & A & NI). destruct (smul t (Aff x y)) as [|u v] eqn:EP; [elim NI; reflexivity|].
    eapply assign_ok with (v := APub u v); [exact R | exact EK | constructor; exact (key_mono _ _ A) | eapply a_pk_mul; eassumption | reflexivity].
  - destruct (view_pubs R l) as [(ks & Ps & -> & HP & HK & HF)|[N ->]]; [|skip]. eapply go_answer; [exact R | apply combine_answer; eassumption|]. intros a HA. eapply a_pk_combine; eassumption.
  - apub R i k x y E EA K. apub R j k' x' y' E' EA' K'. apply go_decide with (P := x = x' /\ y = y'); [exact R| |intros a HA; eapply a_pk_eq; eassumption].
    destruct (C07_equality_pf dbg k k' x y x' y' K K') as (b & EB & HB & _). exists b. auto.
  - abytes R i b E EA B L. eapply go_answer; [exact R | apply sk_answer, B|]. intros a HA. eapply a_sk_parse; eassumption.
  - elim (NR rng eq_refl).
  - rewrite C39_default_pf. apply go_push with (a := ASec 1); [exact R | constructor; vmr | apply a_sk_default].
  - asec R i d E EA DD. rewrite (proj1 (C02_seckey_roundtrip_pf dbg d DD)). apply go_push with (a := ABytes (be_bytes 32 d)); [exact R | constructor; apply be_small | eapply a_sk_ser; eassumption].
  - asec R i d E EA DD. asec R j t E' EA' T. destruct (C32_secret_tweak_add_pf dbg d t DD T) as [H1 H2]. destruct (Z.eqb_spec (d + t) n) as [EN|EN].
    + eapply assign_err; [exact R | exact H1 | exact E | eapply a_sk_add_zero; eassumption].
    + eapply assign_ok with (v := ASec ((d + t) mod n)); [exact R | exact H1 | constructor; exact (H2 EN) | eapply a_sk_add; eassumption | reflexivity].
  - asec R i d E EA DD. asec R j t E' EA' T. destruct (C33_secret_tweak_mul_pf dbg d t DD T) as [H1 H2].
    eapply assign_ok with (v := ASec ((d * t) mod n)); [exact R | exact H1 | constructor; exact H2 | eapply a_sk_mul; eassumption | reflexivity].
  - asec R i d E EA DD. destruct (C33_secret_inv_pf dbg d DD) as (e & EE & RE & HE & _). eapply go_opt with (a := ASec e); [exact R | exact EE | constructor; exact RE | eapply a_sk_inv; eassumption].
  - asec R i d E EA DD. asec R j t E' EA' T. change (goes (push st (of_opt CBool (Some (sk_eqb (scalar_of d) (scalar_of t))))) ast (SkEqual i j)).
    apply go_decide with (P := d = t); [exact R| |intros a HA; eapply a_sk_eq; eassumption]. eexists. split; [reflexivity|]. apply s_eqb_val; lia.
  - abytes R i b E EA B L. eapply go_answer; [exact R | apply standard_answer, B|]. intros a HA. eapply a_sig_standard; eassumption.
  - abytes R i b E EA B L. eapply go_answer; [exact R | apply overflowing_answer, B|]. intros a HA. eapply a_sig_overflowing; eassumption.
  - abytes R i b E EA B L. eapply go_answer; [exact R | apply der_answer; [exact B | exact L]|]. intros a HA. eapply a_sig_der; eassumption.
  - abytes R i b E EA B L. eapply go_answer; [exact R | apply lax_answer, B|]. intros a HA. eapply a_sig_der_lax; eassumption.
  - asig R i r s E EA RR SS. destruct (norm_eq dbg r s RR SS) as [EN HN]. rewrite EN. eexists. eexists. split; [reflexivity|]. split; [eapply a_sig_norm; eassumption|]. apply reps_upd; [exact R | constructor; assumption].
  - asig R i r s E EA RR SS. rewrite (proj1 (C08_sig_roundtrip_pf dbg r s RR SS)). apply go_push with (a := ABytes (be_bytes 32 r ++ be_bytes 32 s)); [exact R | constructor | eapply a_sig_ser; eassumption].
    apply small_be; [apply Forall_app; split; apply bytes_be | rewrite app_length, !be_len; lia].
  - asig R i r s E EA RR SS. destruct (C12_serialize_der_pf r s RR SS) as (HD & _). apply go_push with (a := ABytes (sig_serialize_der (Sig (scalar_of r) (scalar_of s)))); [exact R | constructor; exact (der_bytes _ _ _ HD) | eapply a_sig_der_ser; eassumption].
  - asig R i r s E EA RR SS. asig R j r' s' E' EA' RR' SS'. change (goes (push st (of_opt CBool (Some (sig_eqb (Sig (scalar_of r) (scalar_of s)) (Sig (scalar_of r') (scalar_of s')))))) ast (SigEqual i j)).
    apply go_decide with (P := r = r' /\ s = s'); [exact R| |intros a HA; eapply a_sig_eq; eassumption]. eexists. split; [reflexivity|]. unfold sig_eqb. cbn [sig_r sig_s]. rewrite andb_true_iff, !s_eqb_val by lia. reflexivity.
  - abytes R i b E EA B L. eapply go_answer; [exact R | apply msg_answer, B|]. intros a HA. eapply a_msg_parse; eassumption.
  - amsg R i z E EA ZZ. change (msg_serialize (scalar_of z)) with (sk_serialize (scalar_of z)). unfold sk_serialize. rewrite s_b32_eq by lia.
    apply go_push with (a := ABytes (be_bytes 32 z)); [exact R | constructor; apply be_small | eapply a_msg_ser; eassumption].
  - eapply go_answer; [exact R | apply rid_answer, OK|]. intros a HA. apply a_rid_parse, HA.
  - eapply go_answer; [exact R | apply rid_answer, OK|]. intros a HA. apply a_rid_rpc, HA.
  - arid R i r E EA RR. apply go_push with (a := AByte r); [exact R | constructor | eapply a_rid_ser; eassumption].
  - apub R i k x y E EA K. asec R j d E' EA' DD. destruct (C37_ecdh_pf dbg D k (Aff x y) d K ltac:(discriminate) ltac:(lia)) as [_ H2]. destruct (H2 ltac:(lia)) as (u & v & EP & EH). rewrite EH. unfold of_res. cbn [bind push].
    apply go_push with (a := ABytes (D (sec1_compressed u v))); [exact R | constructor; apply DS | eapply a_ecdh; eassumption].
  - amsg R i z E EA ZZ. asig R j r s E' EA' RR SS. apub R l k x y E2 EA2 K. apply go_decide with (P := ecdsa_valid (Aff x y) z r s); [exact R| |intros a HA; eapply a_verify; eassumption].
    exact (C22_verify_pf dbg vctx k (Aff x y) z r s VC K ltac:(discriminate) RR SS ZZ).
  - amsg R i z E EA ZZ. asig R j r s E' EA' RR SS. arid R l id E2 EA2 II. eapply go_answer; [exact R | apply recover_answer; eassumption|]. intros a HA. eapply a_recover; eassumption.
  - elim (NS i j eq_refl).
Qed.
Lemma step_one st ast c : reps st ast -> cmd_ok c -> one (step dbg gctx vctx D drbg fuel st c) ast c.
Proof.
  intros R OK. destruct c as [b|i f|i|i|i|i j|i j|l|i j|i|rng| |i|i j|i j|i|i j|i|i|i|i|i|i|i|i j|i|i|v|v|i|i j|i j l|i j l|i j];
    try (left; apply step_goes; [exact R | exact OK | intros; discriminate | intros; discriminate]); cbn [step cmd_ok] in *.
  - destruct (random_cases rng OK fuel 0) as [(j & d & _ & H1 & H2 & ->)|[-> H]].
    + left. apply go_push with (a := ASec d); [exact R | constructor; apply H2|]. apply a_sk_random. exists j. split; [|exact H2]. intros l e Hl. apply H1. lia.
    + right. left. split; [reflexivity|]. left. exists rng. split; [reflexivity|]. intros l d Hl. apply H. lia.
  - destruct (view_msg R i) as [(z & E & EA & ZZ)|[N NK]]; [rewrite E; cbv iota | left; miss i NK].
    destruct (view_sec R j) as [(d & E' & EA' & DD)|[N NK]]; [rewrite E'; cbv iota | left; miss j NK].
    pose proof n_lt as NL. unfold sign. rewrite !s_b32_eq by lia. set (gen := drbg (be_bytes 32 d) (be_bytes 32 z)). assert (SG : stream gen) by apply RS.
    destruct (sign_cases gen d z SG ltac:(lia) ZZ fuel 0) as [(l & r & s & id & _ & H1 & H2 & H3 & ->)|[[-> H]|(-> & HD & l & _ & H1 & H2)]].
    + left. exists (st ++ [CSig (Sig (scalar_of r) (scalar_of s)); CRid id]), (ast ++ [ASig r s; ARid id]). split; [reflexivity|].
      split; [eapply a_sign; [exact EA | exact EA' | exists l; split; [intros l' Hl; apply H1; lia | split; assumption]]|].
      destruct (signature_for_ok d z (nonce gen l) r s id ltac:(lia) ZZ (proj1 H2) H3) as (RR & SS & SN & ID & _).
      apply reps_app; [exact R|]. assert (0 <= s < n) by lia. repeat constructor; assumption || apply ID || apply RR || lia.
    + right. left. split; [reflexivity|]. right. exists i, j, z, d. split; [reflexivity|]. split; [exact EA|]. split; [exact EA'|]. intros l Hl. apply H. lia.
    + right. right. split; [reflexivity|]. split; [exact HD|]. exists i, j, z, d, l. split; [reflexivity|]. split; [exact EA|]. split; [exact EA'|]. split; [intros l' Hl; apply H1; lia | exact H2].
Qed.
End Sim.

(** * The abstract machine is deterministic *)
Lemma answers_fun {X} (F : X -> Prop) inj e v v' : (forall x x', F x -> F x' -> x = x') -> answers F inj e v -> answers F inj e v' -> v = v'.
Proof.
  intros U [(x & H & ->)|[N ->]] [(x' & H' & ->)|[N' ->]]; [rewrite (U x x' H H'); reflexivity | elim (N' x H) | elim (N x' H') | reflexivity].
Qed.
Lemma decides_fun P v v' : decides P v -> decides P v' -> v = v'.
Proof. intros [[H ->]|[H ->]] [[H' ->]|[H' ->]]; (reflexivity || contradiction). Qed.
Lemma pair_eq (q q' : Z * Z) : fst q = fst q' /\ snd q = snd q' -> q = q'.
Proof. destruct q, q'. cbn [fst snd]. intros [-> ->]. reflexivity. Qed.
Lemma sig_bytes_fun b r s r' s' : sig_bytes b r s -> sig_bytes b r' s' -> r = r' /\ s = s'.
Proof. intros (R & S & ->) (R' & S' & E). apply app_inj_len in E; [|rewrite !be_len; reflexivity]. destruct E as [E1 E2]. pose proof n_lt. split; apply be32_inj; (lia || assumption). Qed.
Lemma overflowing_fun b r s r' s' : overflowing b r s -> overflowing b r' s' -> r = r' /\ s = s'.
Proof. intros (u & v & LU & LV & -> & -> & ->) (u' & v' & LU' & LV' & E & -> & ->). apply app_inj_len in E; [|congruence]. destruct E as [-> ->]. auto. Qed.
Lemma strict_fun b r s r' s' : bytes b -> len b < 2 ^ 55 -> 0 <= r < n /\ 0 <= s < n /\ strict_accepts b r s -> 0 <= r' < n /\ 0 <= s' < n /\ strict_accepts b r' s' -> r = r' /\ s = s'.
Proof.
  intros B L (R & S & K) (R' & S' & K'). apply (C70_strict_grammar_pf true b r s B L R S) in K. apply (C70_strict_grammar_pf true b r' s' B L R' S') in K'. rewrite K in K'. apply some_inv in K'. apply sig_fun; try assumption. congruence.
Qed.
Lemma lax_fun b r s r' s' : bytes b -> 0 <= r < n /\ 0 <= s < n /\ lax_sig b r s -> 0 <= r' < n /\ 0 <= s' < n /\ lax_sig b r' s' -> r = r' /\ s = s'.
Proof.
  intros B (R & S & K) (R' & S' & K'). apply (C70_lax_grammar_pf true b r s B R S) in K. apply (C70_lax_grammar_pf true b r' s' B R' S') in K'. rewrite K in K'. apply some_inv in K'. apply sig_fun; try assumption. congruence.
Qed.
Lemma draws_fun rng d d' : draws rng d -> draws rng d' -> d = d'.
Proof.
  intros (j & H1 & H2) (j' & H1' & H2'). destruct (Nat.lt_trichotomy j j') as [L|[<-|L]]; [elim (H1' _ _ L H2) | exact (secret_fun _ _ _ H2 H2') | elim (H1 _ _ L H2')].
Qed.
Lemma signature_for_fun d z k r s id r' s' id' : signature_for d z k r s id -> signature_for d z k r' s' id' -> r = r' /\ s = s' /\ id = id'.
Proof.
  intros (x & y & E & -> & _ & H) (x' & y' & E' & -> & _ & H'). rewrite E in E'. injection E' as <- <-. split; [reflexivity|]. lia.
Qed.
Lemma signs_fun gen d z r s id r' s' id' : signs gen d z r s id -> signs gen d z r' s' id' -> r = r' /\ s = s' /\ id = id'.
Proof.
  intros (j & H1 & H2 & H3) (j' & H1' & H2' & H3'). destruct (Nat.lt_trichotomy j j') as [L|[<-|L]]; [elim (H1' _ L H2) | exact (signature_for_fun _ _ _ _ _ _ _ _ _ H3 H3') | elim (H1 _ L H2')].
Qed.
Lemma inverse_fun d e e' : 1 <= e < n -> 1 <= e' < n -> (e * d) mod n = 1 -> (e' * d) mod n = 1 -> e = e'.
Proof.
  intros E E' H H'. pose proof n_pos. assert (K : e mod n = e' mod n).
  { transitivity ((e * ((e' * d) mod n)) mod n); [rewrite H', Z.mul_1_r; reflexivity|]. rewrite Zmult_mod_idemp_r. replace (e * (e' * d)) with (e' * (e * d)) by ring.
    rewrite <- Zmult_mod_idemp_r, H, Z.mul_1_r. reflexivity. }
  rewrite !Z.mod_small in K by lia. exact K.
Qed.
Lemma points_fun ast l Ps Qs : points ast l Ps -> points ast l Qs -> Ps = Qs.
Proof.
  intros H. revert Qs. induction H as [|i l x y Ps E _ IH]; intros Qs H'; inversion H' as [|i' l' x' y' Qs' E' H1]; subst; [reflexivity|]. rewrite E in E'. injection E' as <- <-. rewrite (IH _ H1). reflexivity.
Qed.
Lemma points_has ast l Ps : points ast l Ps -> Forall (has ast KPub) l.
Proof. induction 1 as [|i l x y Ps E _ IH]; constructor; [eexists; split; [exact E | reflexivity] | exact IH]. Qed.
Lemma has_at ast i v : nth_error ast i = Some v -> has ast (akind v) i.
Proof. exists v. auto. Qed.

(** the ranges of abstract values *)
Definition sane (a : aval) : Prop :=
  match a with
  | ASec d => 1 <= d < n | ASig r s => 0 <= r < n /\ 0 <= s < n | ARid i => 0 <= i < 4 | ABytes b => small b | _ => True
  end.
Lemma reps_sane st ast : reps st ast -> Forall sane ast.
Proof. induction 1 as [|v a st ast V _ IH]; constructor; [destruct V; cbn [sane]; auto | exact IH]. Qed.
Lemma sane_at ast i a : Forall sane ast -> nth_error ast i = Some a -> sane a.
Proof. intros H E. rewrite Forall_forall in H. apply H. exact (nth_error_In _ _ E). Qed.

Lemma astep_applies D drbg ast c a : astep D drbg ast c a -> (~ applies ast c /\ a = ast) \/ applies ast c.
Proof.
  intros H. destruct H; [left; auto|..]; right; cbn [applies]; repeat split;
    try (match goal with E : nth_error _ ?i = Some _ |- has _ _ ?i => exact (has_at _ _ _ E) end). eapply points_has; eassumption.
Qed.
Lemma astep_fun D drbg ast c a a' : Forall sane ast -> astep D drbg ast c a -> astep D drbg ast c a' -> a = a'.
Proof.
  intros SN H H'. destruct (astep_applies _ _ _ _ _ H) as [[N ->]|Y], (astep_applies _ _ _ _ _ H') as [[N' ->]|Y']; [reflexivity | contradiction | contradiction|].
  destruct H; [contradiction|..]; inversion H'; subst; try contradiction; try reflexivity;
    repeat match goal with E : nth_error ?st ?i = Some _, E2 : nth_error ?st ?i = Some _ |- _ => rewrite E in E2; injection E2 as E2; subst end;
    try reflexivity; try congruence;
    try (match goal with A : answers _ _ _ ?v, B : answers _ _ _ ?v' |- _ ++ [?v] = _ ++ [?v'] => f_equal; f_equal; revert A B; apply answers_fun; intros ? ? end);
    try (match goal with A : decides _ ?v, B : decides _ ?v' |- _ ++ [?v] = _ ++ [?v'] => f_equal; f_equal; exact (decides_fun _ _ _ A B) end).
  - intros [_ A] [_ B]. apply pair_eq. exact (names_fun _ _ _ _ _ A B).
  - match goal with A : points _ _ ?P, B : points _ _ ?Q |- _ => pose proof (points_fun _ _ _ _ A B) as EP; subst end.
    match goal with A : answers _ _ _ ?v, B : answers _ _ _ ?v' |- _ => f_equal; f_equal; revert A B; apply answers_fun; intros x x' X1 X2 end. apply pair_eq. rewrite X1 in X2. injection X2 as -> ->. auto.
  - apply secret_fun.
  - match goal with A : draws _ _, B : draws _ _ |- _ => rewrite (draws_fun _ _ _ A B) end. reflexivity.
  - f_equal. f_equal. f_equal. eapply inverse_fun; eassumption.
  - intros A B. apply pair_eq. exact (sig_bytes_fun _ _ _ _ _ A B).
  - intros A B. apply pair_eq. exact (overflowing_fun _ _ _ _ _ A B).
  - intros A B. apply pair_eq. match goal with E : nth_error _ _ = Some (ABytes _) |- _ => destruct (sane_at _ _ _ SN E) as [BB LB] end. exact (strict_fun _ _ _ _ _ BB LB A B).
  - intros A B. apply pair_eq. match goal with E : nth_error _ _ = Some (ABytes _) |- _ => destruct (sane_at _ _ _ SN E) as [BB LB] end. exact (lax_fun _ _ _ _ _ BB A B).
  - match goal with E : nth_error _ _ = Some (ASig _ _), A : der_sig _ _ b, B : der_sig _ _ b0 |- _ => destruct (sane_at _ _ _ SN E) as [RR SS]; destruct (C12_serialize_der_pf _ _ RR SS) as (_ & _ & U); rewrite (U _ A), (U _ B) end. reflexivity.
  - intros [_ ->] [_ ->]. reflexivity.
  - lia.
  - lia.
  - intros A B. apply pair_eq. match goal with E : nth_error _ _ = Some (ARid _) |- _ => pose proof (sane_at _ _ _ SN E) as I end. pose proof (recovers_fun _ _ _ _ _ _ I A B) as EQ. injection EQ as E1 E2. auto.
  - match goal with A : signs _ _ _ r s id, B : signs _ _ _ r0 s0 id0 |- _ => destruct (signs_fun _ _ _ _ _ _ _ _ _ A B) as (-> & -> & ->) end. reflexivity.
Qed.

(** * Programs *)
Lemma astep_waits D drbg ast c a : Forall sane ast -> astep D drbg ast c a -> exists f0, forall fuel, (f0 <= fuel)%nat -> ~ waits drbg fuel ast c.
Proof.
  intros SN H. assert (O : (forall rng, c <> SkRandom rng) -> (forall i j, c <> Sign i j) -> exists f0, forall fuel, (f0 <= fuel)%nat -> ~ waits drbg fuel ast c).
  { intros N1 N2. exists O. intros fuel _ [(rng & -> & _)|(i & j & z & d & -> & _)]; [exact (N1 _ eq_refl) | exact (N2 _ _ eq_refl)]. }
  destruct H as [c N|b|i f b v E A|i d x y E A|i x y E|i x y E|i j x y t u v E E' A|i j x y t E E' A|i j x y t u v E E' A|l Ps v A B|i j x y x' y' v E E' A|i b v E A|rng d (l & L & A)| | | | | | | | | | | | | | | | | | | | | | | |i j z d r s id E E' (l & L & A & _)];
    try (apply O; intros; discriminate).
  - destruct c; try (apply O; intros; discriminate). cbn [applies] in N. elim N. exact I. exists 0%nat. intros fuel _ [(rng & E & _)|(i' & j' & z & d & E & E1 & E2 & _)]; [discriminate E|]. injection E as <- <-.
    apply N. split; [exact (has_at _ _ _ E1) | exact (has_at _ _ _ E2)].
  - exists (S l). intros fuel F [(rng' & E & H)|(i' & j' & z & d' & E & _)]; [injection E as <- | discriminate E]. exact (H l d ltac:(lia) A).
  - exists (S l). intros fuel F [(rng' & EE & H)|(i' & j' & z' & d' & EE & E1 & E2 & H)]; [discriminate EE|]. injection EE as <- <-. rewrite E in E1. rewrite E' in E2. injection E1 as <-. injection E2 as <-. exact (H l ltac:(lia) A).
Qed.
Section Programs.
Variables (gctx : genctx) (vctx : ecctx) (D : list Z -> list Z) (drbg : list Z -> list Z -> nat -> list Z).
Hypothesis GC : gen_ctx gctx.
Hypothesis VC : verify_ctx vctx.
Hypothesis DS : forall b, small (D b).
Hypothesis RS : forall s s', stream (drbg s s').
Lemma run_one dbg fuel p : forall st ast, reps st ast -> Forall cmd_ok p -> let o := run dbg gctx vctx D drbg fuel st p in
  (exists st' ast', o = Done st' /\ aruns D drbg ast p ast' /\ reps st' ast') \/
  (o = Running /\ exists p1 c p2 ast', p = p1 ++ c :: p2 /\ aruns D drbg ast p1 ast' /\ waits drbg fuel ast' c) \/
  (o = Panic /\ dbg = true /\ exists p1 c p2 ast', p = p1 ++ c :: p2 /\ aruns D drbg ast p1 ast' /\ faults drbg ast' c).
Proof.
  induction p as [|c p IH]; intros st ast R OK o; subst o; cbn [run].
  - left. exists st, ast. split; [reflexivity|]. split; [constructor | exact R].
  - inversion OK as [|c' p' OC OP]; subst. destruct (step_one dbg gctx vctx D drbg fuel GC VC DS RS st ast c R OC) as [(st1 & ast1 & -> & A1 & R1)|[[-> W]|(-> & DB & F)]].
    + destruct (IH st1 ast1 R1 OP) as [(st2 & ast2 & H1 & H2 & H3)|[(H1 & p1 & c2 & p2 & ast2 & -> & H3 & H4)|(H1 & HD & p1 & c2 & p2 & ast2 & -> & H3 & H4)]].
      * left. exists st2, ast2. split; [exact H1|]. split; [econstructor; eassumption | exact H3].
      * right. left. split; [exact H1|]. exists (c :: p1), c2, p2, ast2. split; [reflexivity|]. split; [econstructor; eassumption | exact H4].
      * right. right. split; [exact H1|]. split; [exact HD|]. exists (c :: p1), c2, p2, ast2. split; [reflexivity|]. split; [econstructor; eassumption | exact H4].
    + right. left. split; [reflexivity|]. exists [], c, p, ast. split; [reflexivity|]. split; [constructor | exact W].
    + right. right. split; [reflexivity|]. split; [exact DB|]. exists [], c, p, ast. split; [reflexivity|]. split; [constructor | exact F].
Qed.
(** a call the abstract machine can make is made by a release build that waits long enough *)
Lemma step_complete ast c ast' : Forall sane ast -> cmd_ok c -> astep D drbg ast c ast' -> exists f0, forall fuel st, (f0 <= fuel)%nat -> reps st ast -> exists st', step false gctx vctx D drbg fuel st c = Done st' /\ reps st' ast'.
Proof.
  intros SN OK A. destruct (astep_waits D drbg ast c ast' SN A) as (f0 & W). exists f0. intros fuel st F R.
  destruct (step_one false gctx vctx D drbg fuel GC VC DS RS st ast c R OK) as [(st1 & ast1 & E & A1 & R1)|[[_ K]|(_ & K & _)]]; [|elim (W fuel F K) | discriminate K].
  exists st1. split; [exact E|]. rewrite (astep_fun D drbg ast c ast' ast1 SN A A1). exact R1.
Qed.
Lemma run_complete ast p ast' : aruns D drbg ast p ast' -> Forall cmd_ok p -> (exists st, reps st ast) ->
  exists f0, forall fuel st, (f0 <= fuel)%nat -> reps st ast -> exists st', run false gctx vctx D drbg fuel st p = Done st' /\ reps st' ast'.
Proof.
  induction 1 as [ast|ast c ast1 p ast2 A1 A2 IH]; intros OK (st0 & R0).
  - exists O. intros fuel st _ R. exists st. auto.
  - inversion OK as [|c' p' OC OP]; subst. destruct (step_complete ast c ast1 (reps_sane _ _ R0) OC A1) as (f1 & H1). destruct (H1 f1 st0 (le_n _) R0) as (st1 & _ & R1).
    destruct (IH OP (ex_intro _ st1 R1)) as (f2 & H2). exists (Nat.max f1 f2). intros fuel st F R. destruct (H1 fuel st ltac:(lia) R) as (st2 & E2 & R2). destruct (H2 fuel st2 ltac:(lia) R2) as (st3 & E3 & R3).
    exists st3. cbn [run]. rewrite E2. auto.
Qed.
Lemma aruns_fun ast p a a' : aruns D drbg ast p a -> aruns D drbg ast p a' -> Forall cmd_ok p -> (exists st, reps st ast) -> a = a'.
Proof.
  intros H. revert a'. induction H as [ast|ast c ast1 p ast2 A1 A2 IH]; intros a' H' OK (st & R); inversion H' as [|? c' ast1' p' ast2' B1 B2]; subst; [reflexivity|].
  inversion OK as [|c' p' OC OP]; subst. pose proof (reps_sane _ _ R) as SN. pose proof (astep_fun D drbg ast c _ _ SN A1 B1) as <-. apply IH; [exact B2 | exact OP|].
  destruct (step_complete ast c ast1 SN OC A1) as (f1 & H1). destruct (H1 f1 st (le_n _) R) as (st1 & _ & R1). eauto.
Qed.
Lemma rep_seen v v' a : rep v a -> rep v' a -> seen v = seen v'.
Proof. intros H H'. destruct H; inversion H'; reflexivity. Qed.
Lemma reps_seen st st' ast : reps st ast -> reps st' ast -> map seen st = map seen st'.
Proof.
  intros H. revert st'. induction H as [|v a st ast V R IH]; intros st' H'; inversion H' as [|v' ? st2 ? V' R']; subst; [reflexivity|]. cbn [map]. rewrite (rep_seen _ _ _ V V'), (IH _ R'). reflexivity.
Qed.
Lemma run_app dbg fuel p1 : forall st p2 st', run dbg gctx vctx D drbg fuel st (p1 ++ p2) = Done st' -> exists st1, run dbg gctx vctx D drbg fuel st p1 = Done st1 /\ run dbg gctx vctx D drbg fuel st1 p2 = Done st'.
Proof.
  induction p1 as [|c p1 IH]; intros st p2 st' H; [exists st; auto|]. cbn [app run] in *. destruct (step dbg gctx vctx D drbg fuel st c) as [st2| |]; try discriminate H. apply IH, H.
Qed.
Lemma run_reps dbg fuel p ast st : run dbg gctx vctx D drbg fuel [] p = Done st -> Forall cmd_ok p -> aruns D drbg [] p ast -> reps st ast.
Proof.
  intros E OK A. destruct (run_one dbg fuel p [] [] (Forall2_nil _) OK) as [(st' & ast' & E' & A' & R)|[(K & _)|(K & _)]]; [|congruence|congruence]. rewrite E in E'. injection E' as <-.
  rewrite (aruns_fun [] p ast ast' A A' OK (ex_intro _ [] (Forall2_nil _))). exact R.
Qed.
(** a debug build that goes on has not met a nonce with x >= n *)
Lemma debug_done fuel st ast c st' : reps st ast -> step true gctx vctx D drbg fuel st c = Done st' -> ~ faults drbg ast c.
Proof.
  intros R E (i & j & z & d & l & -> & EZ & ED & H1 & H2). cbn [step] in E.
  destruct (view_msg R i) as [(z' & E1 & EA & ZZ)|[N NK]]; [|elim N; exact (has_at _ _ _ EZ)]. rewrite E1 in E. rewrite EZ in EA. injection EA as <-.
  destruct (view_sec R j) as [(d' & E2 & EA & DD)|[N NK]]; [|elim N; exact (has_at _ _ _ ED)]. rewrite E2 in E. rewrite ED in EA. injection EA as <-. cbv iota in E.
  destruct (sign true drbg fuel gctx (scalar_of z) (scalar_of d)) as [[g id]| |] eqn:ES; try discriminate E.
  destruct (C29_only_first_usable_pf true drbg fuel gctx d z g id GC ltac:(lia) ZZ (RS _ _) ES) as (j0 & r & s & _ & _ & U & _ & _ & NW).
  destruct (Nat.le_gt_cases l j0) as [L|L]; [exact (NW eq_refl l L H2) | exact (H1 j0 L U)].
Qed.
End Programs.

(** * C78 *)
(** Every program, in every build and with any correct contexts: it does what the abstract machine does, or it is still in a loop whose blocks were all unusable, or it is a debug build that met a nonce whose point has x >= n. *)
Lemma C78_simulation_pf : forall dbg gctx vctx D drbg fuel p, gen_ctx gctx -> verify_ctx vctx -> (forall b, small (D b)) -> (forall s s', stream (drbg s s')) -> Forall cmd_ok p ->
  let o := run dbg gctx vctx D drbg fuel [] p in
  (exists st ast, o = Done st /\ aruns D drbg [] p ast /\ Forall2 rep st ast) \/
  (o = Running /\ exists p1 c p2 ast, p = p1 ++ c :: p2 /\ aruns D drbg [] p1 ast /\ waits drbg fuel ast c) \/
  (o = Panic /\ dbg = true /\ exists p1 c p2 ast, p = p1 ++ c :: p2 /\ aruns D drbg [] p1 ast /\ faults drbg ast c).
Proof.
  intros dbg gctx vctx D drbg fuel p GC VC DS RS OK. exact (run_one gctx vctx D drbg GC VC DS RS dbg fuel p [] [] (Forall2_nil _) OK).
Qed.
(** The abstract machine is deterministic. *)
Lemma C78_determined_pf : forall D drbg p ast ast', (forall b, small (D b)) -> (forall s s', stream (drbg s s')) -> Forall cmd_ok p -> aruns D drbg [] p ast -> aruns D drbg [] p ast' -> ast = ast'.
Proof.
  intros D drbg p ast ast' DS RS OK A A'. destruct C53_ecmult_gen_example_pf as (gctx & _ & GC). destruct C34_public_tweak_add_example_pf as ((vctx & VC) & _).
  exact (aruns_fun gctx vctx D drbg GC VC DS RS [] p ast ast' A A' OK (ex_intro _ [] (Forall2_nil _))).
Qed.
(** What the abstract machine does a release build does, with any correct contexts, when it waits long enough. *)
Lemma C78_complete_pf : forall gctx vctx D drbg p ast, gen_ctx gctx -> verify_ctx vctx -> (forall b, small (D b)) -> (forall s s', stream (drbg s s')) -> Forall cmd_ok p -> aruns D drbg [] p ast ->
  exists f0, forall fuel, (f0 <= fuel)%nat -> exists st, run false gctx vctx D drbg fuel [] p = Done st /\ Forall2 rep st ast.
Proof.
  intros gctx vctx D drbg p ast GC VC DS RS OK A. destruct (run_complete gctx vctx D drbg GC VC DS RS [] p ast A OK (ex_intro _ [] (Forall2_nil _))) as (f0 & H).
  exists f0. intros fuel F. exact (H fuel [] F (Forall2_nil _)).
Qed.
(** Two runs that finish show the same bytes, errors and booleans, whatever the builds and contexts. *)
Lemma C78_same_observations_pf : forall dbg dbg' gctx gctx' vctx vctx' D drbg fuel fuel' p st st', gen_ctx gctx -> gen_ctx gctx' -> verify_ctx vctx -> verify_ctx vctx' -> (forall b, small (D b)) -> (forall s s', stream (drbg s s')) -> Forall cmd_ok p ->
  run dbg gctx vctx D drbg fuel [] p = Done st -> run dbg' gctx' vctx' D drbg fuel' [] p = Done st' -> map seen st = map seen st'.
Proof.
  intros dbg dbg' gctx gctx' vctx vctx' D drbg fuel fuel' p st st' GC GC' VC VC' DS RS OK E E'.
  destruct (C78_simulation_pf dbg gctx vctx D drbg fuel p GC VC DS RS OK) as [(st1 & ast & E1 & A & R)|[(K & _)|(K & _)]]; [|congruence|congruence]. rewrite E in E1. injection E1 as <-.
  exact (reps_seen _ _ _ R (run_reps gctx' vctx' D drbg GC' VC' DS RS dbg' fuel' p ast st' E' OK A)).
Qed.
(** A debug build that finishes has met no such nonce. *)
Lemma C78_debug_pf : forall gctx vctx D drbg fuel p st p1 c p2 ast, gen_ctx gctx -> verify_ctx vctx -> (forall b, small (D b)) -> (forall s s', stream (drbg s s')) -> Forall cmd_ok p ->
  run true gctx vctx D drbg fuel [] p = Done st -> p = p1 ++ c :: p2 -> aruns D drbg [] p1 ast -> ~ faults drbg ast c.
Proof.
  intros gctx vctx D drbg fuel p st p1 c p2 ast GC VC DS RS OK E -> A. apply run_app in E. destruct E as (st1 & E1 & E2). cbn [run] in E2.
  apply Forall_app in OK. destruct OK as [OK1 _]. pose proof (run_reps gctx vctx D drbg GC VC DS RS true fuel p1 ast st1 E1 OK1 A) as R.
  destruct (step true gctx vctx D drbg fuel st1 c) as [st2| |] eqn:ES; try discriminate E2. exact (debug_done gctx vctx D drbg GC RS fuel st1 ast c st2 R ES).
Qed.
Definition sample : list cmd :=
  [SkDefault; PkFromSecret 0; Input (be_bytes 32 n); MsgParse 2; Input (be_bytes 32 gx ++ be_bytes 32 gx); SigParseStandard 4; Verify 3 5 1; SkTweakMul 5 0; Input (be_bytes 32 (n - 1)); SkParse 7; PkTweakAdd 1 8].
Definition sample_end : list aval :=
  [ASec 1; APub gx gy; ABytes (be_bytes 32 n); AMsg 0; ABytes (be_bytes 32 gx ++ be_bytes 32 gx); ASig gx gx; ABool true; ABytes (be_bytes 32 (n - 1)); ASec (n - 1); AErr TweakOutOfRange].
Lemma sample_ok : Forall cmd_ok sample.
Proof. repeat constructor; apply small_be || idtac; vmr. Qed.
Lemma sample_runs D drbg : aruns D drbg [] sample sample_end.
Proof.
  assert (EG : smul 1 G = Aff gx gy) by apply C56_cyclic_example_pf. destruct C34_public_tweak_add_example_pf as (_ & _ & _ & EI & _). destruct C76_verify_example_pf as (_ & HM & HS & _ & HV).
  unfold sample, sample_end. eapply aruns_cons; [apply a_sk_default|]. cbn [app].
  eapply aruns_cons; [eapply a_pk_from; [reflexivity | exact EG]|]. cbn [app].
  eapply aruns_cons; [apply a_input|]. cbn [app].
  eapply aruns_cons; [eapply a_msg_parse; [reflexivity | left; exists 0; split; [exact HM | reflexivity]]|]. cbn [app].
  eapply aruns_cons; [apply a_input|]. rewrite <- app_assoc || idtac. cbn [app].
  eapply aruns_cons; [eapply a_sig_standard; [reflexivity | left; exists (gx, gx); split; [exact HS | reflexivity]]|]. cbn [app fst snd].
  eapply aruns_cons; [eapply a_verify; [reflexivity | reflexivity | reflexivity | left; split; [exact HV | reflexivity]]|]. cbn [app].
  eapply aruns_cons; [apply a_skip; intros [(v & E & K) _]; injection E as <-; discriminate K|].
  eapply aruns_cons; [apply a_input|]. cbn [app].
  eapply aruns_cons; [eapply a_sk_parse; [reflexivity | left; exists (n - 1); split; [|reflexivity]]|]. { split; [vmr | reflexivity]. } cbn [app].
  eapply aruns_cons; [eapply a_pk_add_inf; [reflexivity | reflexivity | exact EI]|]. cbn [app]. apply aruns_nil.
Qed.
(** Deriving, verifying and an overflowing tweak, with one call on a value of another type. *)
Lemma C78_simulation_example_pf : (exists gctx, gen_ctx gctx) /\ (exists vctx, verify_ctx vctx) /\ (forall b : list Z, small ((fun _ => repeat 7 32) b)) /\ (forall s s' : list Z, stream ((fun _ _ _ => repeat 7 32) s s')) /\ Forall cmd_ok sample /\
  forall D drbg, aruns D drbg [] sample sample_end.
Proof.
  destruct C53_ecmult_gen_example_pf as (gctx & _ & GC). split; [eauto|]. split; [apply C34_public_tweak_add_example_pf|]. assert (B : bytes (repeat 7 32)) by (repeat constructor; lia).
  split; [intros _; apply small_be; [exact B | rewrite repeat_length; lia]|]. split; [intros _ _ i; split; [reflexivity | exact B]|]. split; [exact sample_ok | exact sample_runs].
Qed.
(** Nonces a debug build panics at exist. *)
Lemma C78_debug_example_pf : exists drbg, (forall s s', stream (drbg s s')) /\ faults drbg [AMsg 0; ASec 1] (Sign 0 1).
Proof.
  destruct C31_wrapping_nonces_exist_pf as (_ & k & x & y & K & _ & _ & W). exists (fun _ _ _ => be_bytes 32 k). split; [intros _ _ i; split; [apply be_len | apply bytes_be]|].
  exists 0%nat, 1%nat, 0, 1, 0%nat. split; [reflexivity|]. split; [reflexivity|]. split; [reflexivity|]. split; [intros l' L; lia|]. unfold nonce. pose proof n_lt. rewrite val_be_bytes_32 by lia. exact W.
Qed.
(** That program finishes in both builds, in any correct contexts. *)
Lemma C78_same_observations_example_pf : forall dbg gctx vctx, gen_ctx gctx -> verify_ctx vctx -> exists st, run dbg gctx vctx (fun _ => repeat 7 32) (fun _ _ _ => repeat 7 32) 0 [] sample = Done st /\ Forall2 rep st sample_end.
Proof.
  intros dbg gctx vctx GC VC. destruct C78_simulation_example_pf as (_ & _ & DS & RS & OK & A).
  assert (NO : forall p1 c p2, sample = p1 ++ c :: p2 -> (forall rng, c <> SkRandom rng) /\ (forall i j, c <> Sign i j)).
  { intros p1 c p2 E. assert (I : In c sample) by (rewrite E; apply in_elt). unfold sample in I. cbn [In] in I. repeat destruct I as [<-|I]; try (split; intros; discriminate). destruct I. }
  destruct (C78_simulation_pf dbg gctx vctx _ _ 0 sample GC VC DS RS OK) as [(st & ast & E & A' & R)|[(_ & p1 & c & p2 & ast & E & _ & [(rng & -> & _)|(i & j & z & d & -> & _)])|(_ & _ & p1 & c & p2 & ast & E & _ & (i & j & z & d & l & -> & _))]].
  - exists st. split; [exact E|]. rewrite (C78_determined_pf _ _ sample _ _ DS RS OK (A _ _) A'). exact R.
  - elim (proj1 (NO _ _ _ E) _ eq_refl).
  - elim (proj2 (NO _ _ _ E) _ _ eq_refl).
  - elim (proj2 (NO _ _ _ E) _ _ eq_refl).
Qed.
(** The library as it is shipped: contexts it built itself, SHA-256, the HMAC-DRBG; nothing is assumed but that the input is bytes. *)
Lemma C78_library_pf : forall dbg fuel p, Forall cmd_ok p ->
  exists gctx vctx, ecmult_gen_context_new dbg = Some gctx /\ ecmult_context_new dbg = Some vctx /\
    let D := sha256 in let drbg := sign_drbg (hmac sha256) in let o := run dbg gctx vctx D drbg fuel [] p in
    (exists st ast, o = Done st /\ aruns D drbg [] p ast /\ Forall2 rep st ast) \/
    (o = Running /\ exists p1 c p2 ast, p = p1 ++ c :: p2 /\ aruns D drbg [] p1 ast /\ waits drbg fuel ast c) \/
    (o = Panic /\ dbg = true /\ exists p1 c p2 ast, p = p1 ++ c :: p2 /\ aruns D drbg [] p1 ast /\ faults drbg ast c).
Proof.
  intros dbg fuel p OK. destruct (C54_contexts_pf dbg) as [(vctx & EV & VC) (gctx & EG & GC)]. exists gctx, vctx. split; [exact EG|]. split; [exact EV|].
  destruct C69_hmac_sha256_pf as [SH MM]. apply C78_simulation_pf; [exact GC | exact VC | | | exact OK].
  - intros b. destruct (SH b) as [L B]. apply small_be; [exact B | rewrite L; lia].
  - intros s s'. apply drbg_stream, MM.
Qed.
Lemma C78_library_example_pf : Forall cmd_ok sample /\ aruns sha256 (sign_drbg (hmac sha256)) [] sample sample_end.
Proof. split; [exact sample_ok | apply sample_runs]. Qed.
