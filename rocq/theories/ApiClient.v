(** Any program that also clears keys and moves scalars between types: what it computes, and where a debug build panics. *)
From Verif Require Import Word MField MScalar MGroup MEcmult MEcdsa MDer MApi MEq MMachine MClient MDrbg WP FieldNorm Spec Fp Bits FieldOps Denote Curve Group Chain Order Jac JacOps Lift Key Ctx ApiScalar ApiDer ApiGrammar ApiPub ApiGroup ApiEcdsa ApiKeys ApiMore ApiBase64 ApiEq ApiWire ApiDrbg Zero ApiClear ApiMachine.

(** * The abstract machine *)
(** A good value, a cleared secret key, or a public key with both coordinates 0 and this infinity flag. *)
Inductive bval := Good (a : aval) | Zero | Null (inf : bool).
(** the positions a call reads *)
Definition args (c : cmd) : list nat :=
  match c with
  | Input _ | SkRandom _ | SkDefault | RidParse _ | RidParseRpc _ => []
  | PkParse i _ | PkFromSecret i | PkSerialize i | PkSerializeCompressed i | SkParse i | SkSerialize i | SkInv i | SigParseStandard i | SigParseOverflowing i | SigParseDer i | SigParseDerLax i
  | SigNormalize i | SigSerialize i | SigSerializeDer i | MsgParse i | MsgSerialize i | RidSerialize i => [i]
  | PkTweakAdd i j | PkTweakMul i j | PkEqual i j | SkTweakAdd i j | SkTweakMul i j | SkEqual i j | SigEqual i j | Ecdh i j | Sign i j => [i; j]
  | PkCombine l => l
  | Verify i j l | Recover i j l => [i; j; l]
  end.
Definition is_good (v : bval) : Prop := exists a, v = Good a.
(** the call reads good values only *)
Definition plain (st : list bval) (c : cmd) : Prop := forall i v, In i (args c) -> nth_error st i = Some v -> is_good v.
(** the good values; the others are out of sight *)
Definition shadow (v : bval) : aval := match v with Good a => a | _ => AUnit end.
(** the good values replaced, and the results added *)
Fixpoint lift (st : list bval) (l : list aval) : list bval :=
  match st, l with
  | [], _ => map Good l
  | _ :: _, [] => []
  | Good _ :: st', a :: l' => Good a :: lift st' l'
  | v :: st', _ :: l' => v :: lift st' l'
  end.
(** the type of each value *)
Definition bare (v : bval) : aval := match v with Good a => a | Zero => ASec 0 | Null _ => APub 0 0 end.
Definition secret (st : list bval) (i : nat) (d : Z) : Prop := nth_error st i = Some (Good (ASec d)) \/ (nth_error st i = Some Zero /\ d = 0).
Definition zero (st : list bval) (i : nat) : Prop := nth_error st i = Some Zero.
Definition null (st : list bval) (i : nat) : Prop := exists f, nth_error st i = Some (Null f).
Definition public (st : list bval) (i : nat) (v : bval) : Prop := nth_error st i = Some v /\ ((exists x y, v = Good (APub x y)) \/ exists f, v = Null f).

Section Abstract.
Variable D : list Z -> list Z.
Variable drbg : list Z -> list Z -> nat -> list Z.
(** A call that reads a cleared key or a key with coordinates 0. *)
Inductive special (st : list bval) : cmd -> list bval -> Prop :=
| s_skip c : ~ applies (map bare st) c -> special st c st
| s_pk_from i : zero st i -> special st (PkFromSecret i) (st ++ [Null true])
| s_sk_ser i : zero st i -> special st (SkSerialize i) (st ++ [Good (ABytes (be_bytes 32 0))])
| s_sk_inv i : zero st i -> special st (SkInv i) (st ++ [Zero])
| s_sk_eq i j d e v : secret st i d -> secret st j e -> decides (d = e) v -> special st (SkEqual i j) (st ++ [Good v])
| s_sk_add i j d t : secret st i d -> secret st j t -> d + t <> 0 -> special st (SkTweakAdd i j) (upd st i (Good (ASec (d + t))) ++ [Good AUnit])
| s_sk_add_zero i j : zero st i -> zero st j -> special st (SkTweakAdd i j) (st ++ [Good (AErr TweakOutOfRange)])
| s_sk_mul i j t : zero st i -> secret st j t -> t <> 0 -> special st (SkTweakMul i j) (st ++ [Good AUnit])
| s_sk_mul_zero i j d : secret st i d -> zero st j -> special st (SkTweakMul i j) (st ++ [Good (AErr TweakOutOfRange)])
| s_pk_add i j x y : nth_error st i = Some (Good (APub x y)) -> zero st j -> special st (PkTweakAdd i j) (st ++ [Good AUnit])
| s_pk_add_null i j t : null st i -> secret st j t -> special st (PkTweakAdd i j) (upd st i (Null false) ++ [Good AUnit])
| s_pk_mul_zero i j v : public st i v -> zero st j -> special st (PkTweakMul i j) (st ++ [Good (AErr TweakOutOfRange)])
| s_pk_mul_null i j t : null st i -> secret st j t -> t <> 0 -> special st (PkTweakMul i j) (upd st i (Null false) ++ [Good AUnit])
| s_ecdh_zero i j v : public st i v -> zero st j -> special st (Ecdh i j) (st ++ [Good (AErr InvalidSecretKey)])
| s_ecdh_null i j d : null st i -> secret st j d -> d <> 0 -> special st (Ecdh i j) (st ++ [Good (ABytes (D (2 :: repeat 0 32)))])
| s_pk_ser i : null st i -> special st (PkSerialize i) (st ++ [Good (ABytes (4 :: repeat 0 64))])
| s_pk_serc i : null st i -> special st (PkSerializeCompressed i) (st ++ [Good (ABytes (2 :: repeat 0 32))])
| s_pk_eq i j a b v : public st i a -> public st j b -> decides (a = b) v -> special st (PkEqual i j) (st ++ [Good v])
| s_combine l : Forall (null st) l -> special st (PkCombine l) (st ++ [if Nat.odd (length l) then Null false else Good (AErr InvalidPublicKey)])
| s_verify i j l z r s v : nth_error st i = Some (Good (AMsg z)) -> nth_error st j = Some (Good (ASig r s)) -> null st l -> decides (r <> 0 /\ s <> 0) v -> special st (Verify i j l) (st ++ [Good v])
| s_sign i j z r s id : nth_error st i = Some (Good (AMsg z)) -> zero st j -> signs (drbg (be_bytes 32 0) (be_bytes 32 z)) 0 z r s id -> special st (Sign i j) (st ++ [Good (ASig r s); Good (ARid id)]).
(** One call. *)
Inductive bstep (st : list bval) : call -> list bval -> Prop :=
| b_good c ast : plain st c -> astep D drbg (map shadow st) c ast -> bstep st (Do c) (lift st ast)
| b_special c st' : ~ plain st c -> special st c st' -> bstep st (Do c) st'
| b_clear i d : secret st i d -> bstep st (SkClear i) (upd st i Zero)
| b_is_zero i d v : secret st i d -> decides (d = 0) v -> bstep st (SkIsZero i) (st ++ [Good v])
| b_msg_of i d : secret st i d -> bstep st (MsgOfSk i) (st ++ [Good (AMsg d)])
| b_sk_of i z v : nth_error st i = Some (Good (AMsg z)) -> answers (fun d => d = z /\ z <> 0) ASec InvalidSecretKey v -> bstep st (SkOfMsg i) (st ++ [Good v])
| b_sig_of i j r s : nth_error st i = Some (Good (AMsg r)) -> nth_error st j = Some (Good (AMsg s)) -> bstep st (SigOfMsgs i j) (st ++ [Good (ASig r s)])
| b_msgs_of i r s : nth_error st i = Some (Good (ASig r s)) -> bstep st (MsgsOfSig i) (st ++ [Good (AMsg r); Good (AMsg s)])
| b_recheck i x y : nth_error st i = Some (Good (APub x y)) -> bstep st (PkRecheck i) (st ++ [Good (APub x y)])
| b_recheck_null i : null st i -> bstep st (PkRecheck i) (st ++ [Good (AErr InvalidAffine)])
| b_skip_sec i c : ~ has (map bare st) KSec i -> c = SkClear i \/ c = SkIsZero i \/ c = MsgOfSk i -> bstep st c st
| b_skip_msg i : ~ has (map bare st) KMsg i -> bstep st (SkOfMsg i) st
| b_skip_msgs i j : ~ (has (map bare st) KMsg i /\ has (map bare st) KMsg j) -> bstep st (SigOfMsgs i j) st
| b_skip_sig i : ~ has (map bare st) KSig i -> bstep st (MsgsOfSig i) st
| b_skip_pub i : ~ has (map bare st) KPub i -> bstep st (PkRecheck i) st.
Inductive bruns : list bval -> list call -> list bval -> Prop :=
| bruns_nil st : bruns st [] st
| bruns_cons st c st1 p st2 : bstep st c st1 -> bruns st1 p st2 -> bruns st (c :: p) st2.
(** A debug build panics here: signing meets a nonce whose point has x >= n, or a key with coordinates 0 is used. *)
Definition bfaults (st : list bval) (c : call) : Prop :=
  match c with
  | Do (Sign i j) => exists z d l, nth_error st i = Some (Good (AMsg z)) /\ secret st j d /\
      let gen := drbg (be_bytes 32 d) (be_bytes 32 z) in (forall l', (l' < l)%nat -> ~ usable d z (nonce gen l')) /\ wraps (nonce gen l)
  | Do (PkSerialize i) | Do (PkSerializeCompressed i) => null st i
  | Do (PkTweakAdd i j) => null st i /\ exists t, secret st j t
  | Do (PkTweakMul i j) | Do (Ecdh i j) => null st i /\ exists t, secret st j t /\ t <> 0
  | Do (PkCombine l) => Forall (has (map bare st) KPub) l /\ Exists (null st) l
  | Do (Verify i j l) => has (map bare st) KMsg i /\ (exists r s, nth_error st j = Some (Good (ASig r s)) /\ r <> 0 /\ s <> 0) /\ null st l
  | _ => False
  end.
Definition bwaits (fuel : nat) (st : list bval) (c : call) : Prop :=
  (exists rng, c = Do (SkRandom rng) /\ forall l d, (l < fuel)%nat -> ~ secret_bytes (rng l) d) \/
  (exists i j z d, c = Do (Sign i j) /\ nth_error st i = Some (Good (AMsg z)) /\ secret st j d /\ forall l, (l < fuel)%nat -> ~ usable d z (nonce (drbg (be_bytes 32 d) (be_bytes 32 z)) l)).
(** Points of the curve are combined with keys that are none (the sum of one of each is off the curve: C84). *)
Definition mixes (st : list bval) (c : call) : Prop :=
  exists l, c = Do (PkCombine l) /\ Forall (has (map bare st) KPub) l /\ Exists (null st) l /\ ~ Forall (null st) l.
End Abstract.

(** * Which abstract value a value of the library stands for *)
Inductive brep (dbg : bool) : cval -> bval -> Prop :=
| br_good v a : rep v a -> brep dbg v (Good a)
| br_zero : brep dbg (CSec (scalar_of 0)) Zero
| br_null f k : null_key f k -> (dbg = true -> f = true) -> brep dbg (CPub k) (Null f).
Definition call_ok (c : call) : Prop := match c with Do c => cmd_ok c | _ => True end.

(** * A call reads and changes nothing but its arguments *)
Definition patch (st : list cval) (e : outcome (option (nat * cval) * list cval)) : outcome (list cval) :=
  match e with
  | Done (None, w) => Done (st ++ w)
  | Done (Some (i, v), w) => Done (upd st i v ++ w)
  | Panic => Panic
  | Running => Running
  end.
Lemma pubs_frame st st' l : (forall i, In i l -> nth_error st i = nth_error st' i) -> pubs st l = pubs st' l.
Proof.
  induction l as [|i l IH]; intros H; [reflexivity|]. cbn [pubs]. rewrite <- (H i (or_introl eq_refl)), IH by (intros j J; apply H; right; exact J). reflexivity.
Qed.
Lemma frame dbg gctx vctx D drbg fuel st st' c : (forall i, In i (args c) -> nth_error st i = nth_error st' i) ->
  exists e, step dbg gctx vctx D drbg fuel st c = patch st e /\ step dbg gctx vctx D drbg fuel st' c = patch st' e /\ forall i v w, e = Done (Some (i, v), w) -> In i (args c).
Proof.
  intros H.
  assert (NO : exists e, Done st = patch st e /\ Done st' = patch st' e /\ forall i v w, e = Done (Some (i, v), w) -> In i (args c)) by (exists (Done (None, [])); cbn [patch]; rewrite !app_nil_r; split; [reflexivity|]; split; [reflexivity | discriminate]).
  assert (PU : forall o, exists e, push st o = patch st e /\ push st' o = patch st' e /\ forall i v w, e = Done (Some (i, v), w) -> In i (args c)).
  { intros [v|]; [exists (Done (None, [v])) | exists Panic]; cbn [patch push]; (split; [reflexivity|]); (split; [reflexivity | discriminate]). }
  assert (AS : forall A (f : A -> cval) i o, In i (args c) -> exists e, assign f st i o = patch st e /\ assign f st' i o = patch st' e /\ forall i v w, e = Done (Some (i, v), w) -> In i (args c)).
  { intros A f i [[k r]|] I; [eexists (Done (Some (i, f k), _)) | exists Panic]; cbn [patch assign]; (split; [reflexivity|]); (split; [reflexivity|]); [intros i' v w E; injection E as <- _ _; exact I | discriminate]. }
  assert (DO : forall w, exists e, Done (st ++ w) = patch st e /\ Done (st' ++ w) = patch st' e /\ forall i v w, e = Done (Some (i, v), w) -> In i (args c)).
  { intros w. exists (Done (None, w)). split; [reflexivity|]. split; [reflexivity | discriminate]. }
  assert (PA : exists e, Panic = patch st e /\ Panic = patch st' e /\ forall i v w, e = Done (Some (i, v), w) -> In i (args c)) by (exists Panic; split; [reflexivity|]; split; [reflexivity | discriminate]).
  assert (RU : exists e, Running = patch st e /\ Running = patch st' e /\ forall i v w, e = Done (Some (i, v), w) -> In i (args c)) by (exists Running; split; [reflexivity|]; split; [reflexivity | discriminate]).
  destruct c as [b|i f|i|i|i|i j|i j|l|i j|i|rng| |i|i j|i j|i|i j|i|i|i|i|i|i|i|i j|i|i|v|v|i|i j|i j l|i j l|i j]; cbn [step args In] in *;
    try (rewrite <- (pubs_frame st st' l H));
    rewrite <- ?(H i) by tauto; rewrite <- ?(H j) by tauto; rewrite <- ?(H l) by tauto;
    repeat match goal with |- context [match ?x with _ => _ end] => destruct x end;
    first [exact NO | apply PU | apply AS; tauto | apply DO | exact PA | exact RU | idtac].
  - exists (Done (Some (i, CSig s), [])). cbn [patch]. rewrite !app_nil_r. split; [reflexivity|]. split; [reflexivity|]. intros i' v w E. injection E as <- _ _. auto.
Qed.

(** * The good part *)
Definition hide (v : cval) (b : bval) : cval := match b with Good _ => v | _ => CUnit end.
Fixpoint hides (st : list cval) (bst : list bval) : list cval :=
  match st, bst with v :: st', b :: bst' => hide v b :: hides st' bst' | _, _ => [] end.
Notation breps dbg := (Forall2 (brep dbg)).
Lemma breps_length dbg st bst : breps dbg st bst -> length bst = length st.
Proof. induction 1; cbn [length]; congruence. Qed.
Lemma hides_reps dbg st bst : breps dbg st bst -> reps (hides st bst) (map shadow bst).
Proof. induction 1 as [|v b st bst V _ IH]; cbn [hides map]; constructor; [|exact IH]. destruct V; cbn [hide shadow]; [assumption | constructor | constructor]. Qed.
Lemma hides_at dbg st bst : breps dbg st bst -> forall i, (forall v, nth_error bst i = Some v -> is_good v) -> nth_error st i = nth_error (hides st bst) i.
Proof.
  induction 1 as [|v b st bst V _ IH]; intros [|i] H; cbn [hides nth_error] in *; [reflexivity | reflexivity | | apply IH, H]. destruct (H b eq_refl) as (a & ->). reflexivity.
Qed.
Lemma goods_reps dbg w l : reps w l -> breps dbg w (map Good l).
Proof. induction 1; cbn [map]; constructor; [constructor|]; assumption. Qed.
Lemma lift_upd dbg st bst : breps dbg st bst -> forall i v w ast, (forall b, nth_error bst i = Some b -> is_good b) -> reps (upd (hides st bst) i v ++ w) ast -> breps dbg (upd st i v ++ w) (lift bst ast).
Proof.
  induction 1 as [|u b st bst V HH IH]; intros i v w ast H R.
  - destruct i; cbn [hides upd app lift] in *; apply goods_reps, R.
  - destruct i as [|i]; cbn [hides upd app nth_error] in *.
    + destruct (H b eq_refl) as (a & ->). inversion R as [|v0 a0 l0 l1 R1 R2]; subst. cbn [lift]. constructor; [constructor; exact R1|].
      specialize (IH (length st) v w l1). assert (U : forall (l : list cval) x, upd l (length l) x = l) by (induction l as [|x0 l IHl]; intros x; [reflexivity | cbn [length upd]; rewrite IHl; reflexivity]).
      assert (LH : length (hides st bst) = length st) by (clear - HH; induction HH; cbn [hides length]; congruence).
      rewrite U in IH. rewrite <- LH, U in IH at 1. apply IH; [|exact R2]. intros b' E. rewrite (proj2 (nth_error_None bst (length st))) in E; [discriminate E|]. rewrite (breps_length dbg _ _ HH). reflexivity.
    + inversion R as [|v0 a0 l0 l1 R1 R2]; subst. destruct b; cbn [hide lift] in *; (constructor; [|apply IH; assumption]); [constructor; exact R1 | exact V | exact V].
Qed.
Lemma upd_over {A} (l : list A) x : upd l (length l) x = l.
Proof. induction l as [|y l IH]; [reflexivity | cbn [length upd]; rewrite IH; reflexivity]. Qed.
Lemma lift_push dbg st bst w ast : breps dbg st bst -> reps (hides st bst ++ w) ast -> breps dbg (st ++ w) (lift bst ast).
Proof.
  intros R H. assert (LH : length (hides st bst) = length st) by (clear - R; induction R; cbn [hides length]; congruence).
  pose proof (lift_upd dbg st bst R (length st) CUnit w ast) as K. rewrite upd_over in K. rewrite <- LH, upd_over in K at 1. apply K; [|exact H].
  intros b E. rewrite (proj2 (nth_error_None bst (length st))) in E; [discriminate E|]. rewrite (breps_length dbg _ _ R). reflexivity.
Qed.
Lemma shadow_at bst i a : nth_error (map shadow bst) i = Some a -> a <> AUnit -> nth_error bst i = Some (Good a).
Proof.
  intros E N. rewrite nth_error_map in E. destruct (nth_error bst i) as [[b| |f]|]; cbn [option_map shadow] in E; [congruence | elim N; congruence | elim N; congruence | discriminate E].
Qed.

(** ** Lists of keys *)
Lemma plain_dec st c : plain st c \/ exists i v, In i (args c) /\ nth_error st i = Some v /\ (v = Zero \/ exists f, v = Null f).
Proof.
  unfold plain. induction (args c) as [|i l IH]; [left; intros i v []|]. destruct IH as [IH|(j & v & J & H)]; [|right; exists j, v; split; [right; exact J | exact H]].
  destruct (nth_error st i) as [[a| |f]|] eqn:E.
  - left. intros j v [<-|J] EV; [|exact (IH j v J EV)]. rewrite E in EV. injection EV as <-. exists a. reflexivity.
  - right. exists i, Zero. split; [left; reflexivity|]. auto.
  - right. exists i, (Null f). split; [left; reflexivity|]. eauto.
  - left. intros j v [<-|J] EV; [congruence | exact (IH j v J EV)].
Qed.
Lemma not_plain st c i v : In i (args c) -> nth_error st i = Some v -> v = Zero \/ (exists f, v = Null f) -> ~ plain st c.
Proof. intros I E H P. destruct (P i v I E) as (a & ->). destruct H as [H|(f & H)]; discriminate H. Qed.

(** * Values *)
Lemma eq_null dbg f k g k' : null_key f k -> null_key g k' -> pk_eq dbg k k' = Some (Bool.eqb f g).
Proof.
  intros K K'. apply null_rep in K, K'. destruct K as (X & Y & I), K' as (X' & Y' & I'). 
  destruct (wp_ex (pk_eq dbg k k') (fun b => b = Bool.eqb f g)) as (b & E & ->); [|exact E]. unfold pk_eq, af_eq.
  eapply wp_bind; [eapply f_eq_rep; [exact X | exact X' | lia]|]. cbv beta. intros ex ->. rewrite feqb_0. cbn [negb].
  eapply wp_bind; [eapply f_eq_rep; [exact Y | exact Y' | lia]|]. cbv beta. intros ey ->. rewrite feqb_0. cbn [negb]. apply wp_some. rewrite I, I'. reflexivity.
Qed.
Lemma eq_mixed dbg f k k' x y : null_key f k -> key_at k' (Aff x y) -> pk_eq dbg k k' = Some false /\ pk_eq dbg k' k = Some false.
Proof.
  intros K (X' & Y' & (XR & YR & O) & I' & VX & VY). apply null_rep in K. destruct K as (X & Y & I). apply fok_frep in X', Y'.
  assert (C : (toF y * toF y = toF x * toF x * toF x + toF 7)%F) by (rewrite <- !toF_mul, <- toF_add; apply toF_eq, O).
  assert (EY : fe (af_y k') = toF y) by (unfold fe; apply toF_eq; rewrite VY; symmetry; apply Z.mod_small, YR).
  assert (NY : toF y <> f0).
  { intros E. rewrite E in C. apply (cube_nonres (toF x)). change b7 with (toF 7). rewrite <- C. ring. }
  rewrite EY in Y'. assert (EF : feqb (toF y) f0 = false) by (destruct (feqb_spec (toF y) f0); [contradiction | reflexivity]).
  assert (EF' : feqb f0 (toF y) = false) by (destruct (feqb_spec f0 (toF y)) as [E|E]; [elim NY; symmetry; exact E | reflexivity]).
  split.
  - destruct (wp_ex (pk_eq dbg k k') (fun b => b = false)) as (b & E & ->); [|exact E]. unfold pk_eq, af_eq.
    eapply wp_bind; [eapply f_eq_rep; [exact X | exact X' | lia]|]. cbv beta. intros ex _. destruct ex; cbn [negb]; [|apply wp_some; reflexivity].
    eapply wp_bind; [eapply f_eq_rep; [exact Y | exact Y' | lia]|]. cbv beta. intros ey ->. rewrite ?EF, ?EF'. apply wp_some. reflexivity.
  - destruct (wp_ex (pk_eq dbg k' k) (fun b => b = false)) as (b & E & ->); [|exact E]. unfold pk_eq, af_eq.
    eapply wp_bind; [eapply f_eq_rep; [exact X' | exact X | lia]|]. cbv beta. intros ex _. destruct ex; cbn [negb]; [|apply wp_some; reflexivity].
    eapply wp_bind; [eapply f_eq_rep; [exact Y' | exact Y | lia]|]. cbv beta. intros ey ->. rewrite ?EF, ?EF'. apply wp_some. reflexivity.
Qed.
(** in release builds: the sum of keys with coordinates 0 *)
Lemma combine_nulls ks : Forall (fun k => exists f, null_key f k) ks -> forall q, zxy q -> exists r, combine_loop false q ks = Some r /\ zxy r /\ j_inf r = xorb (j_inf q) (Nat.odd (length ks)).
Proof.
  induction 1 as [|k ks (f & K) _ IH]; intros q Q; [exists q; cbn [combine_loop length]; rewrite xorb_false_r; auto|]. cbn [combine_loop]. apply null_rep in K. destruct K as (X & Y & I).
  assert (EQ : j_add_ge false q k = j_add_ge false q (Af (af_x k) (af_y k) false)) by reflexivity. rewrite EQ.
  destruct (wp_ex _ _ (add_ge_zero false q (Af (af_x k) (af_y k) false) Q ltac:(split; [exact X|]; split; [exact Y | reflexivity]))) as (r & -> & R & RI). cbn [bind].
  destruct (IH r R) as (s & -> & S & SI). exists s. split; [reflexivity|]. split; [exact S|]. rewrite SI, RI. cbn [length]. rewrite Nat.odd_succ, <- Nat.negb_odd. destruct (j_inf q), (Nat.odd (length ks)); reflexivity.
Qed.
Lemma pk_combine_nulls ks : Forall (fun k => exists f, null_key f k) ks ->
  if Nat.odd (length ks) then exists k, pk_combine false ks = Some (Ok k) /\ null_key false k else pk_combine false ks = Some (Err InvalidPublicKey).
Proof.
  intros H. pose proof (fcrep_frep _ _ 6 fcrep_default ltac:(lia)) as F0. unfold pk_combine.
  destruct (combine_nulls ks H j_set_infinity ltac:(split; [exact F0|]; split; [exact F0 | eexists; exact F0])) as (r & -> & R & RI). cbn [bind]. rewrite RI. cbn [j_set_infinity j_inf xorb].
  destruct (Nat.odd (length ks)); cbn [negb]; [|reflexivity]. destruct (wp_ex _ _ (af_set_gej_zero false r R)) as (a & -> & AX & AY & AI). cbn [bind]. exists a. split; [reflexivity|]. apply null_rep. rewrite AI, RI. auto.
Qed.
Lemma verify_zero_sig dbg ctx z r s k : 0 <= r < n -> 0 <= s < n -> r = 0 \/ s = 0 -> verify dbg ctx (scalar_of z) (Sig (scalar_of r) (scalar_of s)) k = Some false.
Proof.
  intros R S H. pose proof n_lt. unfold verify, verify_raw. cbn [sig_r sig_s]. rewrite !s_is_zero_eq by lia. destruct H as [-> | ->]; cbn [Z.eqb orb]; [reflexivity|]. rewrite orb_true_r. reflexivity.
Qed.

(** * One call *)
Section Views.
Context {dbg : bool} {st : list cval} {bst : list bval} (R : breps dbg st bst).
Lemma breps_nth i : (exists v b, nth_error st i = Some v /\ nth_error bst i = Some b /\ brep dbg v b) \/ (nth_error st i = None /\ nth_error bst i = None).
Proof. clear - R. revert i. induction R as [|v b st' bst' V H IH]; intros [|i]; cbn [nth_error]; [auto | auto | left; eauto | apply IH; exact H]. Qed.
Lemma bare_at i b : nth_error bst i = Some b -> nth_error (map bare bst) i = Some (bare b).
Proof. intros E. rewrite nth_error_map, E. reflexivity. Qed.
Lemma bare_has i b k : nth_error bst i = Some b -> akind (bare b) = k -> has (map bare bst) k i.
Proof. intros E K. exists (bare b). split; [apply bare_at, E | exact K]. Qed.
Lemma bare_not i b k : nth_error bst i = Some b -> akind (bare b) <> k -> ~ has (map bare bst) k i.
Proof. intros E K (a & EA & KA). rewrite (bare_at i b E) in EA. injection EA as <-. exact (K KA). Qed.
Lemma bare_none i k : nth_error bst i = None -> ~ has (map bare bst) k i.
Proof. intros E (a & EA & _). rewrite nth_error_map, E in EA. discriminate EA. Qed.
Ltac wrong E EB := right; split; [apply (bare_not _ _ _ EB); discriminate | let Q := fresh in intros ? Q; rewrite E in Q; discriminate Q].
Lemma bview_sec i : (exists d, nth_error st i = Some (CSec (scalar_of d)) /\ secret bst i d /\ 0 <= d < n /\ (d = 0 -> zero bst i)) \/ (~ has (map bare bst) KSec i /\ forall k, nth_error st i <> Some (CSec k)).
Proof.
  pose proof n_pos as NP. destruct (breps_nth i) as [(v & b & E & EB & V)|[E EB]]; [|right; split; [apply bare_none, EB | congruence]].
  destruct V as [v a V| |f k K _]; [destruct V; try solve [wrong E EB]|..].
  - left. eexists. split; [exact E|]. split; [left; exact EB|]. split; lia.
  - left. exists 0. split; [exact E|]. split; [right; auto|]. split; [lia | auto].
  - wrong E EB.
Qed.
Lemma bview_pub i : (exists k x y, nth_error st i = Some (CPub k) /\ nth_error bst i = Some (Good (APub x y)) /\ key_at k (Aff x y)) \/
  (exists k f, nth_error st i = Some (CPub k) /\ nth_error bst i = Some (Null f) /\ null_key f k /\ (dbg = true -> f = true)) \/ (~ has (map bare bst) KPub i /\ forall k, nth_error st i <> Some (CPub k)).
Proof.
  destruct (breps_nth i) as [(v & b & E & EB & V)|[E EB]]; [|right; right; split; [apply bare_none, EB | congruence]].
  destruct V as [v a V| |f k K F]; [destruct V; try solve [right; wrong E EB]|..].
  - left. eauto 6.
  - right. wrong E EB.
  - right. left. eauto 6.
Qed.
Lemma bview_msg i : (exists z, nth_error st i = Some (CMsg (scalar_of z)) /\ nth_error bst i = Some (Good (AMsg z)) /\ 0 <= z < n) \/ (~ has (map bare bst) KMsg i /\ forall k, nth_error st i <> Some (CMsg k)).
Proof.
  destruct (breps_nth i) as [(v & b & E & EB & V)|[E EB]]; [|right; split; [apply bare_none, EB | congruence]].
  destruct V as [v a V| |f k K F]; [destruct V; try solve [wrong E EB]|..]; [left; eauto | wrong E EB | wrong E EB].
Qed.
Lemma bview_sig i : (exists r s, nth_error st i = Some (CSig (Sig (scalar_of r) (scalar_of s))) /\ nth_error bst i = Some (Good (ASig r s)) /\ 0 <= r < n /\ 0 <= s < n) \/ (~ has (map bare bst) KSig i /\ forall k, nth_error st i <> Some (CSig k)).
Proof.
  destruct (breps_nth i) as [(v & b & E & EB & V)|[E EB]]; [|right; split; [apply bare_none, EB | congruence]].
  destruct V as [v a V| |f k K F]; [destruct V; try solve [wrong E EB]|..]; [left; eauto 6 | wrong E EB | wrong E EB].
Qed.
(** what a value that is not good is *)
Lemma bview_bad i b : nth_error bst i = Some b -> b = Zero \/ (exists f, b = Null f) ->
  (b = Zero /\ nth_error st i = Some (CSec (scalar_of 0))) \/ (exists f k, b = Null f /\ nth_error st i = Some (CPub k) /\ null_key f k).
Proof.
  intros EB H. destruct (breps_nth i) as [(v & b' & E & EB' & V)|[_ EB']]; [|congruence]. rewrite EB in EB'. injection EB' as <-.
  destruct V as [v a V| |f k K F]; [destruct H as [H|(f & H)]; discriminate H | left; auto | right; eauto].
Qed.
Lemma breps_push v b : brep dbg v b -> breps dbg (st ++ [v]) (bst ++ [b]).
Proof. intros V. apply Forall2_app; [exact R | constructor; [exact V | constructor]]. Qed.
Lemma breps_upd i v b : brep dbg v b -> breps dbg (upd st i v) (upd bst i b).
Proof. clear - R. intros V. revert i. induction R as [|w a st' bst' W H IH]; intros [|i]; cbn [upd]; constructor; auto. Qed.
End Views.

Section Sim.
Variables (dbg : bool) (gctx : genctx) (vctx : ecctx) (D : list Z -> list Z) (drbg : list Z -> list Z -> nat -> list Z) (fuel : nat).
Hypothesis GC : gen_ctx gctx.
Hypothesis VC : verify_ctx vctx.
Hypothesis DS : forall b, small (D b).
Hypothesis RS : forall s s', stream (drbg s s').
Definition bgoes (o : outcome (list cval)) (bst : list bval) (c : call) : Prop := exists st' bst', o = Done st' /\ bstep D drbg bst c bst' /\ breps dbg st' bst'.
Definition bone (o : outcome (list cval)) (bst : list bval) (c : call) : Prop :=
  bgoes o bst c \/ (o = Running /\ bwaits drbg fuel bst c) \/ (o = Panic /\ dbg = true /\ bfaults drbg bst c) \/ (dbg = false /\ mixes bst c).
Notation stepc := (step_call dbg gctx vctx D drbg fuel).

Lemma good_one st bst c : breps dbg st bst -> cmd_ok c -> plain bst c -> bone (stepc st (Do c)) bst (Do c).
Proof.
  intros R OK P. pose proof (hides_reps _ _ _ R) as RH. cbn [step_call].
  destruct (frame dbg gctx vctx D drbg fuel st (hides st bst) c) as (e & E1 & E2 & EI).
  { intros i I. apply (hides_at dbg); [exact R|]. intros v E. exact (P i v I E). }
  rewrite E1. destruct (step_one dbg gctx vctx D drbg fuel GC VC DS RS (hides st bst) (map shadow bst) c RH OK) as [(st' & ast' & E & A & R')|[[E W]|(E & DB & F)]]; rewrite E2 in E.
  - left. destruct e as [[[[i v]|] w]| |]; try discriminate E; cbn [patch] in *; injection E as <-; eexists; exists (lift bst ast'); (split; [reflexivity|]); (split; [apply b_good; assumption|]).
    + apply lift_upd; [exact R | | exact R']. intros b EB. exact (P i b (EI i v w eq_refl) EB).
    + apply lift_push; [exact R | exact R'].
  - right. left. split; [destruct e as [[[[i v]|] w]| |]; (discriminate E || reflexivity)|]. destruct W as [(rng & -> & H)|(i & j & z & d & -> & Z1 & D1 & H)]; [left; eauto|].
    right. exists i, j, z, d. split; [reflexivity|]. split; [apply shadow_at; [exact Z1 | discriminate]|]. split; [left; apply shadow_at; [exact D1 | discriminate] | exact H].
  - right. right. left. split; [destruct e as [[[[i v]|] w]| |]; (discriminate E || reflexivity)|]. split; [exact DB|]. destruct F as (i & j & z & d & l & -> & Z1 & D1 & H). cbn [bfaults].
    exists z, d, l. split; [apply shadow_at; [exact Z1 | discriminate]|]. split; [left; apply shadow_at; [exact D1 | discriminate] | exact H].
Qed.
(** ** Calls that read other values *)
Definition ckind (v : cval) : kind :=
  match v with CPub _ => KPub | CSec _ => KSec | CSig _ => KSig | CMsg _ => KMsg | CRid _ => KRid | CBytes _ => KBytes | _ => KOther end.
Lemma kinds st bst i v : breps dbg st bst -> nth_error st i = Some v -> has (map bare bst) (ckind v) i.
Proof.
  intros R E. destruct (breps_nth R i) as [(v' & b & E' & EB & V)|[E' _]]; [|congruence]. rewrite E in E'. injection E' as <-. apply (bare_has i b _ EB). destruct V as [v a V| |f k K F]; [destruct V|..]; reflexivity.
Qed.
Lemma pubs_kinds st bst l : breps dbg st bst -> forall ks, pubs st l = Some ks -> Forall (has (map bare bst) KPub) l.
Proof.
  intros R. induction l as [|i l IH]; intros ks E; [constructor|]. cbn [pubs] in E. destruct (nth_error st i) as [[]|] eqn:EI; try discriminate E. destruct (pubs st l) as [ks'|]; [|discriminate E].
  constructor; [exact (kinds st bst i _ R EI) | exact (IH ks' eq_refl)].
Qed.
Lemma untyped st bst c : breps dbg st bst -> ~ applies (map bare bst) c -> step dbg gctx vctx D drbg fuel st c = Done st.
Proof.
  intros R N. pose proof (kinds st bst) as KK.
  destruct c as [b|i f|i|i|i|i j|i j|l|i j|i|rng| |i|i j|i j|i|i j|i|i|i|i|i|i|i|i j|i|i|v|v|i|i j|i j l|i j l|i j]; cbn [step applies] in *;
    try (elim N; exact I);
    try (repeat match goal with |- context [nth_error st ?i] => destruct (nth_error st i) as [[]|] eqn:?; try reflexivity end; exfalso; apply N;
         repeat split; match goal with E : nth_error st ?i = Some ?v |- has _ ?k ?i => exact (KK i v R E) end).
  destruct (pubs st l) as [ks|] eqn:E; [|reflexivity]. elim N. exact (pubs_kinds st bst l R ks E).
Qed.
Lemma has_dec ast k i : has ast k i \/ ~ has ast k i.
Proof.
  unfold has. destruct (nth_error ast i) as [v|]; [|right; intros (v & E & _); discriminate E]. assert (DK : {akind v = k} + {akind v <> k}) by decide equality.
  destruct DK as [K|K]; [left; eauto | right; intros (v' & E & K'); injection E as <-; contradiction].
Qed.
Lemma applies_dec ast c : applies ast c \/ ~ applies ast c.
Proof.
  destruct c as [b|i f|i|i|i|i j|i j|l|i j|i|rng| |i|i j|i j|i|i j|i|i|i|i|i|i|i|i j|i|i|v|v|i|i j|i j l|i j l|i j]; cbn [applies]; try (left; exact I); try apply has_dec;
    try (match goal with |- context [has ast ?k i /\ has ast ?k' j] => destruct (has_dec ast k i), (has_dec ast k' j); tauto end);
    try (match goal with |- context [has ast ?k i /\ has ast ?k' j /\ has ast ?k2 l] => destruct (has_dec ast k i), (has_dec ast k' j), (has_dec ast k2 l); tauto end).
  induction l as [|i l IH]; [left; constructor|]. destruct (has_dec ast KPub i) as [H|H]; [|right; intros K; inversion K; contradiction]. destruct IH as [IH|IH]; [left; constructor; assumption | right; intros K; inversion K; contradiction].
Qed.
Definition bad (b : bval) : Prop := b = Zero \/ exists f, b = Null f.
Lemma bad_kind bst i b k : nth_error bst i = Some b -> bad b -> has (map bare bst) k i -> k = KSec \/ k = KPub.
Proof. intros E B (a & EA & KA). rewrite nth_error_map, E in EA. injection EA as <-. destruct B as [->|(f & ->)]; cbn [bare akind] in KA; auto. Qed.
Lemma bpush st bst c v b : breps dbg st bst -> brep dbg v b -> bstep D drbg bst c (bst ++ [b]) -> bone (Done (st ++ [v])) bst c.
Proof. intros R V A. left. exists (st ++ [v]), (bst ++ [b]). split; [reflexivity|]. split; [exact A | apply breps_push; assumption]. Qed.
Lemma bdecide st bst c (b : bool) P : breps dbg st bst -> (b = true <-> P) -> (forall a, decides P a -> bstep D drbg bst c (bst ++ [Good a])) -> bone (Done (st ++ [CBool b])) bst c.
Proof.
  intros R H HA. apply bpush with (b := Good (ABool b)); [exact R | constructor; constructor|]. apply HA. destruct b; [left | right]; split; auto; [apply H; reflexivity | intros K; apply H in K; discriminate K].
Qed.
Lemma bupd st bst c i w b : breps dbg st bst -> brep dbg w b -> bstep D drbg bst c (upd bst i b ++ [Good AUnit]) -> bone (Done (upd st i w ++ [CUnit])) bst c.
Proof.
  intros R V A. left. eexists. eexists. split; [reflexivity|]. split; [exact A|]. apply Forall2_app; [apply breps_upd; assumption|]. constructor; [constructor; constructor | constructor].
Qed.
Lemma bpanic bst c : dbg = true -> bfaults drbg bst c -> bone Panic bst c.
Proof. intros E F. right. right. left. auto. Qed.
Lemma berr st bst c e : breps dbg st bst -> bstep D drbg bst c (bst ++ [Good (AErr e)]) -> bone (Done (st ++ [CErr e])) bst c.
Proof. intros R A. apply bpush with (b := Good (AErr e)); [exact R | constructor; constructor | exact A]. Qed.
Lemma builds : dbg = true \/ dbg = false. Proof. destruct dbg; auto. Qed.

Tactic Notation "vsec" constr(R) constr(i) ident(d) ident(E) ident(S) ident(B) ident(Z) := let N := fresh in destruct (bview_sec R i) as [(d & E & S & B & Z)|[N _]]; [rewrite E; cbv iota | exfalso; tauto].
Tactic Notation "vpub" constr(R) constr(i) ident(k) ident(E) ident(EB) ident(x) ident(y) ident(f) ident(K) ident(F) := let N := fresh in
  destruct (bview_pub R i) as [(k & x & y & E & EB & K)|[(k & f & E & EB & K & F)|[N _]]]; [rewrite E; cbv iota | rewrite E; cbv iota | exfalso; tauto].
Lemma special_one st bst c i0 b0 : breps dbg st bst -> In i0 (args c) -> nth_error bst i0 = Some b0 -> bad b0 -> bone (stepc st (Do c)) bst (Do c).
Proof.
  intros R I0 E0 B0. cbn [step_call]. pose proof n_pos as NP. pose proof n_lt as NL. pose proof (not_plain bst c i0 b0 I0 E0 B0) as PL.
  destruct (applies_dec (map bare bst) c) as [AP|N]; [|rewrite (untyped st bst c R N); left; exists st, bst; split; [reflexivity|]; split; [apply b_special; [exact PL | apply s_skip, N] | exact R]].
  assert (SPC : forall st', special D drbg bst c st' -> bstep D drbg bst (Do c) st') by (intros st'; apply b_special, PL).
  assert (OUT : forall k, has (map bare bst) k i0 -> k = KSec \/ k = KPub) by (intros k; apply (bad_kind bst i0 b0 k E0 B0)).
  assert (NG : forall a, nth_error bst i0 <> Some (Good a)) by (intros a E; rewrite E0 in E; injection E as ->; destruct B0 as [B|(f & B)]; discriminate B).
  destruct c as [b|i f|i|i|i|i j|i j|l|i j|i|rng| |i|i j|i j|i|i j|i|i|i|i|i|i|i|i j|i|i|v|v|i|i j|i j l|i j l|i j]; cbn [step applies args In] in *;
    try (exfalso; exact I0);
    try (exfalso; destruct I0 as [->|[]]; destruct (OUT _ AP) as [Q|Q]; discriminate Q);
    try (exfalso; destruct AP as [A1 A2], I0 as [->|[->|[]]]; [destruct (OUT _ A1) as [Q|Q] | destruct (OUT _ A2) as [Q|Q]]; discriminate Q).
  - (* from_secret_key *) vsec R i d E S B Z. destruct I0 as [->|[]]. assert (Z0 : zero bst i0) by (destruct S as [S|[S _]]; [elim (NG _ S) | exact S]). assert (d = 0) as -> by (destruct S as [S|[_ ->]]; [elim (NG _ S) | reflexivity]).
    destruct (C84_public_pf dbg gctx s_default GC) as (k & EK & K). change (sk_clear s_default) with (scalar_of 0) in EK. rewrite EK. cbn [of_opt bind push].
    apply bpush with (b := Null true); [exact R | constructor; [exact K | reflexivity] | apply SPC, s_pk_from, Z0].
  - (* serialize *) vpub R i k E EB x y f K F; [destruct I0 as [->|[]]; elim (NG _ EB)|]. assert (NU : null bst i) by (exists f; exact EB). destruct builds as [DB|DB].
    + destruct K as (_ & _ & _ & _ & I). rewrite (F DB) in I. unfold pk_serialize. rewrite DB, I. cbn [dassert]. apply bpanic; [exact DB | exact NU].
    + rewrite (proj1 (C84_serialize_pf dbg f k K ltac:(congruence))). cbn [of_opt bind push]. apply bpush with (b := Good (ABytes (4 :: repeat 0 64))); [exact R | constructor; constructor | apply SPC, s_pk_ser, NU].
      apply small_be; [repeat (constructor; [lia|]); constructor | cbn [length repeat]; lia].
  - vpub R i k E EB x y f K F; [destruct I0 as [->|[]]; elim (NG _ EB)|]. assert (NU : null bst i) by (exists f; exact EB). destruct builds as [DB|DB].
    + destruct K as (_ & _ & _ & _ & I). rewrite (F DB) in I. unfold pk_serialize_compressed. rewrite DB, I. cbn [dassert]. apply bpanic; [exact DB | exact NU].
    + rewrite (proj1 (proj2 (C84_serialize_pf dbg f k K ltac:(congruence)))). cbn [of_opt bind push]. apply bpush with (b := Good (ABytes (2 :: repeat 0 32))); [exact R | constructor; constructor | apply SPC, s_pk_serc, NU].
      apply small_be; [repeat (constructor; [lia|]); constructor | cbn [length repeat]; lia].
  - (* tweak_add *) vpub R i k E EB x y f K F; vsec R j t E' S B Z.
    + assert (Z0 : zero bst j) by (destruct I0 as [->|[->|[]]]; [elim (NG _ EB)|]; destruct S as [S|[S _]]; [elim (NG _ S) | exact S]). assert (t = 0) as -> by (unfold zero in Z0; destruct S as [S|[_ ->]]; [congruence | reflexivity]).
      destruct (C34_public_tweak_add_pf dbg vctx k (Aff x y) 0 VC K ltac:(discriminate) ltac:(lia)) as [_ H2]. destruct (H2 ltac:(discriminate)) as (k' & EK & A). rewrite EK. cbn [assign].
      apply bupd with (b := Good (APub x y)); [exact R | constructor; constructor; exact (key_mono _ _ A)|]. rewrite upd_same by exact EB. apply SPC. eapply s_pk_add; eassumption.
    + assert (NU : null bst i) by (exists f; exact EB). destruct builds as [DB|DB].
      * destruct K as (_ & _ & _ & _ & I). rewrite (F DB) in I. rewrite DB, (proj1 (tweak_inf_panics vctx k I)). apply bpanic; [exact DB | split; [exact NU | exists t; exact S]].
      * destruct (C84_tweak_add_pf dbg vctx f k t VC K ltac:(congruence) B) as (k' & EK & K'). rewrite EK. cbn [assign].
        apply bupd with (b := Null false); [exact R | constructor; [exact K' | congruence] | apply SPC; eapply s_pk_add_null; eassumption].
  - (* tweak_mul *) assert (NOT : forall k v, nth_error st i = Some (CPub k) -> public bst i v -> zero bst j -> bone (assign CPub st i (pk_tweak_mul_assign dbg vctx k (scalar_of 0))) bst (Do (PkTweakMul i j))).
    { intros k v E PV Z0. unfold pk_tweak_mul_assign. rewrite s_is_zero_eq by lia. cbn [Z.eqb assign]. rewrite upd_same by exact E. apply berr; [exact R | apply SPC; eapply s_pk_mul_zero; eassumption]. }
    vpub R i k E EB x y f K F; vsec R j t E' S B Z.
    + assert (Z0 : zero bst j) by (destruct I0 as [->|[->|[]]]; [elim (NG _ EB)|]; destruct S as [S|[S _]]; [elim (NG _ S) | exact S]). assert (t = 0) as -> by (unfold zero in Z0; destruct S as [S|[_ ->]]; [congruence | reflexivity]).
      apply NOT with (v := Good (APub x y)); [exact E | split; [exact EB | left; eauto] | exact Z0].
    + assert (NU : null bst i) by (exists f; exact EB). destruct (Z.eq_dec t 0) as [->|NT]; [apply NOT with (v := Null f); [exact E | split; [exact EB | right; eauto] | exact (Z eq_refl)]|]. destruct builds as [DB|DB].
      * destruct K as (_ & _ & _ & _ & I). rewrite (F DB) in I. rewrite DB, (proj2 (tweak_inf_panics vctx k I) t ltac:(lia)). apply bpanic; [exact DB | split; [exact NU | exists t; auto]].
      * destruct (proj2 (C84_tweak_mul_pf dbg vctx f k t VC K ltac:(congruence) B) NT) as (k' & EK & K'). rewrite EK. cbn [assign].
        apply bupd with (b := Null false); [exact R | constructor; [exact K' | congruence] | apply SPC; eapply s_pk_mul_null; eassumption].
  - (* combine *)
    assert (NX : Exists (null bst) l).
    { apply Exists_exists. exists i0. split; [exact I0|]. rewrite Forall_forall in AP. destruct (bview_pub R i0) as [(k & x & y & _ & EB & _)|[(k & f & _ & EB & _)|[N _]]]; [elim (NG _ EB) | exists f; exact EB | elim (N (AP i0 I0))]. }
    assert (PK : exists ks, pubs st l = Some ks /\ (Forall (null bst) l -> Forall (fun k => exists f, null_key f k) ks /\ length ks = length l) /\
      (dbg = true -> exists ks1 k ks2, ks = ks1 ++ k :: ks2 /\ null_key true k)).
    { clear - R AP NX. induction l as [|i l IH]; [inversion NX|]. inversion AP as [|? ? A1 A2]; subst. cbn [pubs].
      assert (REST : exists ks, pubs st l = Some ks /\ (Forall (null bst) l -> Forall (fun k => exists f, null_key f k) ks /\ length ks = length l)).
      { clear - R A2. induction l as [|i l IH]; [exists []; repeat constructor|]. inversion A2 as [|? ? B1 B2]; subst. destruct (IH B2) as (ks & E & H). cbn [pubs]. rewrite E.
        destruct (bview_pub R i) as [(k & x & y & -> & EB & _)|[(k & f & -> & EB & K & _)|[N _]]]; [| |elim (N B1)]; cbn [bind]; exists (k :: ks); (split; [reflexivity|]); intros HF; inversion HF as [|? ? H1 H2]; subst.
        - destruct H1 as (f & H1). congruence.
        - destruct (H H2) as [H3 H4]. split; [constructor; eauto | cbn [length]; rewrite H4; reflexivity]. }
      destruct (bview_pub R i) as [(k & x & y & -> & EB & K)|[(k & f & -> & EB & K & F)|[N _]]]; [| |elim (N A1)].
      - inversion NX as [? ? (f & H)|? ? H]; subst; [congruence|]. destruct (IH A2 H) as (ks & -> & H1 & H2). cbn [bind]. exists (k :: ks). split; [reflexivity|]. split.
        + intros HF. inversion HF as [|? ? (f & K1) K2]; subst. congruence.
        + intros DB. destruct (H2 DB) as (ks1 & k' & ks2 & -> & K'). exists (k :: ks1), k', ks2. auto.
      - destruct REST as (ks & -> & H1). cbn [bind]. exists (k :: ks). split; [reflexivity|]. split.
        + intros HF. inversion HF as [|? ? K1 K2]; subst. destruct (H1 K2) as [H3 H4]. split; [constructor; eauto | cbn [length]; rewrite H4; reflexivity].
        + intros DB. exists [], k, ks. split; [reflexivity|]. rewrite (F DB) in K. exact K. }
    destruct PK as (ks & -> & HN & HD). destruct builds as [DB|DB].
    + destruct (HD DB) as (ks1 & k & ks2 & -> & (_ & _ & _ & _ & I)). unfold pk_combine. rewrite DB, combine_inf_panics by exact I. apply bpanic; [exact DB | split; assumption].
    + assert (DF : Forall (null bst) l \/ ~ Forall (null bst) l).
      { clear. induction l as [|i l IH]; [left; constructor|]. destruct IH as [IH|IH]; [|right; intros H; inversion H; contradiction]. destruct (nth_error bst i) as [[a| |f]|] eqn:E; try (right; intros H; inversion H as [|? ? (g & K) _]; congruence).
        left. constructor; [exists f; exact E | exact IH]. }
      destruct DF as [DF|DF]; [|right; right; right; split; [exact DB|]; exists l; auto]. destruct (HN DF) as [K1 K2]. pose proof (pk_combine_nulls ks K1) as PC. rewrite K2 in PC. rewrite DB.
      pose proof (SPC _ (s_combine D drbg bst l DF)) as SC. destruct (Nat.odd (length l)).
      * destruct PC as (k & -> & K). cbn [of_res bind push]. apply bpush with (b := Null false); [exact R | constructor; [exact K | congruence] | exact SC].
      * rewrite PC. cbn [of_res bind push]. apply berr; [exact R | exact SC].
  - (* equality *) assert (PE : forall k k' a a' b, public bst i a -> public bst j a' -> pk_eq dbg k k' = Some b -> (b = true <-> a = a') -> bone (push st (of_opt CBool (pk_eq dbg k k'))) bst (Do (PkEqual i j))).
    { intros k k' a a' b PA PB -> HB. cbn [of_opt bind push]. apply bdecide with (P := a = a'); [exact R | exact HB|]. intros v HV. apply SPC. eapply s_pk_eq; eassumption. }
    vpub R i k E EB x y f K F; vpub R j k' E' EB' x' y' f' K' F'.
    + exfalso. destruct I0 as [->|[->|[]]]; [elim (NG _ EB) | elim (NG _ EB')].
    + apply PE with (a := Good (APub x y)) (a' := Null f') (b := false); [split; eauto | split; eauto | apply (eq_mixed dbg f' k' k x y K' K) | split; discriminate].
    + apply PE with (a := Null f) (a' := Good (APub x' y')) (b := false); [split; eauto | split; eauto | apply (eq_mixed dbg f k k' x' y' K K') | split; discriminate].
    + apply PE with (a := Null f) (a' := Null f') (b := Bool.eqb f f'); [split; eauto | split; eauto | apply eq_null; assumption|]. rewrite Bool.eqb_true_iff. split; [intros ->; reflexivity | intros Q; injection Q as ->; reflexivity].
  - (* serialize a secret *) vsec R i d E S B Z. destruct I0 as [->|[]]. assert (d = 0) as -> by (destruct S as [S|[_ ->]]; [elim (NG _ S) | reflexivity]). unfold sk_serialize. rewrite s_b32_eq by lia.
    apply bpush with (b := Good (ABytes (be_bytes 32 0))); [exact R | constructor; constructor; apply be_small | apply SPC, s_sk_ser, (Z eq_refl)].
  - (* tweak_add of a secret *) vsec R i d E S B Z. vsec R j t E' S' B' Z'.
    assert (OZ : d = 0 \/ t = 0) by (destruct I0 as [->|[->|[]]]; [left; destruct S as [Q|[_ ->]] | right; destruct S' as [Q|[_ ->]]]; reflexivity || elim (NG _ Q)).
    unfold sk_tweak_add_assign. rewrite s_add_eq by lia. cbn [bind]. rewrite Z.mod_small by lia. rewrite s_is_zero_eq by lia. destruct (Z.eqb_spec (d + t) 0) as [EZ|EZ]; cbn [assign].
    + assert (d = 0) as -> by lia. assert (t = 0) as -> by lia. rewrite upd_same by exact E. apply berr; [exact R | apply SPC, s_sk_add_zero; [exact (Z eq_refl) | exact (Z' eq_refl)]].
    + apply bupd with (b := Good (ASec (d + t))); [exact R | constructor; constructor; lia | apply SPC; eapply s_sk_add; eassumption].
  - (* tweak_mul of a secret *) vsec R i d E S B Z. vsec R j t E' S' B' Z'. unfold sk_tweak_mul_assign. rewrite s_is_zero_eq by lia. destruct (Z.eqb_spec t 0) as [->|NT]; cbn [assign].
    + rewrite upd_same by exact E. apply berr; [exact R | apply SPC; eapply s_sk_mul_zero; [exact S | exact (Z' eq_refl)]].
    + assert (d = 0) as -> by (destruct I0 as [->|[->|[]]]; [destruct S as [S|[_ ->]]; [elim (NG _ S) | reflexivity] | destruct S' as [S'|[_ ->]]; [elim (NG _ S') | elim NT; reflexivity]]).
      rewrite s_mul_eq by lia. cbn [bind assign]. rewrite Z.mul_0_l, Z.mod_0_l by lia. rewrite upd_same by exact E. apply bpush with (b := Good AUnit); [exact R | constructor; constructor | apply SPC; eapply s_sk_mul; [exact (Z eq_refl) | exact S' | exact NT]].
  - (* inverse *) vsec R i d E S B Z. destruct I0 as [->|[]]. assert (d = 0) as -> by (destruct S as [S|[_ ->]]; [elim (NG _ S) | reflexivity]).
    destruct (C84_secret_pf dbg s_default 0 ltac:(lia)) as (_ & _ & EI & _). change (sk_clear s_default) with (scalar_of 0) in EI. rewrite EI. cbn [of_opt bind push].
    apply bpush with (b := Zero); [exact R | constructor | apply SPC, s_sk_inv, (Z eq_refl)].
  - (* equality of secrets *) vsec R i d E S B Z. vsec R j t E' S' B' Z'. apply bdecide with (P := d = t); [exact R | unfold sk_eqb; apply s_eqb_val; lia|]. intros v HV. apply SPC. eapply s_sk_eq; eassumption.
  - (* ecdh *) assert (NOT : forall k v, public bst i v -> zero bst j -> bone (push st (of_res CBytes (shared_secret_new dbg D k (scalar_of 0)))) bst (Do (Ecdh i j))).
    { intros k v PV Z0. change (scalar_of 0) with (sk_clear s_default). rewrite C84_secret_ecdh_pf. cbn [of_res bind push]. apply berr; [exact R | apply SPC; eapply s_ecdh_zero; eassumption]. }
    vpub R i k E EB x y f K F; vsec R j t E' S B Z.
    + assert (Z0 : zero bst j) by (destruct I0 as [->|[->|[]]]; [elim (NG _ EB)|]; destruct S as [S|[S _]]; [elim (NG _ S) | exact S]). assert (t = 0) as -> by (unfold zero in Z0; destruct S as [S|[_ ->]]; [congruence | reflexivity]).
      apply NOT with (v := Good (APub x y)); [split; [exact EB | left; eauto] | exact Z0].
    + assert (NU : null bst i) by (exists f; exact EB). destruct (Z.eq_dec t 0) as [->|NT]; [apply NOT with (v := Null f); [split; [exact EB | right; eauto] | exact (Z eq_refl)]|]. destruct builds as [DB|DB].
      * destruct K as (_ & _ & _ & _ & I). rewrite (F DB) in I. rewrite DB, (ecdh_inf_panics D k t I ltac:(lia)). apply bpanic; [exact DB | split; [exact NU | exists t; auto]].
      * rewrite DB, (C84_ecdh_pf D f k t K ltac:(lia)). cbn [of_res bind push]. apply bpush with (b := Good (ABytes (D (2 :: repeat 0 32)))); [exact R | constructor; constructor; apply DS | apply SPC; eapply s_ecdh_null; eassumption].
  - (* verify *) destruct AP as (A1 & A2 & A3). destruct (bview_msg R i) as [(z & E & EZ & ZZ)|[N _]]; [|elim (N A1)]. rewrite E. destruct (bview_sig R j) as [(r & s & E' & ES & RR & SS)|[N _]]; [|elim (N A2)]. rewrite E'. cbv iota.
    vpub R l k E2 EB x y f K F; [exfalso; destruct I0 as [->|[->|[->|[]]]]; [elim (NG _ EZ) | elim (NG _ ES) | elim (NG _ EB)]|]. assert (NU : null bst l) by (exists f; exact EB).
    assert (SV : forall b, (b = true <-> r <> 0 /\ s <> 0) -> bone (Done (st ++ [CBool b])) bst (Do (Verify i j l))).
    { intros b HB. apply bdecide with (P := r <> 0 /\ s <> 0); [exact R | exact HB|]. intros v HV. apply SPC. eapply s_verify; eassumption. }
    destruct (Z.eq_dec r 0) as [R0|R0]; [rewrite (verify_zero_sig dbg vctx z r s k RR SS (or_introl R0)); apply SV; split; [discriminate | tauto]|].
    destruct (Z.eq_dec s 0) as [S0|S0]; [rewrite (verify_zero_sig dbg vctx z r s k RR SS (or_intror S0)); apply SV; split; [discriminate | tauto]|].
    destruct builds as [DB|DB].
    + destruct K as (_ & _ & _ & _ & I). rewrite (F DB) in I. rewrite DB, (verify_inf_panics vctx k r s z I ltac:(lia) ltac:(lia) ZZ). apply bpanic; [exact DB | split; [exact A1|]; split; [exists r, s; auto | exact NU]].
    + rewrite (C84_verify_pf dbg vctx f k r s z VC K ltac:(congruence) RR SS ZZ), (proj2 (Z.eqb_neq r 0)), (proj2 (Z.eqb_neq s 0)) by assumption. apply SV. cbn [orb negb]. tauto.
  - exfalso. destruct AP as (A1 & A2 & A3), I0 as [->|[->|[->|[]]]]; [destruct (OUT _ A1) as [Q|Q] | destruct (OUT _ A2) as [Q|Q] | destruct (OUT _ A3) as [Q|Q]]; discriminate Q.
  - (* sign *) destruct AP as [A1 A2]. destruct (bview_msg R i) as [(z & E & EZ & ZZ)|[N _]]; [|elim (N A1)]. rewrite E. cbv iota. vsec R j d E' S B Z.
    assert (Z0 : zero bst j) by (destruct I0 as [->|[->|[]]]; [elim (NG _ EZ)|]; destruct S as [S|[S _]]; [elim (NG _ S) | exact S]). assert (d = 0) as -> by (unfold zero in Z0; destruct S as [S|[_ ->]]; [congruence | reflexivity]).
    unfold sign. rewrite !s_b32_eq by lia. set (gen := drbg (be_bytes 32 0) (be_bytes 32 z)). assert (SG : stream gen) by apply RS.
    destruct (sign_cases dbg gctx GC gen 0 z SG ltac:(lia) ZZ fuel 0) as [(l & r & s & id & _ & H1 & H2 & H3 & ->)|[[-> H]|(-> & HD & l & _ & H1 & H2)]].
    + left. exists (st ++ [CSig (Sig (scalar_of r) (scalar_of s)); CRid id]), (bst ++ [Good (ASig r s); Good (ARid id)]). split; [reflexivity|].
      split; [apply SPC; eapply s_sign; [exact EZ | exact Z0 | exists l; split; [intros l' Hl; apply H1; lia | split; assumption]]|].
      destruct (signature_for_ok 0 z (nonce gen l) r s id ltac:(lia) ZZ (proj1 H2) H3) as (RR & SS & SN & ID & _).
      apply Forall2_app; [exact R|]. assert (0 <= s < n) by lia. repeat constructor; assumption || apply ID || apply RR || lia.
    + right. left. split; [reflexivity|]. right. exists i, j, z, 0. split; [reflexivity|]. split; [exact EZ|]. split; [exact S|]. intros l Hl. apply H. lia.
    + apply bpanic; [exact HD|]. exists z, 0, l. split; [exact EZ|]. split; [exact S|]. split; [intros l' Hl; apply H1; lia | exact H2].
Qed.
Lemma call_one st bst c : breps dbg st bst -> call_ok c -> bone (stepc st c) bst c.
Proof.
  intros R OK. pose proof n_pos as NP. pose proof n_lt as NL.
  assert (NO : bstep D drbg bst c bst -> bone (Done st) bst c) by (intros A; left; exists st, bst; auto).
  destruct c as [c|i|i|i|i|i j|i|i]; cbn [step_call].
  - destruct (plain_dec bst c) as [P|(i0 & b0 & I0 & E0 & B0)]; [exact (good_one st bst c R OK P) | exact (special_one st bst c i0 b0 R I0 E0 B0)].
  - destruct (bview_sec R i) as [(d & E & S & B & Z)|[N NK]].
    + rewrite E. left. eexists. eexists. split; [reflexivity|]. split; [eapply b_clear, S | apply breps_upd; [exact R | constructor]].
    + destruct (nth_error st i) as [[]|]; try (elim (NK _ eq_refl)); apply NO; eapply b_skip_sec; eauto.
  - destruct (bview_sec R i) as [(d & E & S & B & Z)|[N NK]].
    + rewrite E. apply bdecide with (P := d = 0); [exact R | rewrite s_is_zero_eq by lia; apply Z.eqb_eq|]. intros v HV. eapply b_is_zero; eassumption.
    + destruct (nth_error st i) as [[]|]; try (elim (NK _ eq_refl)); apply NO; eapply b_skip_sec; eauto.
  - destruct (bview_sec R i) as [(d & E & S & B & Z)|[N NK]].
    + rewrite E. apply bpush with (b := Good (AMsg d)); [exact R | constructor; constructor; exact B | eapply b_msg_of, S].
    + destruct (nth_error st i) as [[]|]; try (elim (NK _ eq_refl)); apply NO; eapply b_skip_sec; eauto.
  - destruct (bview_msg R i) as [(z & E & EZ & ZZ)|[N NK]].
    + rewrite E, C41_try_from_canonical_pf by exact ZZ. destruct (Z.eqb_spec z 0) as [->|NZ]; cbn [of_res bind push].
      * apply berr; [exact R|]. eapply b_sk_of; [exact EZ|]. right. split; [intros d [_ H]; apply H; reflexivity | reflexivity].
      * apply bpush with (b := Good (ASec z)); [exact R | constructor; constructor; lia|]. eapply b_sk_of; [exact EZ|]. left. exists z. auto.
    + destruct (nth_error st i) as [[]|]; try (elim (NK _ eq_refl)); apply NO, b_skip_msg, N.
  - destruct (bview_msg R i) as [(r & E & EZ & ZZ)|[N NK]].
    + rewrite E. destruct (bview_msg R j) as [(s & E' & EZ' & ZZ')|[N NK]].
      * rewrite E'. apply bpush with (b := Good (ASig r s)); [exact R | constructor; constructor; assumption | eapply b_sig_of; eassumption].
      * destruct (nth_error st j) as [[]|]; try (elim (NK _ eq_refl)); apply NO, b_skip_msgs; tauto.
    + destruct (nth_error st i) as [[]|]; try (elim (NK _ eq_refl)); apply NO, b_skip_msgs; tauto.
  - destruct (bview_sig R i) as [(r & s & E & EZ & RR & SS)|[N NK]].
    + rewrite E. cbn [sig_r sig_s]. left. eexists. eexists. split; [reflexivity|]. split; [eapply b_msgs_of, EZ|]. apply Forall2_app; [exact R|]. repeat constructor; lia.
    + destruct (nth_error st i) as [[]|]; try (elim (NK _ eq_refl)); apply NO, b_skip_sig, N.
  - destruct (bview_pub R i) as [(k & x & y & E & EB & K)|[(k & f & E & EB & K & F)|[N NK]]].
    + rewrite E. pose proof K as (X & Y & O & I & VX & VY). rewrite (proj1 (C42_try_from_affine_pf dbg k (fok_mono 6 8 _ X ltac:(lia)) (fok_mono 6 8 _ Y ltac:(lia))) I ltac:(rewrite VX, VY; exact O)). cbn [of_res bind push].
      apply bpush with (b := Good (APub x y)); [exact R | constructor; constructor; exact K | eapply b_recheck, EB].
    + rewrite E. pose proof (null_off f k K) as NO'. pose proof K as (X & Y & _). rewrite (proj2 (C42_try_from_affine_pf dbg k (fok_mono 6 8 _ X ltac:(lia)) (fok_mono 6 8 _ Y ltac:(lia))) ltac:(tauto)). cbn [of_res bind push].
      apply berr; [exact R | apply b_recheck_null; exists f; exact EB].
    + destruct (nth_error st i) as [[]|]; try (elim (NK _ eq_refl)); apply NO, b_skip_pub, N.
Qed.
End Sim.

(** * The abstract machine is deterministic *)
Lemma secret_one st i d e : Forall sane (map shadow st) -> secret st i d -> secret st i e -> d = e.
Proof. intros SN [H|[H ->]] [H'|[H' ->]]; congruence. Qed.
Lemma secret_zero st i d : secret st i d -> zero st i -> d = 0.
Proof. unfold zero. intros [H|[H ->]] H'; congruence. Qed.
Lemma secret_range st i d : Forall sane (map shadow st) -> secret st i d -> 0 <= d < n /\ (d = 0 -> zero st i).
Proof.
  intros SN H. pose proof n_pos. destruct H as [H|[H ->]]; [|split; [lia | auto]]. pose proof (sane_at _ i (ASec d) SN ltac:(rewrite nth_error_map, H; reflexivity)) as S. cbn [sane] in S. split; lia.
Qed.
Lemma special_applies D drbg st c st' : special D drbg st c st' -> (~ applies (map bare st) c /\ st' = st) \/ applies (map bare st) c.
Proof.
  assert (HS : forall i d, secret st i d -> has (map bare st) KSec i) by (intros i d [H|[H _]]; eexists; rewrite nth_error_map, H; split; reflexivity).
  assert (HZ : forall i, zero st i -> has (map bare st) KSec i) by (intros i H; apply (HS i 0); right; auto).
  assert (HN : forall i, null st i -> has (map bare st) KPub i) by (intros i (f & H); eexists; rewrite nth_error_map, H; split; reflexivity).
  assert (HP : forall i v, public st i v -> has (map bare st) KPub i) by (intros i v [H [(x & y & ->)|(f & ->)]]; eexists; rewrite nth_error_map, H; split; reflexivity).
  assert (HG : forall i a, nth_error st i = Some (Good a) -> has (map bare st) (akind a) i) by (intros i a H; eexists; rewrite nth_error_map, H; split; reflexivity).
  intros H. destruct H as [c N|i Z|i Z|i Z|i j d e v S S' V|i j d t S S' NE|i j Z Z'|i j t Z S NT|i j d S Z|i j x y E Z|i j t NU S|i j v P Z|i j t NU S NT|i j v P Z|i j d NU S ND|i NU|i NU|i j a b v P P' V|l F|i j l z r s v E E' NU V|i j z r s id E Z V]; [left; auto|..]; right; cbn [applies].
  all: try (split; [|split]); try split; eauto.
  - exact (HG _ _ E).
  - eapply Forall_impl; [exact HN | exact F].
  - exact (HG _ _ E).
  - exact (HG _ _ E').
  - exact (HG _ _ E).
Qed.
Lemma special_fun D drbg st c a b : Forall sane (map shadow st) -> special D drbg st c a -> special D drbg st c b -> a = b.
Proof.
  intros SN H H'. destruct (special_applies _ _ _ _ _ H) as [[N ->]|Y], (special_applies _ _ _ _ _ H') as [[N' ->]|Y']; [reflexivity | contradiction | contradiction|].
  pose proof (secret_one st) as SO. pose proof (secret_zero st) as SZ. pose proof (secret_range st) as SR.
  destruct H; [contradiction|..]; inversion H'; subst; try contradiction; try reflexivity;
    repeat match goal with A : secret st ?i ?d, B : secret st ?i ?e |- _ => let Q := fresh in assert (Q : d = e) by exact (SO i d e SN A B); first [subst d | subst e | clear B] end; try reflexivity;
    repeat match goal with A : zero st ?i, B : secret st ?i ?e |- _ => let Q := fresh in assert (Q : e = 0) by exact (SZ i e B A); first [subst e | rewrite Q in *]; clear B end; try reflexivity; try lia;
    unfold zero, null, public in *; repeat match goal with A : exists f, _ |- _ => destruct A | A : _ /\ _ |- _ => destruct A end; try congruence.
  - f_equal. f_equal. f_equal. match goal with A : decides _ v, B : decides _ v0 |- _ => exact (decides_fun _ _ _ A B) end.
  - repeat match goal with A : nth_error st ?i = Some ?a, B : nth_error st ?i = Some ?b |- _ => rewrite A in B; injection B as B; subst end.
    f_equal. f_equal. f_equal. match goal with A : decides _ v, B : decides _ v0 |- _ => exact (decides_fun _ _ _ A B) end.
  - repeat match goal with A : nth_error st ?i = Some ?a, B : nth_error st ?i = Some ?b |- _ => rewrite A in B; injection B as B; subst end.
    f_equal. f_equal. f_equal. match goal with A : decides _ v, B : decides _ v0 |- _ => exact (decides_fun _ _ _ A B) end.
  - repeat match goal with A : nth_error st ?i = Some (Good ?a), B : nth_error st ?i = Some (Good ?b) |- _ => rewrite A in B; injection B as B; subst end.
    match goal with A : signs _ _ _ r s id, B : signs _ _ _ r0 s0 id0 |- _ => destruct (signs_fun _ _ _ _ _ _ _ _ _ A B) as (-> & -> & ->) end. reflexivity.
Qed.
Lemma bstep_fun D drbg st c a b : Forall sane (map shadow st) -> bstep D drbg st c a -> bstep D drbg st c b -> a = b.
Proof.
  intros SN H H'. assert (HS : forall i d, secret st i d -> has (map bare st) KSec i) by (intros i d [K|[K _]]; eexists; rewrite nth_error_map, K; split; reflexivity).
  assert (HN : forall i, null st i -> has (map bare st) KPub i) by (intros i (f & K); eexists; rewrite nth_error_map, K; split; reflexivity).
  assert (HG : forall i v, nth_error st i = Some (Good v) -> has (map bare st) (akind v) i) by (intros i v K; eexists; rewrite nth_error_map, K; split; reflexivity).
  pose proof (secret_one st) as SO.
  destruct H as [c ast P A|c st' P S|i d S|i d v S V|i d S|i z v E V|i j r s E E'|i r s E|i x y E|i NU|i c N OR|i N|i j N|i N|i N].
  - inversion H' as [c' ast' P' A'|c' st2 P' S'| | | | | | | | |i0 c0 N0 OR0| | | |]; subst; [rewrite (astep_fun _ _ _ _ _ _ SN A A'); reflexivity | contradiction | destruct OR0 as [Q|[Q|Q]]; discriminate Q].
  - inversion H' as [c' ast' P' A'|c' st2 P' S'| | | | | | | | |i0 c0 N0 OR0| | | |]; subst; [contradiction | exact (special_fun _ _ _ _ _ _ SN S S') | destruct OR0 as [Q|[Q|Q]]; discriminate Q].
  - inversion H' as [| | | | | | | | | |i0 c0 N0 OR0| | | |]; subst; [reflexivity|]. destruct OR0 as [Q|[Q|Q]]; try discriminate Q. injection Q as <-. elim (N0 (HS _ _ S)).
  - inversion H' as [| | |i' d' v' S' V'| | | | | | |i0 c0 N0 OR0| | | |]; subst.
    + rewrite (SO i d d' SN S S') in V. rewrite (decides_fun _ _ _ V V'). reflexivity.
    + destruct OR0 as [Q|[Q|Q]]; try discriminate Q. injection Q as <-. elim (N0 (HS _ _ S)).
  - inversion H' as [| | | |i' d' S'| | | | | |i0 c0 N0 OR0| | | |]; subst.
    + rewrite (SO i d d' SN S S'). reflexivity.
    + destruct OR0 as [Q|[Q|Q]]; try discriminate Q. injection Q as <-. elim (N0 (HS _ _ S)).
  - inversion H' as [| | | | |i' z' v' E' V'| | | | |i0 c0 N0 OR0|i' N'| | |]; subst; [|destruct OR0 as [Q|[Q|Q]]; discriminate Q | elim (N' (HG _ _ E))].
    rewrite E in E'. injection E' as <-. f_equal. f_equal. f_equal. revert V V'. apply answers_fun. intros u w [-> _] [-> _]. reflexivity.
  - inversion H' as [| | | | | |i' j' r' s' F F'| | | |i0 c0 N0 OR0| |i' j' N'| |]; subst; [congruence | destruct OR0 as [Q|[Q|Q]]; discriminate Q|]. elim N'. split; [exact (HG _ _ E) | exact (HG _ _ E')].
  - inversion H' as [| | | | | | |i' r' s' F| | |i0 c0 N0 OR0| | |i' N'|]; subst; [congruence | destruct OR0 as [Q|[Q|Q]]; discriminate Q|]. elim (N' (HG _ _ E)).
  - inversion H' as [| | | | | | | |i' x' y' F|i' (f & F)|i0 c0 N0 OR0| | | |i' N']; subst; [congruence | congruence | destruct OR0 as [Q|[Q|Q]]; discriminate Q|]. elim (N' (HG _ _ E)).
  - inversion H' as [| | | | | | | |i' x' y' F|i' F|i0 c0 N0 OR0| | | |i' N']; subst; [destruct NU; congruence | reflexivity | destruct OR0 as [Q|[Q|Q]]; discriminate Q|]. elim (N' (HN _ NU)).
  - inversion H' as [|c' st2 P' S'|i' d' S'|i' d' v' S' V'|i' d' S'| | | | | |i0 c0 N0 OR0| | | |]; subst; try reflexivity; destruct OR as [Q|[Q|Q]]; try discriminate Q; injection Q as <-; elim (N (HS _ _ S')).
  - inversion H' as [| | | | |i' z' v' E' V'| | | | |i0 c0 N0 OR0|i' N'| | |]; subst; try reflexivity. elim (N (HG _ _ E')).
  - inversion H' as [| | | | | |i' j' r' s' F F'| | | |i0 c0 N0 OR0| |i' j' N'| |]; subst; try reflexivity. elim N. split; [exact (HG _ _ F) | exact (HG _ _ F')].
  - inversion H' as [| | | | | | |i' r' s' F| | |i0 c0 N0 OR0| | |i' N'|]; subst; try reflexivity. elim (N (HG _ _ F)).
  - inversion H' as [| | | | | | | |i' x' y' F|i' F|i0 c0 N0 OR0| | | |i' N']; subst; try reflexivity; [elim (N (HG _ _ F)) | elim (N (HN _ F))].
Qed.

(** * Programs *)
Lemma breps_sane dbg st bst : breps dbg st bst -> Forall sane (map shadow bst).
Proof. intros R. exact (reps_sane _ _ (hides_reps _ _ _ R)). Qed.
Lemma bstep_waits D drbg st c st' : Forall sane (map shadow st) -> bstep D drbg st c st' -> exists f0, forall fuel, (f0 <= fuel)%nat -> ~ bwaits drbg fuel st c.
Proof.
  intros SN H. assert (O : (forall rng, c <> Do (SkRandom rng)) -> (forall i j, c <> Do (Sign i j)) -> exists f0, forall fuel, (f0 <= fuel)%nat -> ~ bwaits drbg fuel st c).
  { intros N1 N2. exists 0%nat. intros fuel _ [(rng & -> & _)|(i & j & z & d & -> & _)]; [exact (N1 _ eq_refl) | exact (N2 _ _ eq_refl)]. }
  destruct H as [c ast P A|c st' P S|i d S|i d v S V|i d S|i z v E V|i j r s E E'|i r s E|i x y E|i NU|i c N OR|i N|i j N|i N|i N]; try (apply O; intros; discriminate).
  - destruct (astep_waits D drbg _ c ast SN A) as (f0 & W). exists f0. intros fuel F K. apply (W fuel F). destruct K as [(rng & Q & H)|(i & j & z & d & Q & E1 & E2 & H)]; injection Q as ->; [left; eauto|].
    right. exists i, j, z, d. split; [reflexivity|]. split; [rewrite nth_error_map, E1; reflexivity|]. split; [|exact H]. destruct E2 as [E2|[E2 _]]; [rewrite nth_error_map, E2; reflexivity|].
    destruct (P j Zero (or_intror (or_introl eq_refl)) E2) as (a & Q). discriminate Q.
  - destruct S as [c N| | | | | | | | | | | | | | | | | | | |i j z r s id E Z (l & L & A & _)]; try (apply O; intros; discriminate).
    + exists 0%nat. intros fuel _ [(rng & Q & _)|(i & j & z & d & Q & E1 & E2 & _)]; injection Q as ->; [apply N; exact I|]. apply N. cbn [applies]. split; [eexists; rewrite nth_error_map, E1; split; reflexivity|].
      destruct E2 as [E2|[E2 _]]; eexists; rewrite nth_error_map, E2; split; reflexivity.
    + exists (Datatypes.S l). intros fuel F [(rng & Q & _)|(i' & j' & z' & d' & Q & E1 & E2 & H)]; [discriminate Q|]. injection Q as <- <-. rewrite E in E1. injection E1 as <-. rewrite (secret_zero _ _ _ E2 Z) in H. exact (H l ltac:(lia) A).
  - destruct OR as [-> |[-> | ->]]; apply O; intros; discriminate.
Qed.
Lemma bstep_mixes D drbg st c st' : bstep D drbg st c st' -> ~ mixes st c.
Proof.
  intros H (l & -> & HP & HE & HN). inversion H as [c ast P A|c st2 P S| | | | | | | | |i c N OR| | | |]; subst; [| |destruct OR as [Q|[Q|Q]]; discriminate Q].
  - apply Exists_exists in HE. destruct HE as (i & I & f & E). destruct (P i (Null f) I E) as (a & Q). discriminate Q.
  - inversion S; subst; contradiction.
Qed.
(** a debug build does not go on where a key with coordinates 0 is used *)
Lemma null_panics gctx vctx D drbg fuel st bst c : breps true st bst -> bfaults drbg bst c -> (forall i j, c <> Do (Sign i j)) -> step_call true gctx vctx D drbg fuel st c = Panic.
Proof.
  intros R F NS. pose proof n_pos as NP. pose proof n_lt as NL.
  assert (VN : forall i, null bst i -> exists k, nth_error st i = Some (CPub k) /\ af_inf k = true).
  { intros i (f & E). destruct (bview_pub R i) as [(k & x & y & _ & EB & _)|[(k & g & E' & EB & K & G)|[N _]]]; [congruence | |elim N; eexists; rewrite nth_error_map, E; split; reflexivity]. exists k. split; [exact E'|]. destruct K as (_ & _ & _ & _ & I). rewrite I. exact (G eq_refl). }
  assert (VS : forall i t, secret bst i t -> nth_error st i = Some (CSec (scalar_of t)) /\ 0 <= t < n).
  { intros i t S. destruct (bview_sec R i) as [(d & E & S' & B & _)|[N _]]; [rewrite (secret_one bst i t d (breps_sane _ _ _ R) S S'); auto|]. elim N. destruct S as [S|[S _]]; eexists; rewrite nth_error_map, S; split; reflexivity. }
  destruct c as [c|i|i|i|i|i j|i|i]; try (exact (False_ind _ F)). destruct c as [b|i f|i|i|i|i j|i j|l|i j|i|rng| |i|i j|i j|i|i j|i|i|i|i|i|i|i|i j|i|i|v|v|i|i j|i j l|i j l|i j]; cbn [bfaults step_call step] in *; try (exact (False_ind _ F)).
  - destruct (VN i F) as (k & -> & I). unfold pk_serialize. rewrite I. reflexivity.
  - destruct (VN i F) as (k & -> & I). unfold pk_serialize_compressed. rewrite I. reflexivity.
  - destruct F as [H H0]. destruct (VN i H) as (k & -> & I). destruct H0 as (t & S). destruct (VS j t S) as [-> _]. rewrite (proj1 (tweak_inf_panics vctx k I)). reflexivity.
  - destruct F as [H H0]. destruct (VN i H) as (k & -> & I). destruct H0 as (t & S & NT). destruct (VS j t S) as [-> T]. rewrite (proj2 (tweak_inf_panics vctx k I) t ltac:(lia)). reflexivity.
  - destruct F as [H H0]. assert (PK : exists ks1 k ks2, pubs st l = Some (ks1 ++ k :: ks2) /\ af_inf k = true).
    { assert (VP : forall l, Forall (has (map bare bst) KPub) l -> exists ks, pubs st l = Some ks).
      { clear - R. induction 1 as [|i l H _ (ks & IH)]; [exists []; reflexivity|]. cbn [pubs]. rewrite IH. destruct (bview_pub R i) as [(k & x & y & -> & _)|[(k & f & -> & _)|[N _]]]; [eexists; reflexivity | eexists; reflexivity | elim (N H)]. }
      clear NS. induction H0 as [i l H1|i l H1 IH].
      - inversion H as [|? ? A1 A2]; subst. destruct (VN i H1) as (k & E & I), (VP l A2) as (ks & EK). exists [], k, ks. cbn [pubs app]. rewrite E, EK. auto.
      - inversion H as [|? ? A1 A2]; subst. destruct (IH A2) as (ks1 & k & ks2 & EK & I). destruct (VP [i] (Forall_cons _ A1 (Forall_nil _))) as (ks & EI). cbn [pubs] in *. destruct (nth_error st i) as [[k0| | | | | | | | |]|]; try discriminate EI.
        exists (k0 :: ks1), k, ks2. rewrite EK. auto. }
    destruct PK as (ks1 & k & ks2 & -> & I). unfold pk_combine. rewrite combine_inf_panics by exact I. reflexivity.
  - destruct F as [H H0]. destruct (VN i H) as (k & -> & I). destruct H0 as (t & S & NT). destruct (VS j t S) as [-> T]. rewrite (ecdh_inf_panics D k t I ltac:(lia)). reflexivity.
  - destruct F as [H [(r & s & E & NR & NS') NU]]. destruct (bview_msg R i) as [(z & -> & _ & ZZ)|[N _]]; [|elim (N H)]. destruct (bview_sig R j) as [(r' & s' & -> & E' & RR & SS)|[N _]]; [|elim N; eexists; rewrite nth_error_map, E; split; reflexivity].
    rewrite E in E'. injection E' as <- <-. destruct (VN l NU) as (k & -> & I). rewrite (verify_inf_panics vctx k r s z I ltac:(lia) ltac:(lia) ZZ). reflexivity.
  - elim (NS i j eq_refl).
Qed.
Section Programs.
Variables (gctx : genctx) (vctx : ecctx) (D : list Z -> list Z) (drbg : list Z -> list Z -> nat -> list Z).
Hypothesis GC : gen_ctx gctx.
Hypothesis VC : verify_ctx vctx.
Hypothesis DS : forall b, small (D b).
Hypothesis RS : forall s s', stream (drbg s s').
Lemma brun_one dbg fuel p : forall st bst, breps dbg st bst -> Forall call_ok p -> let o := run_calls dbg gctx vctx D drbg fuel st p in
  (exists st' bst', o = Done st' /\ bruns D drbg bst p bst' /\ breps dbg st' bst') \/
  (o = Running /\ exists p1 c p2 bst', p = p1 ++ c :: p2 /\ bruns D drbg bst p1 bst' /\ bwaits drbg fuel bst' c) \/
  (o = Panic /\ dbg = true /\ exists p1 c p2 bst', p = p1 ++ c :: p2 /\ bruns D drbg bst p1 bst' /\ bfaults drbg bst' c) \/
  (dbg = false /\ exists p1 c p2 bst', p = p1 ++ c :: p2 /\ bruns D drbg bst p1 bst' /\ mixes bst' c).
Proof.
  induction p as [|c p IH]; intros st bst R OK o; subst o; cbn [run_calls].
  - left. exists st, bst. split; [reflexivity|]. split; [constructor | exact R].
  - inversion OK as [|c' p' OC OP]; subst. destruct (call_one dbg gctx vctx D drbg fuel GC VC DS RS st bst c R OC) as [(st1 & bst1 & -> & A1 & R1)|[[-> W]|[(-> & DB & F)|(DB & M)]]].
    + assert (EX : forall F : list bval -> call -> Prop, (exists p1 c2 p2 bst2, p = p1 ++ c2 :: p2 /\ bruns D drbg bst1 p1 bst2 /\ F bst2 c2) -> exists p1 c2 p2 bst2, c :: p = p1 ++ c2 :: p2 /\ bruns D drbg bst p1 bst2 /\ F bst2 c2).
      { intros F (p1 & c2 & p2 & bst2 & -> & H3 & H4). exists (c :: p1), c2, p2, bst2. split; [reflexivity|]. split; [econstructor; eassumption | exact H4]. }
      destruct (IH st1 bst1 R1 OP) as [(st2 & bst2 & H1 & H2 & H3)|[(H1 & H2)|[(H1 & HD & H2)|(HD & H2)]]].
      * left. exists st2, bst2. split; [exact H1|]. split; [econstructor; eassumption | exact H3].
      * right. left. split; [exact H1 | apply EX, H2].
      * right. right. left. split; [exact H1|]. split; [exact HD | apply EX, H2].
      * right. right. right. split; [exact HD | apply EX, H2].
    + right. left. split; [reflexivity|]. exists [], c, p, bst. split; [reflexivity|]. split; [constructor | exact W].
    + right. right. left. split; [reflexivity|]. split; [exact DB|]. exists [], c, p, bst. split; [reflexivity|]. split; [constructor | exact F].
    + right. right. right. split; [exact DB|]. exists [], c, p, bst. split; [reflexivity|]. split; [constructor | exact M].
Qed.
Lemma call_complete bst c bst' : Forall sane (map shadow bst) -> call_ok c -> bstep D drbg bst c bst' ->
  exists f0, forall fuel st, (f0 <= fuel)%nat -> breps false st bst -> exists st', step_call false gctx vctx D drbg fuel st c = Done st' /\ breps false st' bst'.
Proof.
  intros SN OK A. destruct (bstep_waits D drbg bst c bst' SN A) as (f0 & W). exists f0. intros fuel st F R.
  destruct (call_one false gctx vctx D drbg fuel GC VC DS RS st bst c R OK) as [(st1 & bst1 & E & A1 & R1)|[[_ K]|[(_ & K & _)|(_ & K)]]]; [|elim (W fuel F K) | discriminate K | elim (bstep_mixes D drbg _ _ _ A K)].
  exists st1. split; [exact E|]. rewrite (bstep_fun D drbg bst c bst' bst1 SN A A1). exact R1.
Qed.
Lemma brun_complete bst p bst' : bruns D drbg bst p bst' -> Forall call_ok p -> (exists st, breps false st bst) ->
  exists f0, forall fuel st, (f0 <= fuel)%nat -> breps false st bst -> exists st', run_calls false gctx vctx D drbg fuel st p = Done st' /\ breps false st' bst'.
Proof.
  induction 1 as [bst|bst c bst1 p bst2 A1 A2 IH]; intros OK (st0 & R0).
  - exists O. intros fuel st _ R. exists st. auto.
  - inversion OK as [|c' p' OC OP]; subst. destruct (call_complete bst c bst1 (breps_sane _ _ _ R0) OC A1) as (f1 & H1). destruct (H1 f1 st0 (le_n _) R0) as (st1 & _ & R1).
    destruct (IH OP (ex_intro _ st1 R1)) as (f2 & H2). exists (Nat.max f1 f2). intros fuel st F R. destruct (H1 fuel st ltac:(lia) R) as (st2 & E2 & R2). destruct (H2 fuel st2 ltac:(lia) R2) as (st3 & E3 & R3).
    exists st3. cbn [run_calls]. rewrite E2. auto.
Qed.
Lemma bruns_fun bst p a a' : bruns D drbg bst p a -> bruns D drbg bst p a' -> Forall call_ok p -> (exists st, breps false st bst) -> a = a'.
Proof.
  intros H. revert a'. induction H as [bst|bst c bst1 p bst2 A1 A2 IH]; intros a' H' OK (st & R); inversion H' as [|? c' bst1' p' bst2' B1 B2]; subst; [reflexivity|].
  inversion OK as [|c' p' OC OP]; subst. pose proof (breps_sane _ _ _ R) as SN. pose proof (bstep_fun D drbg bst c _ _ SN A1 B1) as <-. apply IH; [exact B2 | exact OP|].
  destruct (call_complete bst c bst1 SN OC A1) as (f1 & H1). destruct (H1 f1 st (le_n _) R) as (st1 & _ & R1). eauto.
Qed.
Lemma brep_seen dbg dbg' v v' b : brep dbg v b -> brep dbg' v' b -> seen v = seen v'.
Proof. intros H H'. destruct H; inversion H'; subst; [eapply rep_seen; eassumption | reflexivity | reflexivity]. Qed.
Lemma breps_seen dbg dbg' st st' bst : breps dbg st bst -> breps dbg' st' bst -> map seen st = map seen st'.
Proof.
  intros H. revert st'. induction H as [|v a st bst V R IH]; intros st' H'; inversion H' as [|v' ? st2 ? V' R']; subst; [reflexivity|]. cbn [map]. rewrite (brep_seen _ _ _ _ _ V V'), (IH _ R'). reflexivity.
Qed.
Lemma runs_app dbg fuel p1 : forall st p2 st', run_calls dbg gctx vctx D drbg fuel st (p1 ++ p2) = Done st' -> exists st1, run_calls dbg gctx vctx D drbg fuel st p1 = Done st1 /\ run_calls dbg gctx vctx D drbg fuel st1 p2 = Done st'.
Proof.
  induction p1 as [|c p1 IH]; intros st p2 st' H; [exists st; auto|]. cbn [app run_calls] in *. destruct (step_call dbg gctx vctx D drbg fuel st c) as [st2| |]; try discriminate H. apply IH, H.
Qed.
(** a machine run that goes on has not met a mixture *)
Lemma bruns_mixes bst p1 c p2 a b : bruns D drbg bst (p1 ++ c :: p2) a -> bruns D drbg bst p1 b -> Forall call_ok p1 -> (exists st, breps false st bst) -> ~ mixes b c.
Proof.
  intros H. revert b. revert bst H. induction p1 as [|c1 p1 IH]; intros bst H b H' OK (st & R) M.
  - inversion H'; subst. cbn [app] in H. inversion H as [|? ? ? ? ? A _]; subst. exact (bstep_mixes _ _ _ _ _ A M).
  - cbn [app] in H. inversion H as [|? ? b1 ? ? A1 A2]; subst. inversion H' as [|? ? b2 ? ? B1 B2]; subst. inversion OK as [|? ? OC OP]; subst. pose proof (breps_sane _ _ _ R) as SN.
    pose proof (bstep_fun D drbg bst c1 _ _ SN A1 B1) as <-. destruct (call_complete bst c1 b1 SN OC A1) as (f1 & H1). destruct (H1 f1 st (le_n _) R) as (st1 & _ & R1). exact (IH b1 A2 b B2 OP (ex_intro _ st1 R1) M).
Qed.
Lemma brun_reps dbg fuel p bst st : run_calls dbg gctx vctx D drbg fuel [] p = Done st -> Forall call_ok p -> bruns D drbg [] p bst -> breps dbg st bst.
Proof.
  intros E OK A. pose proof (ex_intro (fun s => breps false s []) [] (Forall2_nil _)) as R0.
  destruct (brun_one dbg fuel p [] [] (Forall2_nil _) OK) as [(st' & bst' & E' & A' & R)|[(K & _)|[(K & _)|(_ & p1 & c & p2 & b & EP & B & M)]]]; [|congruence|congruence|].
  - rewrite E in E'. injection E' as <-. rewrite (bruns_fun [] p bst bst' A A' OK R0). exact R.
  - subst p. apply Forall_app in OK. elim (bruns_mixes [] p1 c p2 bst b A B (proj1 OK) R0 M).
Qed.
Lemma bdebug_done fuel st bst c st' : breps true st bst -> step_call true gctx vctx D drbg fuel st c = Done st' -> ~ bfaults drbg bst c.
Proof.
  intros R E F. assert (SG : (exists i j, c = Do (Sign i j)) \/ forall i j, c <> Do (Sign i j)).
  { destruct c as [c|i|i|i|i|i j|i|i]; try (right; intros; discriminate). destruct c; try (right; intros; discriminate). left. eauto. }
  destruct SG as [(i & j & ->)|N]; [|rewrite (null_panics gctx vctx D drbg fuel st bst c R F N) in E; discriminate E]. cbn [bfaults step_call step] in *. destruct F as (z & d & l & EZ & ED & H1 & H2).
  destruct (bview_msg R i) as [(z' & E1 & EA & ZZ)|[N NK]]; [|elim N; eexists; rewrite nth_error_map, EZ; split; reflexivity]. rewrite E1 in E. rewrite EZ in EA. injection EA as <-.
  destruct (bview_sec R j) as [(d' & E2 & S & DD & _)|[N NK]]; [|elim N; destruct ED as [ED|[ED _]]; eexists; rewrite nth_error_map, ED; split; reflexivity]. rewrite E2 in E. rewrite (secret_one bst j d d' (breps_sane _ _ _ R) ED S) in *. cbv iota in E.
  destruct (sign true drbg fuel gctx (scalar_of z) (scalar_of d')) as [[g id]| |] eqn:ES; try discriminate E.
  destruct (C29_only_first_usable_pf true drbg fuel gctx d' z g id GC ltac:(lia) ZZ (RS _ _) ES) as (j0 & r & s & _ & _ & U & _ & _ & NW).
  destruct (Nat.le_gt_cases l j0) as [L|L]; [exact (NW eq_refl l L H2) | exact (H1 j0 L U)].
Qed.
End Programs.
(** ** Programs that never clear a key *)
Definition goods : list bval -> Prop := Forall is_good.
Lemma goods_at st i v : goods st -> nth_error st i = Some v -> is_good v.
Proof. intros H E. unfold goods in H. rewrite Forall_forall in H. apply H. exact (nth_error_In _ _ E). Qed.
Lemma goods_plain st c : goods st -> plain st c.
Proof. intros H i v _ E. exact (goods_at st i v H E). Qed.
Lemma goods_app st l : goods st -> goods (st ++ map Good l).
Proof. intros H. apply Forall_app. split; [exact H|]. apply Forall_forall. intros v I. apply in_map_iff in I. destruct I as (a & <- & _). exists a. reflexivity. Qed.
Lemma goods_lift st : goods st -> forall l, goods (lift st l).
Proof. induction 1 as [|v st (a & ->) _ IH]; intros l; [apply (goods_app [] l); constructor|]. destruct l as [|b l]; cbn [lift]; constructor; [exists b; reflexivity | apply IH]. Qed.
Lemma goods_step D drbg st c st' : goods st -> (forall i, c <> SkClear i) -> bstep D drbg st c st' -> goods st'.
Proof.
  intros G NC H. destruct H as [c ast P A|c st' P S|i d S|i d v S V|i d S|i z v E V|i j r s E E'|i r s E|i x y E|i NU|i c N OR|i N|i j N|i N|i N];
    [apply goods_lift, G | elim (P (goods_plain st c G)) | elim (NC i eq_refl) | | | | | | | | exact G..].
  - exact (goods_app st [v] G).
  - exact (goods_app st [AMsg d] G).
  - exact (goods_app st [v] G).
  - exact (goods_app st [ASig r s] G).
  - exact (goods_app st [AMsg r; AMsg s] G).
  - exact (goods_app st [APub x y] G).
  - exact (goods_app st [AErr InvalidAffine] G).
Qed.
Lemma goods_runs D drbg st p st' : bruns D drbg st p st' -> goods st -> (forall i, ~ In (SkClear i) p) -> goods st'.
Proof.
  induction 1 as [st|st c st1 p st2 A _ IH]; intros G NC; [exact G|]. apply IH; [apply (goods_step D drbg st c st1 G); [intros i ->; apply (NC i); left; reflexivity | exact A] | intros i I; apply (NC i); right; exact I].
Qed.

(** * C85 *)
(** Every program with [clear] and the conversions, in every build: it does what the abstract machine does, or it is still in a loop whose blocks were all unusable, or it is a debug build that panics where the machine says, or it is a release build that has combined a key at (0, 0) with a point. *)
Lemma C85_simulation_pf : forall dbg gctx vctx D drbg fuel p, gen_ctx gctx -> verify_ctx vctx -> (forall b, small (D b)) -> (forall s s', stream (drbg s s')) -> Forall call_ok p ->
  let o := run_calls dbg gctx vctx D drbg fuel [] p in
  (exists st bst, o = Done st /\ bruns D drbg [] p bst /\ Forall2 (brep dbg) st bst) \/
  (o = Running /\ exists p1 c p2 bst, p = p1 ++ c :: p2 /\ bruns D drbg [] p1 bst /\ bwaits drbg fuel bst c) \/
  (o = Panic /\ dbg = true /\ exists p1 c p2 bst, p = p1 ++ c :: p2 /\ bruns D drbg [] p1 bst /\ bfaults drbg bst c) \/
  (dbg = false /\ exists p1 c p2 bst, p = p1 ++ c :: p2 /\ bruns D drbg [] p1 bst /\ mixes bst c).
Proof.
  intros dbg gctx vctx D drbg fuel p GC VC DS RS OK. exact (brun_one gctx vctx D drbg GC VC DS RS dbg fuel p [] [] (Forall2_nil _) OK).
Qed.
Lemma C85_determined_pf : forall D drbg p bst bst', (forall b, small (D b)) -> (forall s s', stream (drbg s s')) -> Forall call_ok p -> bruns D drbg [] p bst -> bruns D drbg [] p bst' -> bst = bst'.
Proof.
  intros D drbg p bst bst' DS RS OK A A'. destruct C53_ecmult_gen_example_pf as (gctx & _ & GC). destruct C34_public_tweak_add_example_pf as ((vctx & VC) & _).
  exact (bruns_fun gctx vctx D drbg GC VC DS RS [] p bst bst' A A' OK (ex_intro _ [] (Forall2_nil _))).
Qed.
(** What the abstract machine does a release build does when it waits long enough. *)
Lemma C85_complete_pf : forall gctx vctx D drbg p bst, gen_ctx gctx -> verify_ctx vctx -> (forall b, small (D b)) -> (forall s s', stream (drbg s s')) -> Forall call_ok p -> bruns D drbg [] p bst ->
  exists f0, forall fuel, (f0 <= fuel)%nat -> exists st, run_calls false gctx vctx D drbg fuel [] p = Done st /\ Forall2 (brep false) st bst.
Proof.
  intros gctx vctx D drbg p bst GC VC DS RS OK A. destruct (brun_complete gctx vctx D drbg GC VC DS RS [] p bst A OK (ex_intro _ [] (Forall2_nil _))) as (f0 & H).
  exists f0. intros fuel F. exact (H fuel [] F (Forall2_nil _)).
Qed.
(** A debug build that finishes shows what every release build that finishes shows. *)
Lemma C85_same_observations_pf : forall dbg gctx gctx' vctx vctx' D drbg fuel fuel' p st st', gen_ctx gctx -> gen_ctx gctx' -> verify_ctx vctx -> verify_ctx vctx' -> (forall b, small (D b)) -> (forall s s', stream (drbg s s')) -> Forall call_ok p ->
  run_calls true gctx vctx D drbg fuel [] p = Done st -> run_calls dbg gctx' vctx' D drbg fuel' [] p = Done st' -> map seen st = map seen st'.
Proof.
  intros dbg gctx gctx' vctx vctx' D drbg fuel fuel' p st st' GC GC' VC VC' DS RS OK E E'.
  destruct (C85_simulation_pf true gctx vctx D drbg fuel p GC VC DS RS OK) as [(st1 & bst & E1 & A & R)|[(K & _)|[(K & _)|(K & _)]]]; [|congruence..]. rewrite E in E1. injection E1 as <-.
  exact (breps_seen _ _ _ _ _ R (brun_reps gctx' vctx' D drbg GC' VC' DS RS dbg fuel' p bst st' E' OK A)).
Qed.
(** The debug build panics at every such place. *)
Lemma C85_debug_pf : forall gctx vctx D drbg fuel p st p1 c p2 bst, gen_ctx gctx -> verify_ctx vctx -> (forall b, small (D b)) -> (forall s s', stream (drbg s s')) -> Forall call_ok p ->
  run_calls true gctx vctx D drbg fuel [] p = Done st -> p = p1 ++ c :: p2 -> bruns D drbg [] p1 bst -> ~ bfaults drbg bst c.
Proof.
  intros gctx vctx D drbg fuel p st p1 c p2 bst GC VC DS RS OK E -> A. apply runs_app in E. destruct E as (st1 & E1 & E2). cbn [run_calls] in E2.
  apply Forall_app in OK. destruct OK as [OK1 _]. pose proof (brun_reps gctx vctx D drbg GC VC DS RS true fuel p1 bst st1 E1 OK1 A) as R.
  destruct (step_call true gctx vctx D drbg fuel st1 c) as [st2| |] eqn:ES; try discriminate E2. exact (bdebug_done gctx vctx D drbg GC RS fuel st1 bst c st2 R ES).
Qed.
(** Without [clear], all values stay good: no release build panics, and a debug build panics only in signing. *)
Lemma C85_without_clear_pf : forall dbg gctx vctx D drbg fuel p, gen_ctx gctx -> verify_ctx vctx -> (forall b, small (D b)) -> (forall s s', stream (drbg s s')) -> Forall call_ok p -> (forall i, ~ In (SkClear i) p) ->
  let o := run_calls dbg gctx vctx D drbg fuel [] p in
  (exists st ast, o = Done st /\ bruns D drbg [] p (map Good ast) /\ Forall2 rep st ast) \/
  (o = Running /\ exists p1 c p2 bst, p = p1 ++ c :: p2 /\ bruns D drbg [] p1 bst /\ bwaits drbg fuel bst c) \/
  (o = Panic /\ dbg = true /\ exists p1 i j p2 bst, p = p1 ++ Do (Sign i j) :: p2 /\ bruns D drbg [] p1 bst /\ bfaults drbg bst (Do (Sign i j))).
Proof.
  intros dbg gctx vctx D drbg fuel p GC VC DS RS OK NC o. assert (PRE : forall p1 c p2 bst, p = p1 ++ c :: p2 -> bruns D drbg [] p1 bst -> forall i, ~ null bst i).
  { intros p1 c p2 bst -> A i (f & E). assert (G : goods bst) by (apply (goods_runs D drbg [] p1 bst A); [constructor|]; intros j J; apply (NC j), in_or_app; left; exact J). destruct (goods_at bst i _ G E) as (a & Q). discriminate Q. }
  destruct (C85_simulation_pf dbg gctx vctx D drbg fuel p GC VC DS RS OK) as [(st & bst & E & A & R)|[H|[(E & DB & p1 & c & p2 & bst & EP & A & F)|(_ & p1 & c & p2 & bst & EP & A & (l & _ & _ & NX & _))]]].
  - left. pose proof (goods_runs D drbg [] p bst A (Forall_nil _) NC) as G. assert (EX : exists ast, bst = map Good ast /\ Forall2 rep st ast).
    { clear - R G. induction R as [|v b st bst V _ IH]; [exists []; split; [reflexivity | constructor]|]. inversion G as [|? ? (a & ->) G2]; subst. destruct (IH G2) as (ast & -> & H). exists (a :: ast). split; [reflexivity|]. inversion V; subst. constructor; assumption. }
    destruct EX as (ast & -> & RR). exists st, ast. auto.
  - right. left. exact H.
  - right. right. split; [exact E|]. split; [exact DB|]. pose proof (PRE p1 c p2 bst EP A) as NN. destruct c as [c|i|i|i|i|i j|i|i]; try (exact (False_ind _ F)).
    destruct c; cbn [bfaults] in F; try (exact (False_ind _ F)); try (elim (NN _ F)); try (elim (NN _ (proj1 F))); try (elim (NN _ (proj2 (proj2 F)))).
    + destruct F as [_ F]. apply Exists_exists in F. destruct F as (i & _ & F). elim (NN i F).
    + exists p1, i, j, p2, bst. auto.
  - exfalso. apply Exists_exists in NX. destruct NX as (i & _ & F). exact (PRE p1 c p2 bst EP A i F).
Qed.
(** [clear] forgets the key: what follows is the same whatever the key was. *)
Lemma C85_forgets_pf : forall dbg gctx vctx D drbg fuel p st i k k', nth_error st i = Some (CSec k) ->
  run_calls dbg gctx vctx D drbg fuel st (SkClear i :: p) = run_calls dbg gctx vctx D drbg fuel (upd st i (CSec k')) (SkClear i :: p).
Proof.
  intros dbg gctx vctx D drbg fuel p st i k k' E. cbn [run_calls step_call]. rewrite E.
  assert (E' : nth_error (upd st i (CSec k')) i = Some (CSec k')) by (revert i E; induction st as [|v st IH]; intros [|i] E; cbn [nth_error upd] in *; [discriminate | discriminate | reflexivity | apply IH, E]).
  rewrite E'. assert (U : forall v, upd (upd st i (CSec k')) i v = upd st i v) by (intros v; clear; revert i; induction st as [|w st IH]; intros [|i]; cbn [upd]; [reflexivity | reflexivity | reflexivity | rewrite IH; reflexivity]).
  rewrite U. reflexivity.
Qed.
(** The library as it is shipped. *)
Lemma C85_library_pf : forall dbg fuel p, Forall call_ok p ->
  exists gctx vctx, ecmult_gen_context_new dbg = Some gctx /\ ecmult_context_new dbg = Some vctx /\
    let D := sha256 in let drbg := sign_drbg (hmac sha256) in let o := run_calls dbg gctx vctx D drbg fuel [] p in
    (exists st bst, o = Done st /\ bruns D drbg [] p bst /\ Forall2 (brep dbg) st bst) \/
    (o = Running /\ exists p1 c p2 bst, p = p1 ++ c :: p2 /\ bruns D drbg [] p1 bst /\ bwaits drbg fuel bst c) \/
    (o = Panic /\ dbg = true /\ exists p1 c p2 bst, p = p1 ++ c :: p2 /\ bruns D drbg [] p1 bst /\ bfaults drbg bst c) \/
    (dbg = false /\ exists p1 c p2 bst, p = p1 ++ c :: p2 /\ bruns D drbg [] p1 bst /\ mixes bst c).
Proof.
  intros dbg fuel p OK. destruct (C54_contexts_pf dbg) as [(vctx & EV & VC) (gctx & EG & GC)]. exists gctx, vctx. split; [exact EG|]. split; [exact EV|].
  destruct C69_hmac_sha256_pf as [SH MM]. apply C85_simulation_pf; [exact GC | exact VC | | | exact OK].
  - intros b. destruct (SH b) as [L B]. apply small_be; [exact B | rewrite L; lia].
  - intros s s'. apply drbg_stream, MM.
Qed.
(** A program that clears a key, derives from it, and moves scalars; both builds finish it. *)
Definition clearing : list call := [Do SkDefault; SkClear 0; Do (PkFromSecret 0); Do (PkEqual 1 1); MsgOfSk 0; SkOfMsg 3; SigOfMsgs 3 3; Do (Verify 3 5 1); PkRecheck 1].
Definition clearing_end : list bval := [Zero; Null true; Good (ABool true); Good (AMsg 0); Good (AErr InvalidSecretKey); Good (ASig 0 0); Good (ABool false); Good (AErr InvalidAffine)].
Lemma clearing_runs D drbg : bruns D drbg [] clearing clearing_end.
Proof.
  unfold clearing, clearing_end.
  eapply bruns_cons; [apply b_good with (ast := [ASec 1]); [intros i v [] | apply a_sk_default]|]. cbn [lift map].
  eapply bruns_cons; [apply b_clear with (d := 1); left; reflexivity|]. cbn [upd].
  eapply bruns_cons; [apply b_special; [apply (not_plain _ _ 0%nat Zero); [left; reflexivity | reflexivity | left; reflexivity] | apply s_pk_from; reflexivity]|]. cbn [app].
  eapply bruns_cons; [apply b_special; [apply (not_plain _ _ 1%nat (Null true)); [left; reflexivity | reflexivity | right; exists true; reflexivity]|] |].
  { eapply s_pk_eq with (a := Null true) (b := Null true) (v := ABool true); [split; [reflexivity | right; exists true; reflexivity] | split; [reflexivity | right; exists true; reflexivity] | left; split; reflexivity]. }
  cbn [app]. eapply bruns_cons; [apply b_msg_of with (d := 0); right; split; reflexivity|]. cbn [app].
  eapply bruns_cons; [apply b_sk_of with (z := 0) (v := AErr InvalidSecretKey); [reflexivity | right; split; [intros d [_ H]; apply H; reflexivity | reflexivity]]|]. cbn [app].
  eapply bruns_cons; [apply b_sig_of with (r := 0) (s := 0); reflexivity|]. cbn [app].
  eapply bruns_cons; [apply b_special; [apply (not_plain _ _ 1%nat (Null true)); [right; right; left; reflexivity | reflexivity | right; exists true; reflexivity]|] |].
  { eapply s_verify with (z := 0) (r := 0) (s := 0) (v := ABool false); [reflexivity | reflexivity | exists true; reflexivity | right; split; [intros [H _]; apply H; reflexivity | reflexivity]]. }
  cbn [app]. eapply bruns_cons; [apply b_recheck_null; exists true; reflexivity|]. cbn [app]. apply bruns_nil.
Qed.
Lemma clearing_ok : Forall call_ok clearing. Proof. repeat constructor. Qed.
Lemma C85_simulation_example_pf : (exists gctx, gen_ctx gctx) /\ (exists vctx, verify_ctx vctx) /\ (forall b : list Z, small ((fun _ => repeat 7 32) b)) /\ (forall s s' : list Z, stream ((fun _ _ _ => repeat 7 32) s s')) /\ Forall call_ok clearing /\
  forall D drbg, bruns D drbg [] clearing clearing_end.
Proof.
  destruct C78_simulation_example_pf as (GC & VC & DS & RS & _). split; [exact GC|]. split; [exact VC|]. split; [exact DS|]. split; [exact RS|]. split; [exact clearing_ok | exact clearing_runs].
Qed.
Lemma C85_same_observations_example_pf : forall dbg gctx vctx, gen_ctx gctx -> verify_ctx vctx -> exists st, run_calls dbg gctx vctx (fun _ => repeat 7 32) (fun _ _ _ => repeat 7 32) 0 [] clearing = Done st /\ Forall2 (brep dbg) st clearing_end.
Proof.
  intros dbg gctx vctx GC VC. destruct (C84_public_pf dbg gctx s_default GC) as (k & EK & K). change (sk_clear s_default) with s_default in EK.
  pose proof (eq_null dbg true k true k K K) as EQ. pose proof n_pos as NP. pose proof (verify_zero_sig dbg vctx 0 0 0 k ltac:(lia) ltac:(lia) (or_introl eq_refl)) as EV. change (scalar_of 0) with s_default in EV.
  assert (ER : pk_try_from dbg k = Some (Err InvalidAffine)) by (destruct K as (_ & _ & _ & _ & I); unfold pk_try_from; rewrite I; reflexivity).
  assert (EO : sk_try_from s_default = Err InvalidSecretKey) by (apply (C41_try_from_canonical_pf 0); lia).
  exists [CSec s_default; CPub k; CBool true; CMsg s_default; CErr InvalidSecretKey; CSig (Sig s_default s_default); CBool false; CErr InvalidAffine]. split.
  - unfold clearing. cbn [run_calls step_call step]. rewrite C39_default_pf. cbn [push of_opt bind app nth_error run_calls step_call step upd]. unfold sk_clear. rewrite EK. cbn [push of_opt bind app nth_error run_calls step_call step upd].
    rewrite EQ. cbn [push of_opt of_res bind app nth_error run_calls step_call step Bool.eqb]. rewrite EO. cbn [push of_opt of_res bind app nth_error run_calls step_call step]. rewrite EV. cbn [push of_opt of_res bind app nth_error run_calls step_call step]. rewrite ER. reflexivity.
  - unfold clearing_end. change s_default with (scalar_of 0). assert (Z0 : 0 <= 0 < n) by lia.
    apply Forall2_cons; [apply br_zero|]. apply Forall2_cons; [apply br_null; [exact K | reflexivity]|].
    apply Forall2_cons; [apply br_good, rep_bool|]. apply Forall2_cons; [apply br_good, rep_msg, Z0|]. apply Forall2_cons; [apply br_good, rep_err|].
    apply Forall2_cons; [apply br_good, rep_sig; exact Z0|]. apply Forall2_cons; [apply br_good, rep_bool|]. apply Forall2_cons; [apply br_good, rep_err|]. apply Forall2_nil.
Qed.
(** Using the derived key is such a place, and combining it with the generator is the mixture. *)
Lemma C85_debug_example_pf : forall drbg, bfaults drbg [Zero; Null true] (Do (PkSerialize 1)) /\ mixes [Good (APub gx gy); Null true] (Do (PkCombine [0%nat; 1%nat])).
Proof.
  intros drbg. split; [exists true; reflexivity|]. exists [0%nat; 1%nat]. split; [reflexivity|]. split; [repeat constructor; eexists; split; reflexivity|]. split; [right; left; exists true; reflexivity|].
  intros H. inversion H as [|? ? (f & E) _]. discriminate E.
Qed.
Definition moving : list call := [Do SkDefault; MsgOfSk 0; SkOfMsg 1; SigOfMsgs 1 1; MsgsOfSig 3; SkIsZero 2].
Lemma C85_without_clear_example_pf : Forall call_ok moving /\ (forall i, ~ In (SkClear i) moving) /\ forall D drbg, bruns D drbg [] moving (map Good [ASec 1; AMsg 1; ASec 1; ASig 1 1; AMsg 1; AMsg 1; ABool false]).
Proof.
  split; [repeat constructor|]. split; [intros i H; unfold moving in H; cbn [In] in H; repeat destruct H as [H|H]; try discriminate H; exact H|]. intros D drbg. unfold moving.
  eapply bruns_cons; [apply b_good with (ast := [ASec 1]); [intros i v [] | apply a_sk_default]|]. cbn [lift map].
  eapply bruns_cons; [apply b_msg_of with (d := 1); left; reflexivity|]. cbn [app].
  eapply bruns_cons; [apply b_sk_of with (z := 1) (v := ASec 1); [reflexivity | left; exists 1; split; [split; [reflexivity | discriminate] | reflexivity]]|]. cbn [app].
  eapply bruns_cons; [apply b_sig_of with (r := 1) (s := 1); reflexivity|]. cbn [app].
  eapply bruns_cons; [apply b_msgs_of with (r := 1) (s := 1); reflexivity|]. cbn [app].
  eapply bruns_cons; [apply b_is_zero with (d := 1) (v := ABool false); [left; reflexivity | right; split; [discriminate | reflexivity]]|]. cbn [app]. apply bruns_nil.
Qed.
Lemma C85_forgets_example_pf : nth_error [CSec (scalar_of 5)] 0 = Some (CSec (scalar_of 5)) /\ scalar_of 5 <> scalar_of 7.
Proof. split; [reflexivity | vm_compute; discriminate]. Qed.
Lemma C85_library_example_pf : Forall call_ok clearing /\ bruns sha256 (sign_drbg (hmac sha256)) [] clearing clearing_end.
Proof. split; [exact clearing_ok | apply clearing_runs]. Qed.
