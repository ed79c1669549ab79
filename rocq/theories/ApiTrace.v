(** What control flow and memory addresses reveal of secret scalars. *)
From Coq Require Import Znumtheory Field.
From Verif Require Import Word MField MScalar MGroup MEcmult MEcdsa MApi MTrace WP Spec Fp Denote ScalarMul ScalarOps ScalarMore Curve Group Order Jac JacOps Key Ctx Gen Endo Trace TraceEc TraceGen ApiEcdsa ApiGroup ApiKeys.

(** ** C59 *)
(** The traced functions compute what the model of the code computes. *)
Lemma C59_erasure_pf : forall dbg,
  (forall D point s, snd (t_ecdh_raw dbg D point s) = ecdh_raw dbg D point s) /\
  (forall ctx sk, snd (t_pk_from_secret_key dbg ctx sk) = pk_from_secret_key dbg ctx sk) /\
  (forall ctx sk m k, snd (t_sign_raw dbg ctx sk m k) = sign_raw dbg ctx sk m k).
Proof.
  intros dbg. split; [exact (t_ecdh_raw_erase dbg)|]. split; [exact (t_pk_from_secret_key_erase dbg) | exact (t_sign_raw_erase dbg)].
Qed.
Lemma C59_erasure_example_pf : fst (t_ecdh_raw true (fun l => l) AFFINE_G (scalar_of 0)) = [EBranch true] /\ snd (t_ecdh_raw true (fun l => l) AFFINE_G (scalar_of 0)) = Some None.
Proof. split; reflexivity. Qed.

(** Three secret scalars, 2*L-2, L^2-1 and 2*L^2-2 for a cube root of unity L modulo n. *)
Definition odd_ones_out : list Z :=
  [75436160726311993805852442966950040901855315110965173977233241085775995960034;
   78074008874160198520644763525212887401909906723592317393988542598630163514317;
   40355928511004201617718542041737866950982249168109730405371922055742165534297].
Lemma leaky_in d : leaky d = true <-> In d odd_ones_out.
Proof.
  assert (E1 : 2 * lambda - 2 = 75436160726311993805852442966950040901855315110965173977233241085775995960034) by (vm_compute; reflexivity).
  assert (E2 : n - 2 - lambda = 78074008874160198520644763525212887401909906723592317393988542598630163514317) by (vm_compute; reflexivity).
  assert (E3 : n - 4 - 2 * lambda = 40355928511004201617718542041737866950982249168109730405371922055742165534297) by (vm_compute; reflexivity).
  unfold leaky, odd_ones_out. rewrite !Bool.orb_true_iff, !Z.eqb_eq, E1, E2, E3. cbn [In]. intuition.
Qed.
Lemma const_events_inj a c c' : const_events a c = const_events a c' -> c = c'.
Proof.
  unfold const_events. intros H. apply app_inv_head in H. injection H as H. exact H.
Qed.
Lemma key_point k P : key_at k P -> P <> Inf -> exists A, aok 6 f1 k A /\ A <> e0.
Proof.
  intros HK N. destruct (key_exists _ _ HK) as (A & -> & HA). exists A. split; [exact HA|]. intros ->. apply N. reflexivity.
Qed.
(** Diffie-Hellman: the branches taken and the array elements touched are the same for every two secrets that are
    both among the three or both not among them, and differ otherwise; whatever the public point. *)
Lemma C59_ecdh_pf : forall dbg D k P d e, key_at k P -> P <> Inf -> 1 <= d < n -> 1 <= e < n ->
  (fst (t_ecdh_raw dbg D k (scalar_of d)) = fst (t_ecdh_raw dbg D k (scalar_of e)) <-> (In d odd_ones_out <-> In e odd_ones_out)).
Proof.
  intros dbg D k P d e HK N HD HE. destruct (key_point k P HK N) as (A & HA & NA).
  rewrite (t_ecdh_raw_fst dbg D k A d HA NA HD), (t_ecdh_raw_fst dbg D k A e HA NA HE), <- !leaky_in. split.
  - intros H. apply (f_equal (@tl event)) in H. cbn [tl] in H. apply const_events_inj in H. rewrite H. reflexivity.
  - intros H. assert (leaky d = leaky e) as -> by (apply Bool.eq_iff_eq_true; exact H). reflexivity.
Qed.
Lemma C59_ecdh_example_pf : key_at AFFINE_G G /\ G <> Inf /\ 1 <= 1 < n /\ ~ In 1 odd_ones_out /\ ~ In (n - 1) odd_ones_out /\ Forall (fun d => 1 <= d < n) odd_ones_out.
Proof.
  split; [exact G_key|]. split; [discriminate|]. split; [vm_compute; split; discriminate || reflexivity|].
  split; [intros [H|[H|[H|[]]]]; discriminate H|]. split; [intros [H|[H|[H|[]]]]; vm_compute in H; discriminate H|].
  apply Forall_forall. intros d [<-|[<-|[<-|[]]]]; vm_compute; split; discriminate || reflexivity.
Qed.
(** Hence it is not so that the trace never depends on the secret. *)
Lemma C59_ecdh_refuted_pf : forall dbg D k P, key_at k P -> P <> Inf -> exists d e, 1 <= d < n /\ 1 <= e < n /\
  fst (t_ecdh_raw dbg D k (scalar_of d)) <> fst (t_ecdh_raw dbg D k (scalar_of e)).
Proof.
  intros dbg D k P HK N. exists (hd 0 odd_ones_out), 1. destruct C59_ecdh_example_pf as (_ & _ & R1 & N1 & _ & F). inversion F as [|x l R2 _ EX]. subst x l.
  split; [exact R2|]. split; [exact R1|]. intros H. apply (C59_ecdh_pf dbg D k P _ _ HK N R2 R1) in H. apply N1, H. left. reflexivity.
Qed.
Lemma C59_ecdh_refuted_example_pf : key_at AFFINE_G G /\ G <> Inf.
Proof. split; [exact G_key | discriminate]. Qed.

(** The trace of a multiplication of the generator, and of what the crate does with it: for every context there is a blinding
    scalar and, for each of the 64 windows, a list of at most 48 values of the digits up to that window, such that all the
    scalars that avoid these values have one and the same trace; some scalar avoids them. *)
Lemma C59_generator_pf : forall dbg prec blind ini, gen_ctx (GCtx prec blind ini) -> j_inf ini = false ->
  exists b avoid trace, blind = scalar_of b /\ 0 <= b < n /\ length avoid = 64%nat /\ Forall (fun l => (length l <= 48)%nat) avoid /\
    let clear k := forall j l, nth_error avoid j = Some l -> ~ In (((k + b) mod n) mod 16 ^ (Z.of_nat j + 1)) l in
    (exists k, 0 <= k < n /\ clear k) /\
    (forall k, 0 <= k < n -> clear k -> fst (t_ecmult_gen dbg (GCtx prec blind ini) (scalar_of k)) = trace) /\
    (forall d, 0 <= d < n -> clear d -> fst (t_pk_from_secret_key dbg (GCtx prec blind ini) (scalar_of d)) = trace) /\
    (forall d m k res, 0 <= k < n -> clear k -> sign_raw dbg (GCtx prec blind ini) d m (scalar_of k) = Some res ->
      match res with
      | Err _ => fst (t_sign_raw dbg (GCtx prec blind ini) d m (scalar_of k)) = trace ++ [EBranch true]
      | Ok _ => exists h, fst (t_sign_raw dbg (GCtx prec blind ini) d m (scalar_of k)) = trace ++ [EBranch false; EBranch h]
      end).
Proof.
  intros dbg prec blind ini HC NI. apply gen_ctx_ok in HC. destruct (t_ecmult_gen_fst dbg prec blind ini HC NI) as (b & Ls & HB & RB & LL & L48 & EX & TR).
  exists b, Ls, (gen_events 64 0). split; [exact HB|]. split; [exact RB|]. split; [exact LL|]. split; [exact L48|]. cbv zeta.
  split; [exact EX|]. split; [exact TR|]. split.
  - intros d HD CL. unfold t_pk_from_secret_key. rewrite bindT_quiet; [apply TR; assumption | intros; reflexivity].
  - intros d m k res HK CL HS. rewrite <- t_sign_raw_erase in HS. pose proof (t_sign_raw_fst dbg _ d m _ _ (TR k HK CL) res HS) as H.
    destruct res as [[[r s] rec]|e]; exact H.
Qed.
Definition wpl {A} (o : option A) (Q : A -> Prop) : Prop := forall a, o = Some a -> Q a.
Lemma wpl_bind {A B} (o : option A) (f : A -> option B) Q : (forall a, wpl (f a) Q) -> wpl (bind o f) Q.
Proof. intros H b E0. destruct o as [a|]; [exact (H a b E0) | discriminate E0]. Qed.
Lemma wpl_some {A} (a : A) (Q : A -> Prop) : Q a -> wpl (Some a) Q.
Proof. intros H b E0. injection E0 as <-. exact H. Qed.
Lemma new_initial dbg : wpl (ecmult_gen_context_new dbg) (fun c => match c with GCtx _ _ ini => j_inf ini = false end).
Proof.
  unfold ecmult_gen_context_new. repeat (apply wpl_bind; intros ?; try match goal with q : (_ * bool)%type |- _ => destruct q end). apply wpl_some. reflexivity.
Qed.
Lemma C59_generator_example_pf : exists prec blind ini, ecmult_gen_context_new true = Some (GCtx prec blind ini) /\ gen_ctx (GCtx prec blind ini) /\ j_inf ini = false.
Proof.
  destruct (wp_inv _ _ (ecmult_gen_context_new_ok true)) as ([prec blind ini] & HE0 & HC). exists prec, blind, ini. split; [exact HE0|]. split; [apply gen_ctx_ok, HC|].
  exact (new_initial true _ HE0).
Qed.

(** ** Signing as a whole *)
(** What became of one draw of the generator. *)
Inductive attempt := TooBig | IsZero | NoSignature | Signed (negated : bool).
(** What is seen of it, if [tr] is seen of the multiplication. *)
Definition seen (tr : list event) (a : attempt) : list event :=
  match a with
  | TooBig => [EBranch false]
  | IsZero => [EBranch true; EBranch false]
  | NoSignature => [EBranch true; EBranch true] ++ tr ++ [EBranch true; EBranch false]
  | Signed h => [EBranch true; EBranch true] ++ tr ++ [EBranch false; EBranch h; EBranch true]
  end.
Definition attempt_of (k : Z) : attempt := if n <=? k then TooBig else if k =? 0 then IsZero else NoSignature.

Lemma t_sign_loop_erase dbg f gen : forall i ctx sk m, snd (t_sign_loop dbg f gen i ctx sk m) = sign_loop dbg f gen i ctx sk m.
Proof.
  induction f as [|f IH]; intros i ctx sk m; [reflexivity|]. cbn [t_sign_loop sign_loop].
  destruct (s_set_b32 dbg (gen i)) as [[nonce over]|]; [|reflexivity]. pose proof (IH (S i) ctx sk m) as H.
  destruct (t_sign_loop dbg f gen (S i) ctx sk m) as [e' o']. cbn [snd] in H. subst o'.
  destruct over; cbn [negb andb]; [reflexivity|]. destruct (s_is_zero nonce); cbn [negb]; [reflexivity|].
  pose proof (t_sign_raw_erase dbg ctx sk m nonce) as E0. destruct (t_sign_raw dbg ctx sk m nonce) as [e o]. cbn [snd] in E0. rewrite <- E0.
  destruct o as [[[[r s] rid]|er]|]; reflexivity.
Qed.
Lemma t_sign_loop_fst dbg gen ctx sk m (tr : list event) (ok : Z -> Prop) : stream gen ->
  (forall k, 1 <= k < n -> ok k -> fst (t_ecmult_gen dbg ctx (scalar_of k)) = tr) ->
  forall f i r, sign_loop dbg f gen i ctx sk m = Done r ->
  exists j, (j < f)%nat /\ ((forall l, (i <= l <= i + j)%nat -> 1 <= nonce gen l < n -> ok (nonce gen l)) ->
    exists h, fst (t_sign_loop dbg f gen i ctx sk m) = flat_map (seen tr) (map (fun l => attempt_of (nonce gen l)) (seq i j) ++ [Signed h])).
Proof.
  intros HS TR. pose proof n_pos as NP. pose proof n_lt as NL. induction f as [|f IH]; intros i r HD; [discriminate HD|].
  destruct (HS i) as [L B]. pose proof (nonce_range gen i HS) as NR. cbn [t_sign_loop sign_loop] in *. rewrite s_set_b32_eq in HD |- * by assumption. fold (nonce gen i) in HD |- *.
  set (v := nonce gen i) in *. pose proof (Z.mod_pos_bound v n ltac:(lia)) as MR. rewrite s_is_zero_eq in HD |- * by lia.
  assert (NEXT : forall e, sign_loop dbg f gen (S i) ctx sk m = Done r -> (1 <= v < n -> ok v -> e = seen tr (attempt_of v)) -> (~ 1 <= v < n -> e = seen tr (attempt_of v)) ->
    exists j, (j < S f)%nat /\ ((forall l, (i <= l <= i + j)%nat -> 1 <= nonce gen l < n -> ok (nonce gen l)) ->
      exists h, fst (let '(e', o) := t_sign_loop dbg f gen (S i) ctx sk m in (e ++ e', o)) = flat_map (seen tr) (map (fun l => attempt_of (nonce gen l)) (seq i j) ++ [Signed h]))).
  { intros e K E1 E2. destruct (IH (S i) r K) as (j & J & H). exists (S j). split; [lia|]. intros CL.
    assert (E0 : e = seen tr (attempt_of v)).
    { assert (D : 1 <= v < n \/ ~ 1 <= v < n) by lia. destruct D as [D|D]; [apply E1; [exact D | apply (CL i); [lia | exact D]] | apply E2, D]. }
    destruct H as (h & H); [intros l Hl; apply CL; lia|]. exists h.
    destruct (t_sign_loop dbg f gen (S i) ctx sk m) as [e' o]. cbn [fst] in H |- *. rewrite H.
    cbn [seq map app flat_map]. fold v. rewrite E0. reflexivity. }
  destruct (Z.leb_spec n v) as [GE|LT]; cbn [negb andb] in HD |- *.
  { apply NEXT; [exact HD | lia |]. intros _. unfold attempt_of. rewrite (proj2 (Z.leb_le _ _)) by lia. reflexivity. }
  rewrite Z.mod_small in HD |- * by lia. destruct (Z.eqb_spec v 0) as [E0|NZ]; cbn [negb] in HD |- *.
  { apply NEXT; [exact HD | lia |]. intros _. unfold attempt_of. rewrite (proj2 (Z.leb_gt _ _)) by lia. rewrite (proj2 (Z.eqb_eq _ _) E0). reflexivity. }
  rewrite <- t_sign_raw_erase in HD.
  pose proof (fun H : ok v => t_sign_raw_fst dbg ctx sk m _ _ (TR v ltac:(lia) H)) as F.
  destruct (t_sign_raw dbg ctx sk m (scalar_of v)) as [e o]. cbn [fst snd] in *. destruct o as [[[[r0 s0] rid]|er]|]; [| |discriminate HD].
  - exists 0%nat. split; [lia|]. intros CL. destruct (F (CL i ltac:(lia) ltac:(fold v; lia)) _ eq_refl) as (h & E0). exists h. cbn [fst seq map app flat_map seen].
    rewrite E0, app_nil_r, <- !app_assoc. reflexivity.
  - apply NEXT; [exact HD | | lia]. intros _ OK. rewrite (F OK _ eq_refl). unfold attempt_of. rewrite (proj2 (Z.leb_gt _ _)), (proj2 (Z.eqb_neq _ _)) by lia.
    cbn [seen]. rewrite <- !app_assoc. reflexivity.
Qed.

(** The trace of a whole signing: it is determined by the classes of the draws (too big, zero, no signature), of which all but
    the last fail, and by whether s was negated; provided the draws avoid the values of [C59_generator]. *)
Lemma C59_sign_pf : forall dbg prec blind ini, gen_ctx (GCtx prec blind ini) -> j_inf ini = false ->
  exists b avoid trace, blind = scalar_of b /\ 0 <= b < n /\ length avoid = 64%nat /\ Forall (fun l => (length l <= 48)%nat) avoid /\
    let clear k := forall j l, nth_error avoid j = Some l -> ~ In (((k + b) mod n) mod 16 ^ (Z.of_nat j + 1)) l in
    (exists k, 0 <= k < n /\ clear k) /\
    forall drbg fuel sk m r, let gen := drbg (s_b32 sk) (s_b32 m) in stream gen ->
      snd (t_sign dbg drbg fuel (GCtx prec blind ini) m sk) = sign dbg drbg fuel (GCtx prec blind ini) m sk /\
      (sign dbg drbg fuel (GCtx prec blind ini) m sk = Done r ->
       exists j, (j < fuel)%nat /\ ((forall l, (l <= j)%nat -> 1 <= nonce gen l < n -> clear (nonce gen l)) ->
         exists h, fst (t_sign dbg drbg fuel (GCtx prec blind ini) m sk) = flat_map (seen trace) (map (fun l => attempt_of (nonce gen l)) (seq 0 j) ++ [Signed h]))).
Proof.
  intros dbg prec blind ini HC NI. destruct (C59_generator_pf dbg prec blind ini HC NI) as (b & avoid & trace & HB & RB & LL & L48 & EX & TR & _).
  exists b, avoid, trace. split; [exact HB|]. split; [exact RB|]. split; [exact LL|]. split; [exact L48|]. cbv zeta. split; [exact EX|].
  intros drbg fuel sk m r HS. split; [apply t_sign_loop_erase|]. intros HD.
  destruct (t_sign_loop_fst dbg _ (GCtx prec blind ini) sk m trace _ HS (fun k K => TR k ltac:(lia)) fuel 0 r HD) as (j & J & H).
  exists j. split; [exact J|]. intros CL. apply H. intros l Hl. apply CL. lia.
Qed.
Lemma C59_sign_example_pf : exists prec blind ini drbg g id, gen_ctx (GCtx prec blind ini) /\ j_inf ini = false /\
  stream (drbg (s_b32 (scalar_of 1)) (s_b32 (scalar_of 1))) /\ sign true drbg 2 (GCtx prec blind ini) (scalar_of 1) (scalar_of 1) = Done (g, id).
Proof.
  destruct C59_generator_example_pf as (prec & blind & ini & _ & HC & NI). destruct C29_only_first_usable_example_pf as (drbg & ctx & g & id & HC' & HS & H).
  assert (B : s_b32 (scalar_of 1) = be_bytes 32 1) by (vm_compute; reflexivity).
  exists prec, blind, ini, drbg, g, id. split; [exact HC|]. split; [exact NI|]. rewrite B. split; [exact HS|]. rewrite <- H.
  apply (C29_deterministic_pf true drbg drbg 2 _ ctx 1 1 HC HC' ltac:(split; [lia | vm_compute; reflexivity]) ltac:(split; [lia | vm_compute; reflexivity]) HS). intros i. reflexivity.
Qed.
