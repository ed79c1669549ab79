(** Laws between different operations on keys. *)
From Coq Require Import Znumtheory Zdiv Permutation.
From Verif Require Import Word MField MScalar MGroup MEcmult MEcdsa MApi WP FieldMul FieldNorm Spec Fp Bits FieldOps FieldCodec Denote Curve Group Chain Order Jac JacOps Table Ecmult Lift Gen Key Ctx ApiScalar ApiPub ApiGroup Ecdsa ApiEcdsa ApiKeys.

Lemma key_log_G k P : key_at k P -> P <> Inf -> exists e, 1 <= e < n /\ P = smul e G.
Proof. intros K N. destruct (key_log k P K N) as (e & E0 & -> & _). exists e. split; [exact E0 | symmetry; apply smulG; lia]. Qed.
Lemma smulG_0 a : 0 <= a -> (smul a G = Inf <-> a mod n = 0).
Proof.
  intros A. pose proof n_pos as NP. rewrite <- smulG_mod by exact A. pose proof (Z.mod_pos_bound a n ltac:(lia)). split; [|intros ->; reflexivity].
  intros H0. destruct (Z.eq_dec (a mod n) 0) as [E0|NE]; [exact E0|]. elim (smulG_nz (a mod n)); [lia | exact H0].
Qed.
Lemma smulG_same a b : 0 <= a -> 0 <= b -> a mod n = b mod n -> smul a G = smul b G.
Proof. intros A B H. rewrite <- (smulG_mod a A), <- (smulG_mod b B), H. reflexivity. Qed.
Lemma psum_G ds : Forall (fun d => 1 <= d < n) ds -> 0 <= fold_right Z.add 0 ds /\ psum (map (fun d => smul d G) ds) = smul (fold_right Z.add 0 ds) G.
Proof.
  induction 1 as [|d ds D _ [IH0 IH]]; [split; [cbn; lia | reflexivity]|]. cbv beta in D. cbn [map psum fold_right]. fold (psum (map (fun d => smul d G) ds)). split; [lia|]. rewrite IH. apply smulG_add; lia.
Qed.

(** * C80 *)
(** Combining the public keys of several secret keys gives the public key of the sum of the secrets modulo n, and is refused iff that sum is 0. *)
Lemma C80_combine_secrets_pf : forall dbg dbg' ctx ds ks, gen_ctx ctx -> Forall (fun d => 1 <= d < n) ds -> Forall2 (fun d k => pk_from_secret_key dbg' ctx (scalar_of d) = Some k) ds ks ->
  let t := fold_right Z.add 0 ds mod n in
  (t = 0 -> pk_combine dbg ks = Some (Err InvalidPublicKey)) /\
  (t <> 0 -> exists k k', pk_combine dbg ks = Some (Ok k) /\ pk_from_secret_key dbg' ctx (scalar_of t) = Some k' /\ pk_eq dbg k k' = Some true).
Proof.
  intros dbg dbg' ctx ds ks HC D KS t. assert (KA : Forall2 key_at ks (map (fun d => smul d G) ds)).
  { induction KS as [|d k ds ks K KS IH]; [constructor|]. apply Forall_cons_iff in D. destruct D as [D DS]. cbn [map]. constructor; [|exact (IH DS)].
    destruct (C21_from_secret_key_pf dbg' ctx d HC D) as (k' & H & _ & HK & _). rewrite K in H. apply some_inv in H. subst k'. exact HK. }
  assert (FI : Forall fin (map (fun d => smul d G) ds)) by (apply Forall_forall; intros x Hx; apply in_map_iff in Hx; destruct Hx as (d & <- & Hd); rewrite Forall_forall in D; apply smulG_nz, D, Hd).
  destruct (psum_G ds D) as [S0 PS]. destruct (C36_combine_pf dbg ks _ KA FI) as [C1 C2]. rewrite PS in C1, C2. pose proof (smulG_0 _ S0) as Z0. fold t in Z0. split.
  - intros T. apply C1, Z0, T.
  - intros T. pose proof n_pos as NP. assert (TR : 1 <= t < n) by (pose proof (Z.mod_pos_bound (fold_right Z.add 0 ds) n ltac:(lia)); unfold t in *; lia).
    destruct C2 as (k & H & HK); [intros E0; apply T, Z0, E0|]. destruct (C21_from_secret_key_pf dbg' ctx t HC TR) as (k' & H' & _ & HK' & N'). exists k, k'. split; [exact H|]. split; [exact H'|].
    unfold t in HK', N'. rewrite smulG_mod in HK', N' by exact S0. exact (key_same _ _ _ dbg (key_mono _ _ HK) HK' N').
Qed.
Lemma C80_combine_secrets_example_pf : exists ctx k1 k2 k3, gen_ctx ctx /\ Forall (fun d => 1 <= d < n) [1; n - 1; 1] /\ Forall2 (fun d k => pk_from_secret_key true ctx (scalar_of d) = Some k) [1; n - 1; 1] [k1; k2; k3] /\
  fold_right Z.add 0 [1; n - 1; 1] mod n = 1 /\ fold_right Z.add 0 [1; n - 1] mod n = 0.
Proof.
  destruct C53_ecmult_gen_example_pf as (c & _ & HC). assert (A1 : 1 <= 1 < n) by vmr. assert (A2 : 1 <= n - 1 < n) by vmr.
  destruct (C21_from_secret_key_pf true c 1 HC A1) as (k1 & H1 & _). destruct (C21_from_secret_key_pf true c (n - 1) HC A2) as (k2 & H2 & _). exists c, k1, k2, k1. split; [exact HC|].
  split; [auto|]. split; [auto|]. split; vmr.
Qed.

(** Adding a tweak to a public key and combining it with the tweak's own public key agree; the two refusals also coincide. *)
Lemma C80_tweak_combine_pf : forall dbg dbg' vctx gctx k P t kt, verify_ctx vctx -> gen_ctx gctx -> key_at k P -> P <> Inf -> 1 <= t < n -> pk_from_secret_key dbg' gctx (scalar_of t) = Some kt ->
  (pk_tweak_add_assign dbg vctx k (scalar_of t) = Some (k, Err TweakOutOfRange) /\ pk_combine dbg [k; kt] = Some (Err InvalidPublicKey)) \/
  exists k1 k2, pk_tweak_add_assign dbg vctx k (scalar_of t) = Some (k1, Ok tt) /\ pk_combine dbg [k; kt] = Some (Ok k2) /\ pk_eq dbg k1 k2 = Some true.
Proof.
  intros dbg dbg' vctx gctx k P t kt HV HG K N T HT. destruct (C21_from_secret_key_pf dbg' gctx t HG T) as (k' & H & _ & KT & NT). rewrite HT in H. apply some_inv in H. subst k'.
  destruct (C34_public_tweak_add_pf dbg vctx k P t HV K N ltac:(lia)) as [T1 T2]. destruct (C36_combine_pf dbg [k; kt] [P; smul t G]) as [C1 C2]; [auto | constructor; [exact N | constructor; [exact NT | constructor]]|].
  cbn [psum fold_right] in C1, C2. rewrite padd_inf_r in C1, C2. destruct (pt_dec (padd P (smul t G))) as [I0|N0].
  - left. auto.
  - right. destruct (T2 N0) as (k1 & H1 & K1), (C2 N0) as (k2 & H2 & K2). exists k1, k2. split; [exact H1|]. split; [exact H2|]. exact (key_same _ _ _ dbg (key_mono _ _ K1) (key_mono _ _ K2) N0).
Qed.
Lemma C80_tweak_combine_example_pf : exists vctx gctx kt, verify_ctx vctx /\ gen_ctx gctx /\ key_at AFFINE_G G /\ pk_from_secret_key true gctx (scalar_of (n - 1)) = Some kt /\
  padd G (smul (n - 1) G) = Inf /\ padd G (smul 1 G) <> Inf.
Proof.
  destruct C34_public_tweak_add_example_pf as ((v & HV) & K & _ & I0 & N0). destruct C53_ecmult_gen_example_pf as (c & _ & HC). assert (A2 : 1 <= n - 1 < n) by vmr.
  destruct (C21_from_secret_key_pf true c (n - 1) HC A2) as (k2 & H2 & _). exists v, c, k2. auto 8.
Qed.

Lemma psum_repeat e m : 1 <= e < n -> psum (repeat (smul e G) m) = smul (Z.of_nat m * e) G.
Proof.
  intros E0. induction m as [|m IH]; [reflexivity|]. cbn [repeat psum fold_right]. fold (psum (repeat (smul e G) m)). rewrite IH, smulG_add by nia. f_equal. lia.
Qed.
(** Combining m copies of a key is multiplying it by m. *)
Lemma C80_combine_copies_pf : forall dbg vctx k P m, verify_ctx vctx -> key_at k P -> P <> Inf -> 1 <= Z.of_nat m < n ->
  exists k1 k2, pk_combine dbg (repeat k m) = Some (Ok k1) /\ pk_tweak_mul_assign dbg vctx k (scalar_of (Z.of_nat m)) = Some (k2, Ok tt) /\ pk_eq dbg k1 k2 = Some true.
Proof.
  intros dbg vctx k P m HV K N M. destruct (C35_public_tweak_mul_pf dbg vctx k P (Z.of_nat m) HV K N ltac:(lia)) as [_ T]. destruct (T ltac:(lia)) as (k2 & H2 & K2 & N2).
  destruct (C36_combine_pf dbg (repeat k m) (repeat P m)) as [_ C].
  { clear -K. induction m as [|m IH]; [constructor | cbn [repeat]; constructor; assumption]. } { apply Forall_forall. intros x Hx. apply repeat_spec in Hx. subst x. exact N. }
  destruct (key_log_G k P K N) as (e & E0 & ->). rewrite psum_repeat in C by exact E0. rewrite smulG_mul in K2, N2 by lia. destruct (C N2) as (k1 & H1 & K1).
  exists k1, k2. split; [exact H1|]. split; [exact H2|]. exact (key_same _ _ _ dbg (key_mono _ _ K1) (key_mono _ _ K2) N2).
Qed.
Lemma C80_combine_copies_example_pf : exists vctx, verify_ctx vctx /\ key_at AFFINE_G G /\ G <> Inf /\ 1 <= Z.of_nat 3 < n.
Proof. destruct C34_public_tweak_add_example_pf as ((v & HV) & K & N & _). exists v. split; [exact HV|]. split; [exact K|]. split; [exact N|]. vmr. Qed.

(** Blinding: a factor multiplied into the public key or into the secret key gives the same shared secret. *)
Lemma C80_ecdh_factor_pf : forall dbg dbg' vctx D k P d t k1 d1, verify_ctx vctx -> key_at k P -> P <> Inf -> 1 <= d < n -> 1 <= t < n ->
  pk_tweak_mul_assign dbg vctx k (scalar_of t) = Some (k1, Ok tt) -> sk_tweak_mul_assign dbg (scalar_of d) (scalar_of t) = Some (d1, Ok tt) ->
  shared_secret_new dbg D k1 (scalar_of d) = shared_secret_new dbg' D k d1 /\ exists h, shared_secret_new dbg' D k d1 = Some (Ok h).
Proof.
  intros dbg dbg' vctx D k P d t k1 d1 HV K N HD T H1 HS. destruct (C35_public_tweak_mul_pf dbg vctx k P t HV K N ltac:(lia)) as [_ M]. destruct (M ltac:(lia)) as (k' & H' & K1 & N1). rewrite H1 in H'. apply some_inv in H'. injection H' as <-.
  destruct (C33_secret_tweak_mul_pf dbg d t HD T) as [HS' R]. rewrite HS in HS'. apply some_inv in HS'. injection HS' as ->.
  destruct (C37_ecdh_pf dbg D k1 _ d (key_mono _ _ K1) N1 ltac:(lia)) as [_ E1]. destruct (E1 ltac:(lia)) as (x & y & X & ->). destruct (C37_ecdh_pf dbg' D k P ((d * t) mod n) K N ltac:(lia)) as [_ E2]. destruct (E2 ltac:(lia)) as (x' & y' & X' & ->).
  destruct (key_log_G k P K N) as (e & E0 & ->). pose proof n_pos as NP. rewrite smulG_mul in X, X' by lia. rewrite smulG_mul in X by nia.
  rewrite (smulG_same (d * (t * e)) ((d * t) mod n * e)) in X; [|nia | nia | rewrite Zmult_mod_idemp_l; f_equal; ring]. rewrite X in X'. injection X' as <- <-. split; [reflexivity | eexists; reflexivity].
Qed.
Lemma C80_ecdh_factor_example_pf : exists vctx k1 d1, verify_ctx vctx /\ key_at AFFINE_G G /\ G <> Inf /\ 1 <= 2 < n /\
  pk_tweak_mul_assign true vctx AFFINE_G (scalar_of 2) = Some (k1, Ok tt) /\ sk_tweak_mul_assign true (scalar_of 2) (scalar_of 2) = Some (d1, Ok tt).
Proof.
  destruct C34_public_tweak_add_example_pf as ((v & HV) & K & N & _). assert (A2 : 1 <= 2 < n) by vmr. destruct (C35_public_tweak_mul_pf true v _ _ 2 HV K N ltac:(lia)) as [_ M]. destruct (M ltac:(lia)) as (k1 & H1 & _).
  destruct (C33_secret_tweak_mul_pf true 2 2 A2 A2) as [HS _]. exists v, k1, (scalar_of ((2 * 2) mod n)). split; [exact HV|]. split; [exact K|]. split; [exact N|]. split; [exact A2|]. split; [exact H1 | exact HS].
Qed.
(** Unblinding: multiplying a key by t and running Diffie-Hellman with the inverse of t gives the digest of the original key. *)
Lemma C80_ecdh_unblind_pf : forall dbg vctx D k x y t k1 ti b, verify_ctx vctx -> key_at k (Aff x y) -> 1 <= t < n ->
  pk_tweak_mul_assign dbg vctx k (scalar_of t) = Some (k1, Ok tt) -> sk_inv dbg (scalar_of t) = Some ti -> pk_serialize_compressed dbg k = Some b ->
  shared_secret_new dbg D k1 ti = Some (Ok (D b)).
Proof.
  intros dbg vctx D k x y t k1 ti b HV K T H1 HI HB. assert (N : Aff x y <> Inf) by discriminate. destruct (C35_public_tweak_mul_pf dbg vctx k _ t HV K N ltac:(lia)) as [_ M]. destruct (M ltac:(lia)) as (k' & H' & K1 & N1). rewrite H1 in H'. apply some_inv in H'. injection H' as <-.
  destruct (C33_secret_inv_pf dbg t T) as (e & HE & E0 & EI & _). rewrite HI in HE. apply some_inv in HE. subst ti.
  destruct (C37_ecdh_pf dbg D k1 _ e (key_mono _ _ K1) N1 ltac:(lia)) as [_ E1]. destruct (E1 ltac:(lia)) as (x1 & y1 & X & ->). destruct (key_log_G k _ K N) as (d & HD & PE). rewrite PE in X. pose proof n_pos as NP. rewrite smulG_mul in X by lia. rewrite smulG_mul in X by nia.
  rewrite (smulG_same (e * (t * d)) d) in X; [| nia | lia | rewrite Z.mul_assoc, <- Zmult_mod_idemp_l, EI; f_equal; ring]. rewrite <- PE in X. injection X as <- <-.
  rewrite (proj2 (C06_serialize_pf dbg k x y K)) in HB. apply some_inv in HB. subst b. reflexivity.
Qed.
Lemma C80_ecdh_unblind_example_pf : exists vctx k1 ti b, verify_ctx vctx /\ key_at AFFINE_G (Aff gx gy) /\ 1 <= 2 < n /\
  pk_tweak_mul_assign true vctx AFFINE_G (scalar_of 2) = Some (k1, Ok tt) /\ sk_inv true (scalar_of 2) = Some ti /\ pk_serialize_compressed true AFFINE_G = Some b.
Proof.
  destruct C80_ecdh_factor_example_pf as (v & k1 & _ & HV & K & _ & A2 & H1 & _). destruct (C33_secret_inv_pf true 2 A2) as (e & HE & _). exists v, k1, (scalar_of e), (sec1_compressed gx gy).
  split; [exact HV|]. split; [exact K|]. split; [exact A2|]. split; [exact H1|]. split; [exact HE|]. exact (proj2 (C06_serialize_pf true _ _ _ AFFINE_G_key)).
Qed.

(** Distributivity: adding t and multiplying by u is multiplying by u and adding t*u; the refusals coincide. *)
Lemma C80_distributes_pf : forall dbg vctx k P t u ku, verify_ctx vctx -> key_at k P -> P <> Inf -> 1 <= t < n -> 1 <= u < n ->
  pk_tweak_mul_assign dbg vctx k (scalar_of u) = Some (ku, Ok tt) ->
  (pk_tweak_add_assign dbg vctx k (scalar_of t) = Some (k, Err TweakOutOfRange) /\ pk_tweak_add_assign dbg vctx ku (scalar_of ((t * u) mod n)) = Some (ku, Err TweakOutOfRange)) \/
  exists k1 k2 k3, pk_tweak_add_assign dbg vctx k (scalar_of t) = Some (k1, Ok tt) /\ pk_tweak_mul_assign dbg vctx k1 (scalar_of u) = Some (k2, Ok tt) /\
    pk_tweak_add_assign dbg vctx ku (scalar_of ((t * u) mod n)) = Some (k3, Ok tt) /\ pk_eq dbg k2 k3 = Some true.
Proof.
  intros dbg vctx k P t u ku HV K N T U HU. pose proof n_pos as NP. destruct (C35_public_tweak_mul_pf dbg vctx k P u HV K N ltac:(lia)) as [_ M]. destruct (M ltac:(lia)) as (k' & H' & KU & NU). rewrite HU in H'. apply some_inv in H'. injection H' as <-.
  pose proof (mul_mod_n_nz t u T U) as TU. destruct (key_log_G k P K N) as (e & E0 & ->). rewrite smulG_mul in KU, NU by lia.
  destruct (C34_public_tweak_add_pf dbg vctx k _ t HV K N ltac:(lia)) as [A1 A2]. destruct (C34_public_tweak_add_pf dbg vctx ku _ ((t * u) mod n) HV (key_mono _ _ KU) NU ltac:(lia)) as [B1 B2].
  rewrite smulG_add in A1, A2, B1, B2 by nia. assert (EQ : smul (u * e + (t * u) mod n) G = smul (u * (e + t)) G).
  { apply smulG_same; [nia | nia|]. rewrite Zplus_mod_idemp_r. f_equal. ring. }
  rewrite EQ in B1, B2. destruct (pt_dec (smul (e + t) G)) as [I0|N0].
  - left. split; [exact (A1 I0)|]. apply B1. apply smulG_0; [nia|]. apply smulG_0 in I0; [|lia]. rewrite <- Zmult_mod_idemp_r, I0, Z.mul_0_r. apply Z.mod_0_l. lia.
  - right. destruct (A2 N0) as (k1 & H1 & K1). destruct (C35_public_tweak_mul_pf dbg vctx k1 _ u HV (key_mono _ _ K1) N0 ltac:(lia)) as [_ M1]. destruct (M1 ltac:(lia)) as (k2 & H2 & K2 & N2). rewrite smulG_mul in K2, N2 by lia.
    destruct (B2 N2) as (k3 & H3 & K3). exists k1, k2, k3. split; [exact H1|]. split; [exact H2|]. split; [exact H3|]. exact (key_same _ _ _ dbg (key_mono _ _ K2) (key_mono _ _ K3) N2).
Qed.
Lemma C80_distributes_example_pf : exists vctx ku, verify_ctx vctx /\ key_at AFFINE_G G /\ G <> Inf /\ 1 <= n - 1 < n /\ 1 <= 2 < n /\ pk_tweak_mul_assign true vctx AFFINE_G (scalar_of 2) = Some (ku, Ok tt) /\
  padd G (smul (n - 1) G) = Inf /\ padd G (smul 1 G) <> Inf.
Proof.
  destruct C80_ecdh_factor_example_pf as (v & k1 & _ & HV & K & N & A2 & H1 & _). exists v, k1. split; [exact HV|]. split; [exact K|]. split; [exact N|]. split; [vmr|]. split; [exact A2|]. split; [exact H1|]. exact (proj2 (proj2 (proj2 C34_public_tweak_add_example_pf))).
Qed.

(** Derived keys: whoever holds only the public key can compute, from the tweak, the key under which the owner's signatures with the tweaked secret key verify. *)
Lemma C80_derived_signature_pf : forall dbg dbg' drbg fuel gctx vctx k d t d1 k1 z g id, gen_ctx gctx -> verify_ctx vctx -> 1 <= d < n -> 1 <= t < n -> 0 <= z < n -> key_at k (smul d G) ->
  stream (drbg (s_b32 d1) (be_bytes 32 z)) ->
  (sk_tweak_add_assign dbg (scalar_of d) (scalar_of t) = Some (d1, Ok tt) /\ pk_tweak_add_assign dbg' vctx k (scalar_of t) = Some (k1, Ok tt)) \/
  (sk_tweak_mul_assign dbg (scalar_of d) (scalar_of t) = Some (d1, Ok tt) /\ pk_tweak_mul_assign dbg' vctx k (scalar_of t) = Some (k1, Ok tt)) ->
  sign dbg drbg fuel gctx (scalar_of z) d1 = Done (g, id) -> s_is_zero (sig_r g) = false ->
  verify dbg' vctx (scalar_of z) g k1 = Some true.
Proof.
  intros dbg dbg' drbg fuel gctx vctx k d t d1 k1 z g id HG HV D T Z K ST H HS NR. pose proof n_pos as NP. assert (E0 : exists e, 1 <= e < n /\ d1 = scalar_of e /\ key_at k1 (smul e G)).
  { destruct H as [[H1 H2]|[H1 H2]].
    - destruct (C32_secret_tweak_add_pf dbg d t D T) as [E1 R]. rewrite H1 in E1. apply some_inv in E1. destruct (Z.eqb_spec (d + t) n) as [_|NE]; [discriminate E1|]. injection E1 as ->. specialize (R NE). exists ((d + t) mod n). split; [exact R|]. split; [reflexivity|].
      destruct (C34_public_tweak_add_pf dbg' vctx k _ t HV K (smulG_nz d D) ltac:(lia)) as [_ A]. rewrite smulG_add, <- smulG_mod in A by lia. destruct (A (smulG_nz _ R)) as (k' & H' & K'). rewrite H2 in H'. apply some_inv in H'. injection H' as <-. exact (key_mono _ _ K').
    - destruct (C33_secret_tweak_mul_pf dbg d t D T) as [E1 R]. rewrite H1 in E1. apply some_inv in E1. injection E1 as ->. exists ((d * t) mod n). split; [exact R|]. split; [reflexivity|].
      destruct (C35_public_tweak_mul_pf dbg' vctx k _ t HV K (smulG_nz d D) ltac:(lia)) as [_ A]. destruct (A ltac:(lia)) as (k' & H' & K' & _). rewrite H2 in H'. apply some_inv in H'. injection H' as <-. rewrite smulG_mul in K' by lia. rewrite smulG_mod by nia. rewrite Z.mul_comm. exact (key_mono _ _ K'). }
  destruct E0 as (e & E0 & -> & KE). rewrite s_b32_eq in ST by (pose proof n_lt; lia). exact (C23_sign_verify_pf dbg dbg' drbg fuel gctx vctx e z g id k1 HG HV E0 Z ST HS NR KE).
Qed.
(** The owner of d = 2 signs with d + (n - 1) = 1 modulo n. *)
Lemma C80_derived_signature_example_pf : exists drbg gctx vctx k d1 k1 g id, gen_ctx gctx /\ verify_ctx vctx /\ 1 <= 2 < n /\ 1 <= n - 1 < n /\ key_at k (smul 2 G) /\ stream (drbg (s_b32 d1) (be_bytes 32 1)) /\
  sk_tweak_add_assign true (scalar_of 2) (scalar_of (n - 1)) = Some (d1, Ok tt) /\ pk_tweak_add_assign true vctx k (scalar_of (n - 1)) = Some (k1, Ok tt) /\
  sign true drbg 2 gctx (scalar_of 1) d1 = Done (g, id) /\ s_is_zero (sig_r g) = false.
Proof.
  destruct C23_sign_verify_example_pf as (drbg & c & g & id & HC & ST & HS & NR). destruct C34_public_tweak_add_example_pf as ((v & HV) & _). assert (A2 : 1 <= 2 < n) by vmr. assert (AN : 1 <= n - 1 < n) by vmr.
  destruct (C21_from_secret_key_pf true c 2 HC A2) as (k & _ & _ & K & _). destruct (C34_commutes_pf true true v c k 2 (n - 1) HV HC A2 AN K) as [[_ H]|(k1 & d1 & k2 & H1 & H2 & _)].
  - exfalso. revert H. destruct (C32_secret_tweak_add_pf true 2 (n - 1) A2 AN) as [-> _]. vm_compute. discriminate.
  - assert (D1 : d1 = scalar_of 1). { destruct (C32_secret_tweak_add_pf true 2 (n - 1) A2 AN) as [E0 _]. rewrite H2 in E0. apply some_inv in E0. destruct (Z.eqb_spec (2 + (n - 1)) n) as [K0|_]; [lia|]. injection E0 as ->. vmr. }
    subst d1. exists drbg, c, v, k, (scalar_of 1), k1, g, id. split; [exact HC|]. split; [exact HV|]. split; [exact A2|]. split; [exact AN|]. split; [exact K|]. split; [exact ST|]. split; [exact H2|]. split; [exact H1|]. split; [exact HS | exact NR].
Qed.
