(** What signing, key agreement and key generation leave in their local variables. *)
From Coq Require Import Znumtheory Field.
From Verif Require Import Word MField MScalar MGroup MEcmult MEcdsa MCore MApi MResidue Residue WP FieldMul FieldNorm Spec Fp Bits FieldOps FieldCodec FieldStore ScalarMul ScalarOps ScalarMore ScalarBits Denote Unred Curve Group Chain Order Jac JacOps Table Ecmult Lift Gen Key Ctx ApiScalar ApiPub ApiGroup Ecdsa ApiEcdsa ApiKeys ApiGen ApiEq.

(** A field element, affine point and Jacobian point after [clear]. *)
Definition zero_fe : field := Fe 0 0 0 0 0 0 0 0 0 0 0 true.
Definition zero_af : affine := Af zero_fe zero_fe false.
Definition zero_jac : jac := Ja zero_fe zero_fe zero_fe false.
(** The four highest of 256 bits. *)
Definition top4 (g : Z) : Z := g / 2 ^ 252.

Lemma s_clear_0 s : s_clear s = scalar_of 0.
Proof. destruct s. vm_compute. reflexivity. Qed.
Lemma af_clear_0 a : af_clear a = zero_af. Proof. destruct a as [[] [] ?]. reflexivity. Qed.
Lemma j_clear_0 a : j_clear a = zero_jac. Proof. destruct a as [[] [] [] ?]. reflexivity. Qed.
Lemma top4_rng g : 0 <= g < 2 ^ 256 -> 0 <= top4 g < 16.
Proof. intros H. unfold top4. split; [apply Z.div_pos; lia | apply Z.div_lt_upper_bound; [lia|]]. change (2 ^ 252 * 16) with (2 ^ 256). lia. Qed.

Lemma gen_loop_last dbg keep g : 0 <= g < 2 ^ 256 -> forall prec row j adds add b r r' adds' add' b', 0 <= j -> j + Z.of_nat (length prec) = 63 -> length row = 16%nat ->
  ecmult_gen_loop_r dbg keep (prec ++ [row]) j (scalar_of g) adds add b r = Some (r', adds', add', b') ->
  nth_error row (Z.to_nat (top4 g)) = Some adds' /\ add' = af_from_storage adds' /\ b' = dead keep (top4 g) 0.
Proof.
  intros HG. induction prec as [|r0 prec IH]; intros row j adds add b r r' adds' add' b' J JL L16 H; cbn [app ecmult_gen_loop_r] in H.
  - cbn [length] in JL. assert (j = 63) by lia. subst j.
    assert (W : wp (s_bits dbg (scalar_of g) (63 * 4) 4) (fun r => r = (sv (scalar_of g) / 2 ^ (63 * 4)) mod 2 ^ 4)) by (apply s_bits_ok; [apply scalar_of_u | lia | lia | lia | reflexivity]).
    destruct (wp_ex _ _ W) as (bits & EB & BV). rewrite scalar_of_sv in BV by exact HG. change (63 * 4) with 252 in BV. fold (top4 g) in BV. change (2 ^ 4) with 16 in BV.
    pose proof (top4_rng g HG) as TR. rewrite (Z.mod_small (top4 g)) in BV by lia. subst bits. rewrite EB in H. change (bind (Some ?x) ?f) with (f x) in H. cbv beta in H.
    destruct (nth_error row (Z.to_nat (top4 g))) as [a|] eqn:NA; [|apply nth_error_None in NA; lia].
    rewrite (gen_select_ok row 0 (top4 g) adds a) in H by (rewrite ?Z.sub_0_r; assumption || lia). change (bind (Some ?x) ?f) with (f x) in H. cbv beta in H.
    change (bind (Some ?x) ?f) with (f x) in H. cbv beta in H.
    destruct (j_add_ge dbg r (af_from_storage a)) as [r1|]; [|discriminate H]. change (bind (Some ?x) ?f) with (f x) in H. cbv beta in H. apply some_inv in H.
    injection H as <- <- <- <-. auto.
  - cbn [length] in JL. destruct (s_bits dbg (scalar_of g) (j * 4) 4) as [bits|]; [|discriminate H]. cbv beta iota delta [bind] in H.
    destruct (j_add_ge dbg r (af_from_storage (gen_select r0 0 bits adds))) as [r1|]; [|discriminate H]. cbv beta iota delta [bind] in H.
    eapply IH; [| | | exact H]; [lia | lia | exact L16].
Qed.

(** * C89 *)
Lemma C89_same_results_pf : forall dbg keep,
  (forall ctx k, res (ecmult_gen_r dbg keep ctx k) = ecmult_gen dbg ctx k) /\
  (forall ctx d m k, res (sign_raw_r dbg keep ctx d m k) = sign_raw dbg ctx d m k) /\
  (forall drbg fuel ctx m d, ores (sign_r dbg keep drbg fuel ctx m d) = sign dbg drbg fuel ctx m d) /\
  (forall D P d, res (ecdh_raw_r dbg D P d) = ecdh_raw dbg D P d) /\
  (forall fuel rng, ores (sk_random_r dbg fuel rng 0) = sk_random dbg fuel rng 0).
Proof.
  intros dbg keep. split; [intros; apply gen_erase|]. split; [intros; apply sign_raw_erase|]. split; [intros; apply sign_erase|]. split; [intros; apply ecdh_erase|]. intros; apply random_erase.
Qed.

(** Whatever the table holds: the entry of its last row that was added last stays, and with it the top four bits of the blinded scalar;
    the blinded scalar itself is always zeroed, the copy of the entry and the index only if dead stores are executed. *)
Lemma C89_multiplication_pf : forall dbg keep prec row b ini k r l, length prec = 64%nat -> nth_error prec 63 = Some row -> length row = 16%nat -> 0 <= b < n -> 0 <= k < n ->
  ecmult_gen_r dbg keep (GCtx prec (scalar_of b) ini) (scalar_of k) = Some (r, l) ->
  gl_gnb l = scalar_of 0 /\ nth_error row (Z.to_nat (top4 ((k + b) mod n))) = Some (gl_adds l) /\
  gl_add l = (if keep then zero_af else af_from_storage (gl_adds l)) /\ gl_bits l = (if keep then 0 else top4 ((k + b) mod n)).
Proof.
  intros dbg keep prec row b ini k r l LP NR LR HB HK H. pose proof n_lt as NL. unfold ecmult_gen_r in H. rewrite s_add_eq in H by assumption. change (bind (Some ?x) ?f) with (f x) in H. cbv beta in H.
  destruct (nth_error_split _ _ NR) as (l1 & l2 & -> & L1). rewrite app_length in LP. cbn [length] in LP. assert (l2 = []) by (destruct l2; [reflexivity | cbn [length] in LP; lia]). subst l2.
  pose proof (Z.mod_pos_bound (k + b) n ltac:(lia)) as MR.
  destruct (ecmult_gen_loop_r dbg keep (l1 ++ [row]) 0 (scalar_of ((k + b) mod n)) as_default (Af f_default f_default false) 0 ini) as [[[[r1 adds] add] bits]|] eqn:EL; [|discriminate H].
  change (bind (Some ?x) ?f) with (f x) in H. cbv beta iota in H. rewrite s_clear_0 in H. apply some_inv in H. injection H as <- <-. cbn [gl_gnb gl_adds gl_add gl_bits].
  destruct (gen_loop_last dbg keep ((k + b) mod n) ltac:(lia) l1 row 0 _ _ _ _ _ _ _ _ ltac:(lia) ltac:(lia) LR EL) as (H1 & -> & ->).
  split; [reflexivity|]. split; [exact H1|]. split; [|reflexivity]. unfold dead. destruct keep; [apply af_clear_0 | reflexivity].
Qed.
Lemma gen_run dbg keep ctx k : gen_ctx ctx -> 0 <= k < n -> exists r l, ecmult_gen_r dbg keep ctx (scalar_of k) = Some (r, l) /\ jac_at r (smul k G).
Proof.
  intros HC HK. destruct (C53_ecmult_gen_pf dbg ctx k HC HK) as (r & E & J). rewrite <- (gen_erase dbg keep) in E.
  destruct (ecmult_gen_r dbg keep ctx (scalar_of k)) as [[r1 l]|]; [|discriminate E]. cbn [res option_map fst] in E. apply some_inv in E. subst r1. exists r, l. split; [reflexivity | exact J].
Qed.
Lemma gen_rows prec blind ini j row : gen_ctx (GCtx prec blind ini) -> nth_error prec j = Some row ->
  length row = 16%nat /\ exists B, forall i s, nth_error row i = Some s -> stored_at s (padd B (smul (Z.of_nat i * 16 ^ Z.of_nat j) G)) /\ on_curve B.
Proof.
  intros (b & I & Bs & _ & _ & _ & LB & OB & LP & H & _) NR. assert (JL : (j < 64)%nat) by (rewrite <- LP; apply nth_error_Some; congruence).
  destruct (nth_error Bs j) as [B|] eqn:NB; [|apply nth_error_None in NB; lia]. destruct (H j row B NR NB) as [L16 HS]. split; [exact L16|]. exists B. intros i s NS. split; [exact (HS i s NS)|].
  rewrite Forall_forall in OB. apply OB. eapply nth_error_In, NB.
Qed.
Lemma gen_ctx_len prec blind ini : gen_ctx (GCtx prec blind ini) -> exists row, nth_error prec 63 = Some row /\ length prec = 64%nat /\ length row = 16%nat.
Proof.
  intros H. pose proof H as (b & I & Bs & _ & _ & _ & _ & _ & LP & _). destruct (nth_error prec 63) as [row|] eqn:NR; [|apply nth_error_None in NR; lia]. exists row.
  split; [reflexivity|]. split; [exact LP | apply (gen_rows _ _ _ _ _ H NR)].
Qed.
Lemma C89_multiplication_example_pf : exists prec row b ini, length prec = 64%nat /\ nth_error prec 63 = Some row /\ length row = 16%nat /\ 0 <= b < n /\
  forall dbg keep, exists r l, ecmult_gen_r dbg keep (GCtx prec (scalar_of b) ini) (scalar_of 1) = Some (r, l).
Proof.
  destruct C53_ecmult_gen_example_pf as ([prec blind ini] & _ & HC). pose proof HC as (b & I & Bs & -> & HB & _). destruct (gen_ctx_len _ _ _ HC) as (row & H1 & H2 & H3). exists prec, row, b, ini.
  repeat apply conj; try assumption; try apply HB. intros dbg keep. destruct (gen_run dbg keep _ 1 HC ltac:(vmr)) as (r & l & E & _). eauto.
Qed.

(** In a right context the leftover tells the top four bits of the blinded scalar and nothing else. *)
Lemma C89_four_bits_pf : forall dbg keep prec b ini k1 k2 r1 l1 r2 l2, gen_ctx (GCtx prec (scalar_of b) ini) -> 0 <= b < n -> 0 <= k1 < n -> 0 <= k2 < n ->
  ecmult_gen_r dbg keep (GCtx prec (scalar_of b) ini) (scalar_of k1) = Some (r1, l1) -> ecmult_gen_r dbg keep (GCtx prec (scalar_of b) ini) (scalar_of k2) = Some (r2, l2) ->
  (l1 = l2 <-> top4 ((k1 + b) mod n) = top4 ((k2 + b) mod n)).
Proof.
  intros dbg keep prec b ini k1 k2 r1 l1 r2 l2 HC HB K1 K2 E1 E2. destruct (gen_ctx_len _ _ _ HC) as (row & NR & LP & LR). pose proof n_lt as NL.
  destruct (C89_multiplication_pf dbg keep prec row b ini k1 r1 l1 LP NR LR HB K1 E1) as (A1 & A2 & A3 & A4). destruct (C89_multiplication_pf dbg keep prec row b ini k2 r2 l2 LP NR LR HB K2 E2) as (B1 & B2 & B3 & B4).
  pose proof (Z.mod_pos_bound (k1 + b) n ltac:(lia)) as M1. pose proof (Z.mod_pos_bound (k2 + b) n ltac:(lia)) as M2. pose proof (top4_rng _ (conj (proj1 M1) (Z.lt_trans _ _ _ (proj2 M1) NL))) as T1. pose proof (top4_rng _ (conj (proj1 M2) (Z.lt_trans _ _ _ (proj2 M2) NL))) as T2.
  set (g1 := top4 ((k1 + b) mod n)) in *. set (g2 := top4 ((k2 + b) mod n)) in *. split.
  - intros <-. destruct (gen_rows _ _ _ _ _ HC NR) as (_ & B & HS). destruct (HS _ _ A2) as [S1 OB], (HS _ _ B2) as [S2 _]. assert (EQ : forall s P Q, stored_at s P -> stored_at s Q -> P = Q) by (intros [x y] P Q (_ & _ & _ & ->) (_ & _ & _ & ->); reflexivity).
    pose proof (EQ _ _ _ S1 S2) as E. destruct (sp_surj _ OB) as [A <-]. rewrite !smulG in E by lia. rewrite <- !sp_add in E. apply sp_inj, eadd_cancel_l, emul_G_eq in E. rewrite !Z2Nat.id in E by lia. change (16 ^ Z.of_nat 63) with (2 ^ 252) in E.
    assert (DV : (n | 2 ^ 252 * (g1 - g2))). { apply Z.mod_divide; [lia|]. replace (2 ^ 252 * (g1 - g2)) with (g1 * 2 ^ 252 - g2 * 2 ^ 252) by ring. rewrite Zminus_mod, E, Z.sub_diag. apply Z.mod_0_l. lia. }
    apply Gauss in DV; [|apply rel_prime_sym, rel_prime_le_prime; [apply C56_primes_pf | vmr]]. destruct DV as [q DV]. assert (NB : 32 < n) by vmr. assert (q = 0) by nia. lia.
  - intros E. rewrite E in *. destruct l1 as [a1 c1 d1 e1], l2 as [a2 c2 d2 e2]. cbn [gl_gnb gl_adds gl_add gl_bits] in *. assert (a1 = a2) by congruence. subst a2. subst. reflexivity.
Qed.
Lemma blinded_pair : exists ctx b k1 k2, gen_ctx ctx /\ (exists prec ini, ctx = GCtx prec (scalar_of b) ini) /\ 0 <= b < n /\ 1 <= k1 < n /\ 1 <= k2 < n /\ top4 ((k1 + b) mod n) <> top4 ((k2 + b) mod n).
Proof.
  destruct C53_ecmult_gen_example_pf as (c & E & HC). destruct (gen_prec_only _ _ E) as (prec & ->). rewrite GEN_BLIND_of in HC. exists (GCtx prec (scalar_of OrderCert.blind_val) GEN_INITIAL), OrderCert.blind_val, ((0 - OrderCert.blind_val) mod n), ((2 ^ 252 - OrderCert.blind_val) mod n).
  split; [exact HC|]. split; [eauto|]. split; [vmr|]. split; [vmr|]. split; [vmr|]. vm_compute. discriminate.
Qed.
Lemma C89_four_bits_example_pf : exists ctx b k1 k2, gen_ctx ctx /\ (exists prec ini, ctx = GCtx prec (scalar_of b) ini) /\ 0 <= b < n /\ 0 <= k1 < n /\ 0 <= k2 < n /\ top4 ((k1 + b) mod n) <> top4 ((k2 + b) mod n) /\
  forall dbg keep, (exists r l, ecmult_gen_r dbg keep ctx (scalar_of k1) = Some (r, l)) /\ exists r l, ecmult_gen_r dbg keep ctx (scalar_of k2) = Some (r, l).
Proof.
  destruct blinded_pair as (ctx & b & k1 & k2 & HC & HE & HB & K1 & K2 & T). exists ctx, b, k1, k2. split; [exact HC|]. split; [exact HE|]. split; [exact HB|]. split; [lia|]. split; [lia|]. split; [exact T|].
  intros dbg keep. destruct (gen_run dbg keep ctx k1 HC ltac:(lia)) as (r1 & l1 & E1 & _). destruct (gen_run dbg keep ctx k2 HC ltac:(lia)) as (r2 & l2 & E2 & _). split; eauto.
Qed.
(** That the multiplication leaves nothing that depends on the scalar is false, even if every store is executed. *)
Lemma C89_multiplication_clean_refuted_pf : exists ctx k1 k2, gen_ctx ctx /\ 1 <= k1 < n /\ 1 <= k2 < n /\ forall dbg, exists r1 l1 r2 l2,
  ecmult_gen_r dbg true ctx (scalar_of k1) = Some (r1, l1) /\ ecmult_gen_r dbg true ctx (scalar_of k2) = Some (r2, l2) /\ l1 <> l2.
Proof.
  destruct blinded_pair as (ctx & b & k1 & k2 & HC & (prec & ini & ->) & HB & K1 & K2 & T). exists (GCtx prec (scalar_of b) ini), k1, k2. split; [exact HC|]. split; [exact K1|]. split; [exact K2|]. intros dbg.
  destruct (gen_run dbg true _ k1 HC ltac:(lia)) as (r1 & l1 & E1 & _). destruct (gen_run dbg true _ k2 HC ltac:(lia)) as (r2 & l2 & E2 & _). exists r1, l1, r2, l2. split; [exact E1|]. split; [exact E2|].
  intros E. apply T. apply (C89_four_bits_pf dbg true prec b ini k1 k2 r1 l1 r2 l2 HC HB ltac:(lia) ltac:(lia) E1 E2), E.
Qed.

Lemma ok3_inv {A B C L} (a a' : A) (b b' : B) (c c' : C) (l l' : L) : (Ok (a, b, c), l) = (Ok (a', b', c'), l') -> a = a' /\ b = b' /\ c = c' /\ l = l'.
Proof. intros H. injection H as -> -> -> ->. auto. Qed.
Lemma pair_inv {A B} (a a' : A) (b b' : B) : (a, b) = (a', b') -> a = a' /\ b = b'. Proof. intros H. injection H as -> ->. auto. Qed.
Lemma done_inv {A} (a a' : A) : Done a = Done a' -> a = a'. Proof. intros H. injection H as ->. reflexivity. Qed.
Lemma done5_inv {A B C D L} (a a' : A) (b b' : B) (c c' : C) (d d' : D) (l l' : L) : Done (a, b, c, d, l) = Done (a', b', c', d', l') -> a = a' /\ b = b' /\ c = c' /\ d = d' /\ l = l'.
Proof. intros H. injection H as -> -> -> -> ->. auto. Qed.
Lemma sign_r_inv {L} (r s r' s' : scalar) (id id' : recid) (l l' : L) : Done ((Sig r s, id), l) = Done ((Sig r' s', id'), l') -> r = r' /\ s = s' /\ id = id' /\ l = l'.
Proof. intros H. injection H as -> -> -> ->. auto. Qed.
Lemma key_norm a x y rx ry : af_inf a = false -> fcrep rx x -> fcrep ry y -> forall A, pt A = FAff x y -> key_at (Af rx ry (af_inf a)) (sp A).
Proof.
  intros I [[X _] EX] [[Y _] EY] A P. apply key_aok. split; [eapply fok_mono; [exact X | lia]|]. split; [eapply fok_mono; [exact Y | lia]|]. cbn [af_inf af_x af_y]. rewrite I, EX, EY. split; [exact f1_neq_f0|]. rewrite P. f_equal; field; exact f1_neq_f0.
Qed.
(** What one run of the inner signing function leaves besides its callee's variables. *)
Lemma C89_sign_raw_pf : forall dbg keep ctx d z k r s id l, gen_ctx ctx -> 0 <= d < n -> 0 <= z < n -> 1 <= k < n ->
  sign_raw_r dbg keep ctx (scalar_of d) (scalar_of z) (scalar_of k) = Some (Ok (r, s, id), l) ->
  rl_n l = scalar_of 0 /\ rl_sigr l = r /\ rl_sigs l = s /\ rl_recid l = id /\ rl_overflow l = (2 <=? id) /\ rl_b l = be_bytes 32 (sv r + n * (id / 2)) /\
  (if keep then rl_rp l = zero_jac /\ rl_r l = zero_af else jac_at (rl_rp l) (smul k G) /\ key_at (rl_r l) (smul k G)) /\
  exists rp, ecmult_gen_r dbg keep ctx (scalar_of k) = Some (rp, rl_gen l).
Proof.
  intros dbg keep ctx d z k r s id l HC D Z K H. pose proof n_lt as NL. pose proof n_pos as NP. pose proof pnx as (PN & PN2 & P2). unfold sign_raw_r in H.
  destruct (gen_run dbg keep ctx k HC ltac:(lia)) as (j & g & EG & J). rewrite EG in H. change (bind (Some ?x) ?f) with (f x) in H. cbv beta iota in H.
  rewrite smulG in J by lia. pose proof J as JA. apply jac_jok in J. destruct (nonce_pt k K) as (X & Y & PT & _).
  destruct (wp_ex _ _ (af_set_gej_ok dbg j _ J)) as (a & EA & AA & AI). rewrite EA in H. change (bind (Some ?x) ?f) with (f x) in H. cbv beta in H.
  assert (I : af_inf a = false) by (rewrite AI; apply (jok_fin _ _ _ J); apply emul_nz; exact K).
  destruct AA as (FX & FY & AP). rewrite I in AP. apply jpt_one in AP. rewrite PT in AP. apply FAff_inj in AP. destruct AP as [-> ->].
  set (x := fe (af_x a)) in *. set (y := fe (af_y a)) in *. pose proof (val_range x) as XR.
  destruct (wp_ex _ _ (f_normalize_rep dbg (af_x a) x ltac:(eapply frep_mono; [apply fok_frep; exact FX | lia]))) as (rx & E1 & RX). rewrite E1 in H. change (bind (Some ?x) ?f) with (f x) in H. cbv beta in H.
  destruct (wp_ex _ _ (f_normalize_rep dbg (af_y a) y ltac:(eapply frep_mono; [apply fok_frep; exact FY | lia]))) as (ry & E2 & RY). rewrite E2 in H. change (bind (Some ?x) ?f) with (f x) in H. cbv beta in H.
  change (bind (Some ?x) ?f) with (f x) in H. cbv beta in H.
  destruct (wp_ex _ _ (f_b32_rep dbg rx x RX)) as (b & E3 & ->). rewrite E3 in H. change (bind (Some ?x) ?f) with (f x) in H. cbv beta in H.
  destruct (be32_bytes (val x)) as [L B]. rewrite s_set_b32_eq in H by assumption. rewrite be32_val in H by lia. change (bind (Some ?x) ?f) with (f x) in H. cbv beta iota in H.
  pose proof (Z.mod_pos_bound (val x) n ltac:(lia)) as MR.
  assert (DA : forall T b (o : option T) v, (dassert dbg b ;; o) = Some v -> o = Some v) by (intros T [] o v E; unfold dassert in E; destruct dbg; [exact E | exact E | discriminate E | exact E]).
  apply DA, DA in H. clear DA.
  destruct (wp_ex _ _ (f_is_odd_rep dbg ry y RY)) as (od & E4 & ->). rewrite E4 in H. change (bind (Some ?x) ?f) with (f x) in H. cbv beta in H. change (bind (Some ?x) ?f) with (f x) in H. cbv beta in H.
  rewrite s_mul_eq in H by lia. change (bind (Some ?x) ?f) with (f x) in H. cbv beta in H. pose proof (Z.mod_pos_bound (val x mod n * d) n ltac:(lia)) as MD.
  rewrite s_add_eq in H by lia. change (bind (Some ?x) ?f) with (f x) in H. cbv beta in H. pose proof (Z.mod_pos_bound ((val x mod n * d) mod n + z) n ltac:(lia)) as MA.
  pose proof (inv_n_rng k) as WR. rewrite s_inv_eq in H by lia. change (bind (Some ?x) ?f) with (f x) in H. cbv beta in H. rewrite s_mul_eq in H by lia. change (bind (Some ?x) ?f) with (f x) in H. cbv beta in H.
  set (sg := (inv_mod n k * _) mod n) in H. assert (SR : 0 <= sg < n) by (apply Z.mod_pos_bound; lia). clearbody sg. rewrite s_clear_0 in H. do 3 (change (bind (Some ?x) ?f) with (f x) in H; cbv beta in H).
  assert (XE : val x = sv (scalar_of (val x mod n)) + n * (if n <=? val x then 1 else 0)).
  { rewrite scalar_of_sv by lia. destruct (Z.leb_spec n (val x)) as [GE|LT].
    - rewrite (Z.mod_eq (val x) n) by lia. assert (val x / n = 1) as -> by (symmetry; apply (Z.div_unique _ _ 1 (val x - n)); lia). lia.
    - rewrite Z.mod_small by lia. lia. }
  assert (FIN : if keep then dead keep j (j_clear j) = zero_jac /\ dead keep (Af rx ry (af_inf a)) (af_clear (Af rx ry (af_inf a))) = zero_af
    else jac_at (dead keep j (j_clear j)) (smul k G) /\ key_at (dead keep (Af rx ry (af_inf a)) (af_clear (Af rx ry (af_inf a)))) (smul k G)).
  { destruct keep; unfold dead; [split; [apply j_clear_0 | apply af_clear_0]|]. rewrite smulG by lia. split; [exact JA | exact (key_norm a x y rx ry I RX RY _ PT)]. }
  rewrite s_is_zero_eq in H by lia. destruct (sg =? 0); [apply some_inv in H; discriminate H|]. rewrite s_is_high_eq in H by lia.
  assert (O4 : forall o q : bool, let v := Z.lor (if o then 2 else 0) (if q then 1 else 0) in (o = (2 <=? v) /\ (if o then 1 else 0) = v / 2) /\ o = (2 <=? Z.lxor v 1) /\ (if o then 1 else 0) = Z.lxor v 1 / 2) by (intros [] []; repeat split).
  destruct (O4 (n <=? val x) (Z.odd (val y))) as [[O1 O2] [O3 O5]]. set (id0 := Z.lor (if n <=? val x then 2 else 0) (if Z.odd (val y) then 1 else 0)) in *. clearbody id0.
  destruct ((n - 1) / 2 <=? sg).
  - rewrite s_neg_eq in H by lia. do 2 (change (bind (Some ?x) ?f) with (f x) in H; cbv beta in H). apply some_inv, ok3_inv in H. destruct H as (Hr & Hs & Hi & Hl). subst l. cbn [rl_rp rl_r rl_b rl_sigr rl_overflow rl_recid rl_n rl_sigs rl_gen].
    split; [reflexivity|]. split; [exact Hr|]. split; [exact Hs|]. split; [exact Hi|]. rewrite <- Hi, <- Hr, <- O5. split; [exact O3|]. split; [rewrite <- XE; reflexivity|]. split; [exact FIN | exists j; exact EG].
  - apply some_inv, ok3_inv in H. destruct H as (Hr & Hs & Hi & Hl). subst l. cbn [rl_rp rl_r rl_b rl_sigr rl_overflow rl_recid rl_n rl_sigs rl_gen].
    split; [reflexivity|]. split; [exact Hr|]. split; [exact Hs|]. split; [exact Hi|]. rewrite <- Hi, <- Hr, <- O2. split; [exact O1|]. split; [rewrite <- XE; reflexivity|]. split; [exact FIN | exists j; exact EG].
Qed.
Lemma sign_raw_run dbg keep ctx d z k : gen_ctx ctx -> 0 <= d < n -> 0 <= z < n -> usable d z k -> ~ wraps k ->
  exists r s id l, signature_for d z k r s id /\ sign_raw_r dbg keep ctx (scalar_of d) (scalar_of z) (scalar_of k) = Some (Ok (scalar_of r, scalar_of s, id), l).
Proof.
  intros HC D Z U W. destruct (sign_raw_cases dbg ctx d z k HC D Z (proj1 U)) as [(_ & W' & _)|[(_ & _ & r & s & id & SF & E)|(_ & N & _)]]; [elim (W W') | | elim (N U)].
  exists r, s, id. rewrite <- (sign_raw_erase dbg keep) in E. destruct (sign_raw_r dbg keep ctx (scalar_of d) (scalar_of z) (scalar_of k)) as [[o l]|]; [|discriminate E].
  cbn [res option_map fst] in E. apply some_inv in E. subst o. exists l. split; [exact SF | reflexivity].
Qed.
Lemma C89_sign_raw_example_pf : exists ctx, gen_ctx ctx /\ 0 <= 1 < n /\ 1 <= 1 < n /\
  forall dbg keep, exists r s id l, sign_raw_r dbg keep ctx (scalar_of 1) (scalar_of 1) (scalar_of 1) = Some (Ok (r, s, id), l).
Proof.
  destruct C53_ecmult_gen_example_pf as (ctx & _ & HC). assert (D : 0 <= 1 < n) by vmr. exists ctx. split; [exact HC|]. split; [exact D|]. split; [vmr|]. intros dbg keep.
  destruct (sign_raw_run dbg keep ctx 1 1 1 HC D D usable_1 wraps_1) as (r & s & id & l & _ & E). exists (scalar_of r), (scalar_of s), id, l. exact E.
Qed.
(** So with all stores executed its own variables are a function of the signature it returned: they tell nothing the signature does not. *)
Lemma C89_sign_raw_clean_pf : forall dbg dbg' ctx ctx' d z k d' z' k' v l l', gen_ctx ctx -> gen_ctx ctx' -> 0 <= d < n -> 0 <= z < n -> 1 <= k < n -> 0 <= d' < n -> 0 <= z' < n -> 1 <= k' < n ->
  sign_raw_r dbg true ctx (scalar_of d) (scalar_of z) (scalar_of k) = Some (Ok v, l) -> sign_raw_r dbg' true ctx' (scalar_of d') (scalar_of z') (scalar_of k') = Some (Ok v, l') ->
  rl_rp l = rl_rp l' /\ rl_r l = rl_r l' /\ rl_b l = rl_b l' /\ rl_sigr l = rl_sigr l' /\ rl_overflow l = rl_overflow l' /\ rl_recid l = rl_recid l' /\ rl_n l = rl_n l' /\ rl_sigs l = rl_sigs l'.
Proof.
  intros dbg dbg' ctx ctx' d z k d' z' k' [[r s] id] l l' HC HC' D Z K D' Z' K' E E'.
  destruct (C89_sign_raw_pf dbg true ctx d z k r s id l HC D Z K E) as (A1 & A2 & A3 & A4 & A5 & A6 & [A7 A8] & _). destruct (C89_sign_raw_pf dbg' true ctx' d' z' k' r s id l' HC' D' Z' K' E') as (B1 & B2 & B3 & B4 & B5 & B6 & [B7 B8] & _).
  rewrite A1, A2, A3, A4, A5, A6, A7, A8, B1, B2, B3, B4, B5, B6, B7, B8. repeat apply conj; reflexivity.
Qed.
Lemma gx_small : gx mod n = gx. Proof. vm_compute. reflexivity. Qed.
(** Two keys, two messages, the same nonce, the same signature. *)
Definition z_two : Z := (1 - gx) mod n.
Lemma two_sig : forall r s id r' s' id', signature_for 1 1 1 r s id -> signature_for 2 z_two 1 r' s' id' -> r = r' /\ s = s' /\ id = id'.
Proof.
  intros r s id r' s' id' (x & y & P & R & S) (x' & y' & P' & R' & S'). rewrite P in P'. injection P' as <- <-. rewrite smulG, emul_1, sp_G in P by lia. injection P as <- <-. subst r r'. split; [reflexivity|].
  assert (E : (inv_mod n 1 * (z_two + gx mod n * 2)) mod n = (inv_mod n 1 * (1 + gx mod n * 1)) mod n) by (vm_compute; reflexivity). rewrite E in S'. clear E. cbv zeta in S, S'. set (s0 := (inv_mod n 1 * (1 + gx mod n * 1)) mod n) in *. clearbody s0.
  destruct S as [_ [(H1 & -> & ->)|(H1 & -> & ->)]], S' as [_ [(H2 & -> & ->)|(H2 & -> & ->)]]; try lia; auto.
Qed.
Lemma usable_two : usable 2 z_two 1.
Proof. split; [vmr|]. exists gx, gy. split; [|vm_compute; discriminate]. rewrite smulG, emul_1, sp_G by lia. reflexivity. Qed.
Lemma C89_sign_raw_clean_example_pf : exists ctx, gen_ctx ctx /\ 0 <= 1 < n /\ 1 <= 1 < n /\ 0 <= 2 < n /\ 0 <= z_two < n /\
  forall dbg, exists v l l', sign_raw_r dbg true ctx (scalar_of 1) (scalar_of 1) (scalar_of 1) = Some (Ok v, l) /\ sign_raw_r dbg true ctx (scalar_of 2) (scalar_of z_two) (scalar_of 1) = Some (Ok v, l').
Proof.
  destruct C53_ecmult_gen_example_pf as (ctx & _ & HC). assert (D : 0 <= 1 < n) by vmr. assert (D2 : 0 <= 2 < n) by vmr. assert (Z2 : 0 <= z_two < n) by vmr. exists ctx.
  split; [exact HC|]. split; [exact D|]. split; [vmr|]. split; [exact D2|]. split; [exact Z2|]. intros dbg. destruct (sign_raw_run dbg true ctx 1 1 1 HC D D usable_1 wraps_1) as (r & s & id & l & SF & E).
  destruct (sign_raw_run dbg true ctx 2 z_two 1 HC D2 Z2 usable_two wraps_1) as (r' & s' & id' & l' & SF' & E'). destruct (two_sig _ _ _ _ _ _ SF SF') as (<- & <- & <-). exists (scalar_of r, scalar_of s, id), l, l'. split; [exact E | exact E'].
Qed.

Lemma sign_loop_r_done dbg keep gen ctx sk m : forall fuel i nc ov gn v l, sign_loop_r dbg keep fuel gen i ctx sk m = Done (nc, ov, gn, v, l) ->
  exists j, gn = gen j /\ s_set_b32 dbg gn = Some (nc, ov) /\ ov = false /\ s_is_zero nc = false /\ sign_raw_r dbg keep ctx sk m nc = Some (Ok v, l).
Proof.
  induction fuel as [|f IH]; intros i nc ov gn v l H; [discriminate H|]. cbn [sign_loop_r] in H. destruct (s_set_b32 dbg (gen i)) as [[nonce overflow]|] eqn:ES; [|discriminate H].
  destruct overflow; cbn [negb andb] in H; [eapply IH, H|]. destruct (s_is_zero nonce) eqn:EZ; cbn [negb] in H; [eapply IH, H|].
  destruct (sign_raw_r dbg keep ctx sk m nonce) as [[[v0|e] l0]|] eqn:ER; [|eapply IH, H | discriminate H].
  apply done5_inv in H. destruct H as (<- & <- & <- & <- & <-). exists i. split; [reflexivity|]. split; [exact ES|]. split; [reflexivity|]. split; [exact EZ | exact ER].
Qed.
(** After signing, the secret key and the nonce are in local variables in both cases; the variable [nonce] is zeroed only if dead stores are executed. *)
Lemma C89_sign_pf : forall dbg keep drbg fuel ctx d z r s id l, gen_ctx ctx -> 0 <= d < n -> 0 <= z < n -> stream (drbg (be_bytes 32 d) (be_bytes 32 z)) ->
  sign_r dbg keep drbg fuel ctx (scalar_of z) (scalar_of d) = Done ((Sig r s, id), l) ->
  sl_seckey_b32 l = be_bytes 32 d /\ sl_message_b32 l = be_bytes 32 z /\ sl_overflow l = false /\ sl_result l = (r, s, id) /\
  exists k, 1 <= k < n /\ sl_generated l = be_bytes 32 k /\ sl_nonce l = scalar_of (if keep then 0 else k) /\
    sign_raw_r dbg keep ctx (scalar_of d) (scalar_of z) (scalar_of k) = Some (Ok (r, s, id), sl_raw l).
Proof.
  intros dbg keep drbg fuel ctx d z r s id l HC D Z HS H. pose proof n_lt as NL. unfold sign_r in H. rewrite !s_b32_eq in H by lia. cbv zeta in H.
  destruct (sign_loop_r dbg keep fuel (drbg (be_bytes 32 d) (be_bytes 32 z)) 0 ctx (scalar_of d) (scalar_of z)) as [[[[[nc ov] gn] [[r0 s0] id0]] l0]| |] eqn:EL; [|discriminate H | discriminate H].
  destruct (sign_loop_r_done _ _ _ _ _ _ _ _ _ _ _ _ _ EL) as (j & -> & ES & -> & EZ & ER). destruct (HS j) as [LJ BJ]. clear EL.
  rewrite s_set_b32_eq in ES by assumption. pose proof (be_val_32 _ LJ BJ) as VR. assert (EB : drbg (be_bytes 32 d) (be_bytes 32 z) j = be_bytes 32 (be_val (drbg (be_bytes 32 d) (be_bytes 32 z) j))).
  { apply be_val_inj; [rewrite LJ; symmetry; apply be32_bytes | exact BJ | apply be32_bytes | rewrite be32_val by exact VR; reflexivity]. }
  set (gj := drbg (be_bytes 32 d) (be_bytes 32 z) j) in *. clearbody gj. set (v := be_val gj) in *. clearbody v. subst gj.
  apply some_inv, pair_inv in ES. destruct ES as [EN EO]. apply Z.leb_gt in EO. rewrite Z.mod_small in EN by lia. subst nc. rewrite s_is_zero_eq in EZ by lia. apply Z.eqb_neq in EZ.
  apply sign_r_inv in H. destruct H as (-> & -> & -> & <-). cbn [sl_seckey_b32 sl_message_b32 sl_overflow sl_result sl_generated sl_nonce sl_raw].
  split; [reflexivity|]. split; [reflexivity|]. split; [reflexivity|]. split; [reflexivity|]. exists v. split; [lia|]. split; [reflexivity|]. split; [|exact ER]. unfold dead. destruct keep; [vm_compute; reflexivity | reflexivity].
Qed.
Lemma sign_run dbg keep ctx d z : gen_ctx ctx -> 0 <= d < n -> 0 <= z < n -> usable d z 1 -> exists r s id l, signature_for d z 1 r s id /\
  sign_r dbg keep (fun _ _ _ => be_bytes 32 1) 1 ctx (scalar_of z) (scalar_of d) = Done ((Sig (scalar_of r) (scalar_of s), id), l).
Proof.
  intros HC D Z U. assert (HS : stream (fun _ => be_bytes 32 1)) by (intros i; apply be32_bytes). assert (N1 : nonce (fun _ => be_bytes 32 1) 0 = 1) by (vm_compute; reflexivity). pose proof n_lt as NL.
  destruct (sign_loop_step dbg 0 (fun _ => be_bytes 32 1) 0 ctx d z HC HS D Z) as [(_ & W & _)|[(_ & _ & r & s & id & SF & E)|(_ & N & _)]]; rewrite N1 in *; [elim (wraps_1 W) | | elim (N U)].
  exists r, s, id. assert (E2 : sign dbg (fun _ _ _ => be_bytes 32 1) 1 ctx (scalar_of z) (scalar_of d) = Done (Sig (scalar_of r) (scalar_of s), id)) by exact E. rewrite <- (sign_erase dbg keep) in E2.
  destruct (sign_r dbg keep (fun _ _ _ => be_bytes 32 1) 1 ctx (scalar_of z) (scalar_of d)) as [[g l]| |]; [|discriminate E2 | discriminate E2]. exists l. split; [exact SF|]. apply done_inv in E2. cbn [fst] in E2. rewrite E2. reflexivity.
Qed.
Lemma C89_sign_example_pf : exists ctx, gen_ctx ctx /\ 0 <= 1 < n /\ stream (fun _ => be_bytes 32 1) /\
  forall dbg keep, exists r s id l, sign_r dbg keep (fun _ _ _ => be_bytes 32 1) 1 ctx (scalar_of 1) (scalar_of 1) = Done ((Sig r s, id), l).
Proof.
  destruct C53_ecmult_gen_example_pf as (ctx & _ & HC). assert (D : 0 <= 1 < n) by vmr. exists ctx. split; [exact HC|]. split; [exact D|]. split; [intros i; apply be32_bytes|]. intros dbg keep.
  destruct (sign_run dbg keep ctx 1 1 HC D D usable_1) as (r & s & id & l & _ & E). exists (scalar_of r), (scalar_of s), id, l. exact E.
Qed.
(** That signing leaves nothing beyond what the signature tells is false even if every store is executed: two runs with one signature leave different keys. *)
Lemma C89_sign_clean_refuted_pf : exists drbg ctx z1 z2, gen_ctx ctx /\ 0 <= z1 < n /\ 0 <= z2 < n /\ forall dbg, exists v l1 l2,
  sign_r dbg true drbg 1 ctx (scalar_of z1) (scalar_of 1) = Done (v, l1) /\ sign_r dbg true drbg 1 ctx (scalar_of z2) (scalar_of 2) = Done (v, l2) /\
  be_val (sl_seckey_b32 l1) = 1 /\ be_val (sl_seckey_b32 l2) = 2.
Proof.
  destruct C53_ecmult_gen_example_pf as (ctx & _ & HC). assert (D : 0 <= 1 < n) by vmr. assert (D2 : 0 <= 2 < n) by vmr. assert (Z2 : 0 <= z_two < n) by vmr. assert (HS : stream (fun _ => be_bytes 32 1)) by (intros i; apply be32_bytes).
  exists (fun _ _ _ => be_bytes 32 1), ctx, 1, z_two. split; [exact HC|]. split; [exact D|]. split; [exact Z2|]. intros dbg.
  destruct (sign_run dbg true ctx 1 1 HC D D usable_1) as (r & s & id & l & SF & E). destruct (sign_run dbg true ctx 2 z_two HC D2 Z2 usable_two) as (r' & s' & id' & l' & SF' & E').
  destruct (two_sig _ _ _ _ _ _ SF SF') as (<- & <- & <-). exists (Sig (scalar_of r) (scalar_of s), id), l, l'. split; [exact E|]. split; [exact E'|].
  destruct (C89_sign_pf dbg true _ 1 ctx 1 1 _ _ _ l HC D D HS E) as (-> & _). destruct (C89_sign_pf dbg true _ 1 ctx 2 z_two _ _ _ l' HC D2 Z2 HS E') as (-> & _). split; vm_compute; reflexivity.
Qed.

(** Key agreement clears nothing: the secret scalar, the shared point in both forms and its encoding stay. *)
Lemma C89_ecdh_pf : forall dbg D k P d o l, key_at k P -> P <> Inf -> 0 <= d < n -> ecdh_raw_r dbg D k (scalar_of d) = Some (o, l) ->
  el_s l = scalar_of d /\ (d = 0 -> el_pt l = k /\ el_res l = None /\ el_x l = None /\ el_y l = None) /\
  (d <> 0 -> exists x y j, smul d P = Aff x y /\ key_at (el_pt l) (Aff x y) /\ el_res l = Some j /\ jac_at j (Aff x y) /\ el_x l = Some (be_bytes 32 x) /\ el_y l = Some (2 + y mod 2)).
Proof.
  intros dbg D k P d o l HK N R H. unfold ecdh_raw_r in H. cbv zeta in H. pose proof n_lt as NL. rewrite s_is_zero_eq in H by lia. destruct (Z.eqb_spec d 0) as [E0|ND].
  { apply some_inv, pair_inv in H. destruct H as [_ <-]. cbn [el_s el_pt el_res el_x el_y]. split; [reflexivity|]. split; [auto | contradiction]. }
  assert (NZ : smul d P <> Inf). { destruct (key_log k P HK N) as (e & E0 & -> & _). rewrite <- smulG by lia. rewrite smulG_mul, <- smulG_mod by nia. apply smulG_nz, mul_mod_n_nz; lia. }
  destruct (C52_ecmult_const_pf dbg k P d HK N R) as (r & E1 & J). rewrite E1 in H. change (bind (Some ?x) ?f) with (f x) in H. cbv beta in H. destruct (C50_set_gej_pf dbg r _ J) as (a & E2 & HA). rewrite E2 in H. change (bind (Some ?x) ?f) with (f x) in H. cbv beta in H.
  destruct (aff_exists _ _ _ HA) as (A & EA & AA). destruct (smul d P) as [|x y] eqn:EP; [contradiction|]. destruct HA as (KX & KY & O & I & HX & HY). apply fok_frep in KX, KY.
  assert (VX : val (fe (af_x a)) = x) by (rewrite <- HX; apply val_toF). assert (VY : val (fe (af_y a)) = y) by (rewrite <- HY; apply val_toF).
  assert (FX : frep 31 (af_x a) (fe (af_x a))) by fr. assert (FY : frep 31 (af_y a) (fe (af_y a))) by fr. destruct AA as (_ & _ & AP). rewrite I in AP. apply jpt_one in AP.
  destruct (wp_ex _ _ (f_normalize_rep dbg _ _ FX)) as (px & E3 & PX). rewrite E3 in H. change (bind (Some ?x) ?f) with (f x) in H. cbv beta in H. destruct (wp_ex _ _ (f_normalize_rep dbg _ _ FY)) as (py & E4 & PY). rewrite E4 in H. do 2 (change (bind (Some ?x) ?f) with (f x) in H; cbv beta in H).
  destruct (wp_ex _ _ (f_b32_rep dbg px _ PX)) as (bx & E5 & ->). rewrite E5 in H. change (bind (Some ?x) ?f) with (f x) in H. cbv beta in H. destruct (wp_ex _ _ (f_is_odd_rep dbg py _ PY)) as (q & E6 & ->). rewrite E6 in H. do 2 (change (bind (Some ?x) ?f) with (f x) in H; cbv beta in H).
  apply some_inv, pair_inv in H. destruct H as [_ <-]. cbn [el_s el_pt el_res el_x el_y]. split; [reflexivity|]. split; [contradiction|]. intros _. exists x, y, r. split; [reflexivity|].
  split; [rewrite EA; exact (key_norm a _ _ px py I PX PY _ AP)|]. split; [reflexivity|]. split; [exact J|]. rewrite VX, VY. split; [reflexivity|]. f_equal. rewrite Zmod_odd. destruct (Z.odd y); reflexivity.
Qed.
Lemma C89_ecdh_example_pf : key_at AFFINE_G G /\ G <> Inf /\ 0 <= 1 < n /\ 1 <> 0 /\ forall dbg D, exists o l, ecdh_raw_r dbg D AFFINE_G (scalar_of 1) = Some (o, l).
Proof.
  assert (D1 : 0 <= 1 < n) by vmr. split; [exact G_key|]. split; [discriminate|]. split; [exact D1|]. split; [lia|]. intros dbg D.
  destruct (proj2 (C37_ecdh_pf dbg D AFFINE_G G 1 G_key ltac:(discriminate) D1) ltac:(lia)) as (x & y & _ & E). unfold shared_secret_new in E. rewrite <- ecdh_erase in E.
  destruct (ecdh_raw_r dbg D AFFINE_G (scalar_of 1)) as [[o l]|]; [exists o, l; reflexivity | discriminate E].
Qed.
Lemma random_at dbg rng k ret : stream rng -> forall fuel i, sk_random_r dbg fuel rng i = Done (k, ret) -> exists d, 1 <= d < n /\ k = scalar_of d /\ ret = be_bytes 32 d.
Proof.
  intros HS. induction fuel as [|f IH]; intros i H; [discriminate H|]. cbn [sk_random_r] in H. cbv zeta in H. destruct (HS i) as [L B]. rewrite C01_seckey_parse_pf in H by assumption.
  destruct (Z.leb_spec 1 (be_val (rng i))) as [L1|L1]; cbn [andb] in H; [|exact (IH _ H)]. destruct (Z.ltb_spec (be_val (rng i)) n) as [L2|L2]; [|exact (IH _ H)]. apply done_inv, pair_inv in H. destruct H as [<- <-].
  exists (be_val (rng i)). split; [lia|]. split; [reflexivity|]. pose proof (be_val_32 _ L B). apply be_val_inj; [rewrite L; symmetry; apply be32_bytes | exact B | apply be32_bytes | rewrite be32_val by assumption; reflexivity].
Qed.
(** Generating a key leaves its encoding in the buffer. *)
Lemma C89_random_pf : forall dbg fuel rng k ret, stream rng -> sk_random_r dbg fuel rng 0 = Done (k, ret) -> exists d, 1 <= d < n /\ k = scalar_of d /\ ret = be_bytes 32 d.
Proof. intros dbg fuel rng k ret HS. exact (random_at dbg rng k ret HS fuel 0%nat). Qed.
Lemma C89_random_example_pf : stream (fun _ => be_bytes 32 1) /\ forall dbg, sk_random_r dbg 1 (fun _ => be_bytes 32 1) 0 = Done (scalar_of 1, be_bytes 32 1).
Proof. split; [intros i; apply be32_bytes|]. intros []; vm_compute; reflexivity. Qed.
