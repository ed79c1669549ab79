(** Scalars that are not reduced.  [Scalar] has a public array of eight words and [SecretKey::try_from(Scalar)] accepts any non-zero one,
    [Message] and [Signature] have public scalar fields: so a caller can hand over any integer below 2^256. *)
From Coq Require Import Znumtheory Zdiv.
From Verif Require Import Word MField MScalar MGroup MEcmult MEcdsa MApi WP FieldMul FieldNorm Spec Fp Bits FieldOps FieldCodec ScalarAcc ScalarMul ScalarOps ScalarRed ScalarMore ScalarBits Denote Unred Curve Group Chain Order Jac JacOps Table Wnaf WnafC Ecmult Lift Gen Key Ctx ApiScalar ApiPub ApiGroup Ecdsa ApiEcdsa ApiKeys.

Section B.
Variable dbg : bool.
(** the recoding, for scalars that are not reduced *)
Lemma s_is_one_big a : n <= a < 2 ^ 256 -> s_is_one (scalar_of (rneg a)) = false.
Proof.
  intros A. pose proof n_big. pose proof n_lt. rewrite s_is_one_ok by apply scalar_of_u.
  assert (R : 0 <= rneg a < 2 ^ 256) by (unfold rneg; destruct (a =? 0); [lia | apply Z.mod_pos_bound; lia]).
  rewrite scalar_of_sv by exact R. apply Z.eqb_neq. unfold rneg. rewrite (proj2 (Z.eqb_neq a 0)) by lia.
  destruct (Z.eq_dec a n) as [->|NE]; [rewrite Z.sub_diag; discriminate|].
  replace (n - a) with (n - a + 2 ^ 256 + (-1) * 2 ^ 256) by ring. rewrite Z.mod_add, Z.mod_small by lia. lia.
Qed.
End B.
Definition bskew (a : Z) : Z := if Z.even a then 2 else 1.
Lemma wnaf_head dbg a : n <= a < 2 ^ 256 ->
  ecmult_wnaf_const dbg 65 (scalar_of a) 4 =
  let* s := s_cadd_bit dbg (scalar_of a) (b2z (Z.even a)) true in
  let* s := s_cond_neg dbg s true in
  let* '(s, u_last) := s_shr_int dbg s 4 in
  let* '(wnaf, word, u, s) := wnaf_const_loop dbg 257 4 (-1) s 0 u_last 0 (repeat 0 (Z.to_nat 65)) in
  let* v := ichk dbg (u * -1) in
  let* wnaf := upd wnaf word v in
  dassert dbg (s_is_zero s) ;;
  dassert dbg (word =? (WNAF_BITS + 4 - 1) / 4) ;;
  Some (wnaf, bskew a).
Proof.
  intros A. unfold ecmult_wnaf_const. pose proof n_big. pose proof n_lt.
  assert (HH : 0 < (n - 1) / 2 < n - 10) by (rewrite n_eq; split; reflexivity).
  rewrite s_is_high_eq by lia. rewrite s_is_even_ok by apply scalar_of_u. rewrite scalar_of_sv by lia. rewrite s_neg_any by lia.
  rewrite (proj2 (Z.leb_le _ _)) by lia. do 4 (change (bind (Some ?x) ?f) with (f x); cbv beta). rewrite s_is_one_big by exact A. cbn [negb xorb b2z].
  assert (NN : forall b, (if negb b then false else true) = b) by (intros []; reflexivity). rewrite ?NN. unfold bskew. reflexivity.
Qed.
Lemma bskew_pow a : bskew a = 2 ^ b2z (Z.even a). Proof. unfold bskew. destruct (Z.even a); reflexivity. Qed.
Lemma bskew_cases a : bskew a = 1 \/ bskew a = 2. Proof. unfold bskew. destruct (Z.even a); auto. Qed.
Lemma wnaf_debug a : n <= a < 2 ^ 256 -> ecmult_wnaf_const true 65 (scalar_of a) 4 = None.
Proof.
  intros A. rewrite wnaf_head by exact A. pose proof n_big. rewrite s_cadd_bit_any; [|lia | destruct (Z.even a); cbn [b2z]; lia].
  cbn [b2z andb]. rewrite Z.mul_1_l. assert (0 <= 2 ^ b2z (Z.even a)) by (rewrite <- bskew_pow; destruct (bskew_cases a); lia).
  rewrite (proj2 (Z.leb_le _ _)) by lia. reflexivity.
Qed.
Lemma wnaf_release a : n <= a < 2 ^ 256 - 2 ->
  wp (ecmult_wnaf_const false 65 (scalar_of a) 4) (fun '(l, skew) => Z.of_nat (length l) = 65 /\ skew = bskew a /\
    (forall i, 0 <= i < 65 -> odd15 (digit l i)) /\ wsum 16 l = - (2 ^ 256 + n - (a + bskew a))).
Proof.
  intros A. rewrite wnaf_head by lia. pose proof n_big. pose proof n_lt as NL. pose proof n_odd as NO. destruct (bskew_cases a) as [SK|SK]; pose proof (bskew_pow a) as SP.
  all: rewrite s_cadd_bit_any by (try lia; destruct (Z.even a); cbn [b2z]; lia); cbn [b2z andb]; rewrite Z.mul_1_l, <- SP, Z.mod_small by lia;
    change (bind (Some ?x) ?f) with (f x); cbv beta; rewrite s_cond_neg_any by lia; change (bind (Some ?x) ?f) with (f x); cbv beta iota;
    unfold rneg at 1; rewrite (proj2 (Z.eqb_neq (a + bskew a) 0)) by lia;
    assert (ES : (n - (a + bskew a)) mod 2 ^ 256 = 2 ^ 256 + n - (a + bskew a)) by (replace (n - (a + bskew a)) with (2 ^ 256 + n - (a + bskew a) + (-1) * 2 ^ 256) by ring; rewrite Z.mod_add, Z.mod_small by lia; reflexivity);
    rewrite ES; (eapply wp_mono; [apply (wnaf_const_tail false (-1) (2 ^ 256 + n - (a + bskew a)) (bskew a)); [right; reflexivity | lia |]|]).
  1,3: assert (PA : (a + bskew a) mod 2 = 0) by (unfold bskew in *; rewrite Zeven_mod in *; destruct (mod2_cases a) as [E0|E0]; rewrite E0 in *; cbn [Z.eqb] in *; try discriminate; rewrite Z.add_mod, E0 by lia; reflexivity);
    change (2 ^ 256) with (2 * 2 ^ 255); Z.to_euclidean_division_equations; lia.
  all: cbv beta; intros [l skew] (L & -> & D & W); split; [exact L|]; split; [reflexivity|]; split; [exact D|]; rewrite W; ring.
Qed.

(** * C68 *)
(** ** Public keys *)
(** Any integer below 2^256 gives the key d*G; the multiples of n give the key at infinity. *)
Lemma C68_from_secret_key_pf : forall dbg ctx d, gen_ctx ctx -> 0 <= d < 2 ^ 256 ->
  exists k, pk_from_secret_key dbg ctx (scalar_of d) = Some k /\ key_at k (smul d G) /\ (af_inf k = true <-> d mod n = 0).
Proof.
  intros dbg ctx d HC D. apply gen_ctx_ok in HC. pose proof n_pos as NP. unfold pk_from_secret_key. destruct (wp_ex _ _ (ecmult_gen_any dbg ctx d HC D)) as (j & -> & J). cbn [bind].
  destruct (wp_ex _ _ (af_set_gej_ok dbg j _ J)) as (k & -> & KA & _). exists k. split; [reflexivity|]. rewrite smulG by lia.
  assert (KK : key_at k (sp (emul d eG))) by (apply key_aok; eapply aok_mono; [exact KA | lia]). split; [exact KK|]. rewrite (key_inf _ _ KK), sp_inf.
  split; intros H.
  - rewrite <- emul_mod_G in H. pose proof (Z.mod_pos_bound d n ltac:(lia)). destruct (Z.eq_dec (d mod n) 0) as [E0|NE]; [exact E0|]. elim (emul_nz (d mod n) ltac:(lia) H).
  - rewrite <- emul_mod_G, H. apply emul_0.
Qed.
Lemma C68_from_secret_key_example_pf : (exists ctx, gen_ctx ctx) /\ 0 <= n + 1 < 2 ^ 256 /\ (n + 1) mod n <> 0.
Proof. split; [destruct C53_ecmult_gen_example_pf as (c & _ & HC); exists c; exact HC|]. vm_compute. repeat split; discriminate. Qed.
(** A secret key accepted by [try_from] whose public key is the point at infinity. *)
Lemma C68_finite_key_refuted_pf : exists d ctx k, gen_ctx ctx /\ sk_try_from (scalar_of d) = Ok (scalar_of d) /\ pk_from_secret_key false ctx (scalar_of d) = Some k /\ af_inf k = true.
Proof.
  destruct C53_ecmult_gen_example_pf as (c & _ & HC). assert (R : 0 <= n < 2 ^ 256) by vmr. destruct (C68_from_secret_key_pf false c n HC R) as (k & H1 & _ & H2).
  exists n, c, k. split; [exact HC|]. split; [unfold sk_try_from; rewrite s_is_zero_eq by exact R; reflexivity|]. split; [exact H1|]. apply H2. apply Z.mod_same. vm_compute. discriminate.
Qed.

(** ** Signing *)
Lemma sign_val_red x y d z k : sign_val x y d z k = sign_val x y (d mod n) (z mod n) k.
Proof.
  unfold sign_val. cbv zeta. pose proof n_pos as NP.
  assert (EQ : (inv_mod n k * (x mod n * (d mod n) + z mod n)) mod n = (inv_mod n k * (x mod n * d + z)) mod n).
  { rewrite <- (Zmult_mod_idemp_r (x mod n * (d mod n) + z mod n)), <- (Zmult_mod_idemp_r (x mod n * d + z)). f_equal. f_equal.
    rewrite Zplus_mod_idemp_r, <- (Zplus_mod_idemp_l (x mod n * (d mod n))), Zmult_mod_idemp_r, Zplus_mod_idemp_l. reflexivity. }
  rewrite EQ. reflexivity.
Qed.
Lemma sign_raw_red dbg ctx d z k : gen_ctx ctx -> 0 <= d < 2 ^ 256 -> 0 <= z < 2 ^ 256 -> 1 <= k < n ->
  sign_raw dbg ctx (scalar_of d) (scalar_of z) (scalar_of k) = sign_raw dbg ctx (scalar_of (d mod n)) (scalar_of (z mod n)) (scalar_of k).
Proof.
  intros HC D Z K. apply gen_ctx_ok in HC. pose proof n_pos as NP. destruct (nonce_pt k K) as (X & Y & P & _).
  rewrite (sign_raw_any dbg ctx d z k X Y HC D Z K P), (sign_raw_ok dbg ctx (d mod n) (z mod n) k X Y HC) by (try apply Z.mod_pos_bound; assumption || lia). rewrite sign_val_red. reflexivity.
Qed.
(** Signing with any integers is signing with their residues, except that the nonce generator is seeded with the bytes as given. *)
Lemma C68_sign_pf : forall dbg drbg fuel ctx d z, gen_ctx ctx -> 0 <= d < 2 ^ 256 -> 0 <= z < 2 ^ 256 -> stream (drbg (be_bytes 32 d) (be_bytes 32 z)) ->
  sign dbg drbg fuel ctx (scalar_of z) (scalar_of d) = sign dbg (fun _ _ => drbg (be_bytes 32 d) (be_bytes 32 z)) fuel ctx (scalar_of (z mod n)) (scalar_of (d mod n)).
Proof.
  intros dbg drbg fuel ctx d z HC D Z HS. unfold sign. rewrite !(s_b32_eq d), !(s_b32_eq z) by assumption. set (gen := drbg (be_bytes 32 d) (be_bytes 32 z)) in *. generalize 0%nat as i.
  pose proof n_pos as NP. pose proof n_lt as NL. induction fuel as [|f IH]; intros i; [reflexivity|]. cbn [sign_loop]. destruct (HS i) as [L B]. pose proof (nonce_range gen i HS) as NR. rewrite s_set_b32_eq by assumption. fold (nonce gen i).
  pose proof (Z.mod_pos_bound (nonce gen i) n ltac:(lia)). rewrite s_is_zero_eq by lia.
  destruct (Z.leb_spec n (nonce gen i)) as [GE|LT]; cbn [negb andb]; [apply IH|]. rewrite Z.mod_small by lia.
  destruct (Z.eqb_spec (nonce gen i) 0) as [E0|NE]; cbn [negb]; [apply IH|]. rewrite (sign_raw_red dbg ctx d z) by (assumption || lia). rewrite IH. reflexivity.
Qed.
Lemma C68_sign_example_pf : (exists ctx, gen_ctx ctx) /\ stream one_stream /\ 0 <= n + 1 < 2 ^ 256.
Proof. split; [destruct C53_ecmult_gen_example_pf as (c & _ & HC); exists c; exact HC|]. split; [exact one_stream_ok|]. vm_compute. repeat split; discriminate. Qed.

(** ** Verification *)
(** What verification checks when r and s are not required to be below n: the nonce point has x = r or x = r + n as integers. *)
Definition ecdsa_lenient (Q : point) (z r s : Z) : Prop :=
  r <> 0 /\ s <> 0 /\
  let w := inv_mod n s in
  match padd (smul ((z * w) mod n) G) (smul ((r * w) mod n) Q) with
  | Inf => False
  | Aff x _ => x = r \/ x = r + n
  end.
Lemma vpoint_sp A z r s : padd (smul ((z * inv_mod n s) mod n) G) (smul ((r * inv_mod n s) mod n) (sp A)) = sp (vpoint A z r s).
Proof.
  pose proof n_pos as NP. unfold vpoint. rewrite smulG, <- sp_mul, <- sp_add by (apply Z.mod_pos_bound; lia). rewrite eadd_comm, (Z.mul_comm z), (Z.mul_comm r). reflexivity.
Qed.
Lemma xis_sp A r : xis A r <-> match sp A with Inf => False | Aff x _ => x = r \/ x = r + n end.
Proof.
  unfold xis, sp. destruct (pt A) as [|u v]; cbn [spt]; [split; [intros (x & y & H & _); discriminate H | intros []]|].
  split; [intros (x & y & H & X); injection H as -> ->; exact X | intros H; exists u, v; auto].
Qed.
Lemma C68_verify_pf : forall dbg ctx k Q z r s, verify_ctx ctx -> key_at k Q -> Q <> Inf -> 0 <= r < p -> 0 <= s < 2 ^ 256 -> 0 <= z < 2 ^ 256 ->
  exists b, verify dbg ctx (scalar_of z) (Sig (scalar_of r) (scalar_of s)) k = Some b /\ (b = true <-> ecdsa_lenient Q z r s).
Proof.
  intros dbg ctx k Q z r s HC HK N R S Z. apply verify_ctx_ok in HC. destruct (key_exists _ _ HK) as (A & -> & HA). assert (NA : A <> e0) by (intros ->; apply N; reflexivity).
  destruct (wp_ex _ _ (verify_raw_any dbg ctx k A r s z HC HA NA R S Z)) as (b & HB & V). exists b. split; [exact HB|]. rewrite V. unfold ecdsa_lenient. cbv zeta. rewrite vpoint_sp, <- xis_sp. reflexivity.
Qed.
Lemma inv_mod_red s : inv_mod n s = inv_mod n (s mod n). Proof. unfold inv_mod. rewrite Z.mod_mod by (pose proof n_pos; lia). reflexivity. Qed.
(** With r below n, verification is that of the residues of z and s: adding n to s or to the hash goes unnoticed. *)
Lemma lenient_valid A z r s : 0 <= r < n -> 0 <= s < 2 ^ 256 -> (ecdsa_lenient (sp A) z r s <-> ecdsa_valid (sp A) (z mod n) r (s mod n)).
Proof.
  intros R S. pose proof n_pos as NP. unfold ecdsa_lenient, ecdsa_valid. cbv zeta. rewrite <- inv_mod_red, Zmult_mod_idemp_l. pose proof (Z.mod_pos_bound s n ltac:(lia)) as SB.
  destruct (Z.eq_dec (s mod n) 0) as [E0|NE].
  - assert (W : inv_mod n s = 0) by (unfold inv_mod; rewrite E0; reflexivity). rewrite W, !Z.mul_0_r, Z.mod_0_l by lia. rewrite !smul_0. cbn [padd]. split; intros (H1 & H2 & H3); [contradiction | lia].
  - assert (s <> 0) by (intros ->; apply NE; reflexivity). rewrite vpoint_sp. set (T := vpoint A z r s). clearbody T.
    assert (X : match sp T with Inf => False | Aff x _ => x = r \/ x = r + n end <-> match sp T with Inf => False | Aff x _ => x mod n = r end).
    { unfold sp. destruct (pt T) as [|u v]; cbn [spt]; [reflexivity|]. pose proof (val_range u). rewrite x_cases by lia. reflexivity. }
    rewrite X. split; intros (H1 & H2 & H3); (split; [lia|]; split; [lia | exact H3]).
Qed.
Lemma C68_verify_residues_pf : forall dbg ctx k Q z r s, verify_ctx ctx -> key_at k Q -> Q <> Inf -> 0 <= r < n -> 0 <= s < 2 ^ 256 -> 0 <= z < 2 ^ 256 ->
  verify dbg ctx (scalar_of z) (Sig (scalar_of r) (scalar_of s)) k = verify dbg ctx (scalar_of (z mod n)) (Sig (scalar_of r) (scalar_of (s mod n))) k.
Proof.
  intros dbg ctx k Q z r s HC HK N R S Z. pose proof n_pos as NP. pose proof pnx as (PN & _ & _).
  destruct (C68_verify_pf dbg ctx k Q z r s HC HK N ltac:(lia) S Z) as (b & -> & V). destruct (C22_verify_pf dbg ctx k Q (z mod n) r (s mod n) HC HK N R) as (c & -> & W); try (apply Z.mod_pos_bound; lia).
  destruct (key_exists _ _ HK) as (A & -> & _). rewrite lenient_valid in V by assumption. f_equal. destruct b, c; try reflexivity; [symmetry; apply W, V; reflexivity | apply V, W; reflexivity].
Qed.
Lemma one_valid : ecdsa_valid G ((1 - gx) mod n) gx 1.
Proof.
  rewrite <- sp_G, <- (emul_1 eG). apply valid_log. split; [vmr|]. split; [vmr|]. exists 1. split; [vmr|]. split.
  - exists (toF gx), (toF gy). rewrite emul_1. split; [reflexivity|]. rewrite val_small by vmr. vmr.
  - vm_compute. reflexivity.
Qed.
Lemma C68_verify_example_pf : (exists ctx, verify_ctx ctx) /\ key_at AFFINE_G G /\ G <> Inf /\ ecdsa_lenient G ((1 - gx) mod n) gx (n + 1) /\ ~ ecdsa_lenient G ((1 - gx) mod n) gx n.
Proof.
  split; [destruct (proj1 C51_ecmult_example_pf) as (c & _ & HC); exists c; exact HC|]. split; [exact G_key|]. split; [discriminate|].
  assert (RG : 0 <= gx < n) by vmr. assert (S1 : 0 <= n + 1 < 2 ^ 256) by vmr. assert (S0 : 0 <= n < 2 ^ 256) by vmr.
  rewrite <- sp_G. split.
  - apply lenient_valid; [exact RG | exact S1|]. replace ((n + 1) mod n) with 1 by (vm_compute; reflexivity). rewrite Z.mod_mod by (vm_compute; discriminate). rewrite sp_G. exact one_valid.
  - rewrite lenient_valid by assumption. rewrite Z.mod_same by (vm_compute; discriminate). intros (_ & H & _). lia.
Qed.
Lemma C68_verify_residues_example_pf : (exists ctx, verify_ctx ctx) /\ key_at AFFINE_G G /\ G <> Inf /\ 0 <= gx < n /\ 0 <= n + 1 < 2 ^ 256.
Proof. destruct C68_verify_example_pf as (H1 & H2 & H3 & _). split; [exact H1|]. split; [exact H2|]. split; [exact H3|]. split; vmr. Qed.
(** A signature that verifies although the standard parser refuses its serialisation. *)
Lemma C68_canonical_refuted_pf : exists ctx z g, verify_ctx ctx /\ (forall dbg, verify dbg ctx (scalar_of z) g AFFINE_G = Some true) /\
  (forall dbg, sig_parse_standard dbg (sig_serialize g) = Some (Err InvalidSignature)).
Proof.
  destruct C68_verify_example_pf as ((ctx & HC) & K & N & L & _). exists ctx, ((1 - gx) mod n), (Sig (scalar_of gx) (scalar_of (n + 1))). split; [exact HC|]. split.
  - intros dbg. destruct (C68_verify_pf dbg ctx AFFINE_G G ((1 - gx) mod n) gx (n + 1) HC K N) as (b & -> & V); [vmr | vmr | vmr |]. f_equal. apply V, L.
  - intros [|]; vm_compute; reflexivity.
Qed.

(** With r at or above the field size the x-coordinate is read with the wrong flags: the debug build panics, the release build compares modulo p. *)
Lemma fe_flags_release m0 m1 m2 m3 m4 m5 m6 m7 m8 m9 mag nrm pr :
  j_eq_x_var false pr (Fe m0 m1 m2 m3 m4 m5 m6 m7 m8 m9 mag nrm) = j_eq_x_var false pr (Fe m0 m1 m2 m3 m4 m5 m6 m7 m8 m9 1 false).
Proof. unfold j_eq_x_var. destruct (dassert false _) as [[]|]; [|reflexivity]. destruct (f_sqr false (j_z pr)) as [[]|]; reflexivity. Qed.
Lemma f_verify_zero m0 m1 m2 m3 m4 m5 m6 m7 m8 m9 : 0 < m9 -> f_verify (Fe m0 m1 m2 m3 m4 m5 m6 m7 m8 m9 0 true) = false.
Proof.
  intros H. unfold f_verify. cbv zeta. change (1 * 0) with 0. rewrite !Z.mul_0_r, (proj2 (Z.leb_gt m9 0)) by lia. rewrite !andb_false_r. reflexivity.
Qed.
Lemma j_eq_x_var_debug pr f : f_verify f = false -> j_eq_x_var true pr f = None.
Proof.
  intros H. unfold j_eq_x_var. destruct (dassert true _) as [[]|]; [|reflexivity]. cbn [bind]. destruct (f_sqr true (j_z pr)) as [r|]; [|reflexivity]. cbn [bind].
  assert (M : f_mul true r f = None); [|rewrite M; reflexivity].
  unfold f_mul. rewrite H. destruct (dassert true (f_mag r <=? 8)) as [[]|]; [|reflexivity]. cbn [bind]. destruct (dassert true (f_mag f <=? 8)) as [[]|]; [|reflexivity]. cbn [bind].
  destruct (dassert true (f_verify r)) as [[]|]; reflexivity.
Qed.
Lemma ge_order m0 m1 m2 m3 m4 m5 m6 m7 m8 m9 mag nrm : lim26 m0 m1 m2 m3 m4 m5 m6 m7 m8 -> p <= val10 m0 m1 m2 m3 m4 m5 m6 m7 m8 m9 ->
  f_ge false (Fe m0 m1 m2 m3 m4 m5 m6 m7 m8 m9 mag nrm) P_MINUS_ORDER = Some true.
Proof.
  intros L V. let v := eval vm_compute in P_MINUS_ORDER in change P_MINUS_ORDER with v. unfold f_ge, f_cmp_var. cbn [dassert bind].
  rewrite cmp2_10; [|exact L | unfold lim26; lia]. cbn [bind].
  match goal with |- context [?a ?= val10 ?b0 ?b1 ?b2 ?b3 ?b4 ?b5 ?b6 ?b7 ?b8 ?b9] => assert (G0 : val10 b0 b1 b2 b3 b4 b5 b6 b7 b8 b9 < p) by reflexivity;
    assert (C : (a ?= val10 b0 b1 b2 b3 b4 b5 b6 b7 b8 b9) = Gt) by (apply Z.compare_gt_iff; lia) end.
  rewrite C. reflexivity.
Qed.
Lemma verify_raw_huge ctx k A r s z : ctx_ok ctx -> aok 6 f1 k A -> A <> e0 -> p <= r < 2 ^ 256 -> 0 <= s < 2 ^ 256 -> 0 <= z < 2 ^ 256 ->
  (forall dbg, s = 0 \/ vpoint A z r s = e0 -> verify_raw dbg ctx (scalar_of r) (scalar_of s) k (scalar_of z) = Some false) /\
  (s <> 0 -> vpoint A z r s <> e0 -> verify_raw true ctx (scalar_of r) (scalar_of s) k (scalar_of z) = None /\
    exists b, verify_raw false ctx (scalar_of r) (scalar_of s) k (scalar_of z) = Some b /\ (b = true <-> exists x y, pt (vpoint A z r s) = FAff x y /\ val x = r - p)).
Proof.
  intros HC HK NA R S Z. pose proof n_lt as NL. pose proof n_pos as NP. pose proof pnx as (PN & _ & P2).
  assert (HD : forall dbg, s <> 0 -> exists pr, jok f1 pr (vpoint A z r s) /\ verify_raw dbg ctx (scalar_of r) (scalar_of s) k (scalar_of z) =
    if j_inf pr then Some false else let* '(xr, _) := f_set_b32 dbg f_default (be_bytes 32 r) in
      let* e := j_eq_x_var dbg pr xr in if e then Some true else let* g := f_ge dbg xr P_MINUS_ORDER in if g then Some false
        else let* xr := f_add dbg xr ORDER_AS_FE in let* e := j_eq_x_var dbg pr xr in if e then Some true else Some false).
  { intros dbg NS. unfold verify_raw. rewrite !s_is_zero_eq by lia. rewrite (proj2 (Z.eqb_neq r 0)), (proj2 (Z.eqb_neq s 0)) by lia. cbn [orb].
    pose proof (inv_n_rng s) as WR. rewrite s_inv_eq by lia. cbn [bind]. rewrite s_mul_eq by lia. cbn [bind]. rewrite s_mul_eq by lia. cbn [bind].
    destruct (wp_ex _ _ (j_set_ge_ok dbg k A HK)) as (j & -> & J & _). cbn [bind].
    assert (M1 : 0 <= (inv_mod n s * r) mod n < n) by (apply Z.mod_pos_bound; lia). assert (M2 : 0 <= (inv_mod n s * z) mod n < n) by (apply Z.mod_pos_bound; lia).
    destruct (wp_ex _ _ (ecmult_ok dbg ctx j A _ _ HC J NA M1 M2)) as (pr & -> & PR). fold (vpoint A z r s) in PR. exists pr. split; [exact PR|].
    rewrite s_b32_eq by lia. reflexivity. }
  split.
  - intros dbg [->|E0].
    + unfold verify_raw. rewrite (s_is_zero_eq 0) by lia. rewrite orb_true_r. reflexivity.
    + destruct (Z.eq_dec s 0) as [->|NS]; [unfold verify_raw; rewrite (s_is_zero_eq 0) by lia; rewrite orb_true_r; reflexivity|].
      destruct (HD dbg NS) as (pr & PR & ->). rewrite (proj2 (jok_inf _ _ _ PR) E0). reflexivity.
  - intros NS NT. destruct (be32_bytes r) as [BL BB].
    assert (BV : p <= be_val (be_bytes 32 r)) by (rewrite be32_val by lia; lia). split.
    + destruct (HD true NS) as (pr & PR & ->). destruct (j_inf pr) eqn:I; [elim NT; apply (jok_inf _ _ _ PR), I|].
      destruct (f_set_b32_over true f_default _ BL BB BV) as (m0 & m1 & m2 & m3 & m4 & m5 & m6 & m7 & m8 & m9 & -> & L & L9 & V). cbn [bind f_mag f_norm f_default].
      rewrite j_eq_x_var_debug; [reflexivity|]. apply f_verify_zero. revert L V BV. unfold lim26, val10. rewrite p_eq. intros. lia.
    + destruct (HD false NS) as (pr & PR & ->). destruct (j_inf pr) eqn:I; [elim NT; apply (jok_inf _ _ _ PR), I|].
      destruct (f_set_b32_over false f_default _ BL BB BV) as (m0 & m1 & m2 & m3 & m4 & m5 & m6 & m7 & m8 & m9 & -> & L & L9 & V). cbn [bind].
      rewrite be32_val in V by lia.
      destruct (pt (vpoint A z r s)) as [|X Y] eqn:PT; [elim NT; apply pt_inj; exact PT|]. pose proof (val_range X) as XR.
      assert (FR : frep 8 (Fe m0 m1 m2 m3 m4 m5 m6 m7 m8 m9 1 false) (toF r)).
      { split; [split; [unfold lim26 in L; cbn [fnn]; lia|]; split; [|cbn [f_mag]; lia] | unfold fe; cbn [fv]; rewrite V; reflexivity].
        unfold f_verify, lim26 in *. cbv zeta. repeat (apply andb_true_intro; split); try (apply Z.leb_le; lia). reflexivity. }
      rewrite fe_flags_release. destruct (wp_ex _ _ (j_eq_x_var_ok false pr _ _ _ _ _ PR PT FR)) as (e & -> & ->). cbn [bind].
      assert (VR : val (toF r) = r - p). { assert (2 ^ 256 < 2 * p) by (rewrite p_eq; reflexivity). rewrite val_toF. replace r with (r - p + 1 * p) at 1 by ring. rewrite Z.mod_add, Z.mod_small by lia. reflexivity. }
      destruct (feqb_spec (toF r) X) as [EX|NX].
      * exists true. split; [reflexivity|]. split; [|reflexivity]. intros _. exists X, Y. split; [reflexivity|]. rewrite <- EX. exact VR.
      * rewrite ge_order by (try exact L; lia). exists false. split; [reflexivity|]. split; [discriminate|]. intros (x & y & E0 & H). injection E0 as <- <-.
        elim NX. apply val_inj. rewrite VR, H. reflexivity.
Qed.
Lemma C68_verify_r_ge_p_pf : forall ctx k Q z r s, verify_ctx ctx -> key_at k Q -> Q <> Inf -> p <= r < 2 ^ 256 -> 0 <= s < 2 ^ 256 -> 0 <= z < 2 ^ 256 ->
  let R := padd (smul ((z * inv_mod n s) mod n) G) (smul ((r * inv_mod n s) mod n) Q) in
  (s = 0 \/ R = Inf -> forall dbg, verify dbg ctx (scalar_of z) (Sig (scalar_of r) (scalar_of s)) k = Some false) /\
  (forall x y, s <> 0 -> R = Aff x y -> verify true ctx (scalar_of z) (Sig (scalar_of r) (scalar_of s)) k = None /\
     verify false ctx (scalar_of z) (Sig (scalar_of r) (scalar_of s)) k = Some (x =? r - p)).
Proof.
  intros ctx k Q z r s HC HK N R S Z T. apply verify_ctx_ok in HC. destruct (key_exists _ _ HK) as (A & -> & HA). assert (NA : A <> e0) by (intros ->; apply N; reflexivity).
  destruct (verify_raw_huge ctx k A r s z HC HA NA R S Z) as [H1 H2]. unfold T. rewrite vpoint_sp. split.
  - intros H dbg. apply H1. destruct H as [H|H]; [left; exact H | right; apply sp_inf, H].
  - intros x y NS HT. destruct (H2 NS) as (HD & b & HB & VB). { intros E0. apply sp_inf in E0. rewrite E0 in HT. discriminate HT. }
    split; [exact HD|]. unfold verify. cbn [sig_r sig_s]. rewrite HB. f_equal. unfold sp in HT. destruct (pt (vpoint A z r s)) as [|u v]; [discriminate HT|]. cbn [spt] in HT. injection HT as <- <-.
    destruct (Z.eqb_spec (val u) (r - p)) as [E0|NE]; [apply VB; exists u, v; auto|]. destruct b; [|reflexivity]. elim NE. destruct (proj1 VB eq_refl) as (x & y & E0 & H). injection E0 as <- <-. exact H.
Qed.
(** the curve point with x = 1 *)
Definition one_y : Z := 29896722852569046015560700294576055776214335159245303116488692907525646231534.
Lemma one_on : on_curve (Aff 1 one_y). Proof. split; [vmr|]. split; [vmr|]. vm_compute. reflexivity. Qed.
Lemma huge_witness : exists z, 0 <= z < n /\ padd (smul ((z * inv_mod n 1) mod n) G) (smul (((p + 1) * inv_mod n 1) mod n) G) = Aff 1 one_y.
Proof.
  destruct (point_nonce _ _ one_on) as (k & K & HK). pose proof n_pos as NP. exists ((k - (p + 1)) mod n). split; [apply Z.mod_pos_bound; lia|].
  assert (W : inv_mod n 1 = 1) by (vm_compute; reflexivity). rewrite W, !Z.mul_1_r, Z.mod_mod by lia. rewrite smulG_add by (apply Z.mod_pos_bound; lia).
  rewrite <- HK. rewrite <- smulG_mod by (apply Z.add_nonneg_nonneg; apply Z.mod_pos_bound; lia). rewrite <- Zplus_mod. f_equal. replace (k - (p + 1) + (p + 1)) with k by ring. apply Z.mod_small. lia.
Qed.
Lemma C68_verify_r_ge_p_example_pf : (exists ctx, verify_ctx ctx) /\ key_at AFFINE_G G /\ G <> Inf /\ p <= p + 1 < 2 ^ 256 /\
  exists z, 0 <= z < n /\ padd (smul ((z * inv_mod n 1) mod n) G) (smul (((p + 1) * inv_mod n 1) mod n) G) = Aff 1 one_y.
Proof. destruct C68_verify_example_pf as (H1 & H2 & H3 & _). split; [exact H1|]. split; [exact H2|]. split; [exact H3|]. split; [vmr | exact huge_witness]. Qed.
(** The two builds disagree on such a signature: release accepts it, debug panics. *)
Lemma C68_builds_agree_refuted_pf : exists ctx z g, verify_ctx ctx /\ verify true ctx (scalar_of z) g AFFINE_G = None /\ verify false ctx (scalar_of z) g AFFINE_G = Some true.
Proof.
  destruct C68_verify_r_ge_p_example_pf as ((ctx & HC) & K & N & R & z & ZR & HZ). pose proof n_lt. exists ctx, z, (Sig (scalar_of (p + 1)) (scalar_of 1)). split; [exact HC|].
  destruct (C68_verify_r_ge_p_pf ctx AFFINE_G G z (p + 1) 1 HC K N R ltac:(lia) ltac:(lia)) as [_ H2]. destruct (H2 1 one_y ltac:(lia) HZ) as [HA HB]. split; [exact HA|]. rewrite HB.
  replace (p + 1 - p) with 1 by ring. reflexivity.
Qed.

(** ** Recovery *)
Definition recovers_any (z r s id : Z) (Q : point) : Prop := r <> 0 /\ s <> 0 /\ Q <> Inf /\
  exists x y, on_curve (Aff x y) /\ x = r + n * (id / 2) /\ y mod 2 = id mod 2 /\
    let ri := inv_mod n r in Q = padd (smul ((s * ri) mod n) (Aff x y)) (pneg (smul ((z * ri) mod n) G)).
Lemma recovers_any_log z r s id Q : 0 <= id < 4 -> (recovers_any z r s id Q <-> r <> 0 /\ s <> 0 /\ Q <> Inf /\ exists A, rpoint r id A /\ Q = sp (qpoint r s z A)).
Proof.
  intros ID. pose proof n_pos as NP.
  assert (QE : forall A, padd (smul ((s * inv_mod n r) mod n) (sp A)) (pneg (smul ((z * inv_mod n r) mod n) G)) = sp (qpoint r s z A)).
  { intros A. rewrite smulG by (apply Z.mod_pos_bound; lia). rewrite <- sp_mul by (apply Z.mod_pos_bound; lia). rewrite <- sp_opp, <- sp_add. unfold qpoint.
    rewrite (Z.mul_comm s), (Z.mul_comm z). rewrite !emul_mod, emul_opp, emul_mod. reflexivity. }
  unfold recovers_any. split; intros (R & S & N & H); (split; [exact R|]; split; [exact S|]; split; [exact N|]).
  - destruct H as (x & y & O & X & Y & HQ). cbv zeta in HQ. destruct (sp_surj _ O) as [A HA]. rewrite <- HA, QE in HQ. exists A. split; [|exact HQ].
    unfold sp in HA. destruct (pt A) as [|u v] eqn:P; [discriminate HA|]. cbn [spt] in HA. injection HA as HX HY. exists u, v. split; [exact P|]. rewrite HX, HY. auto.
  - destruct H as (A & (u & v & P & X & Y) & HQ). exists (val u), (val v). assert (EA : sp A = Aff (val u) (val v)) by (unfold sp; rewrite P; reflexivity).
    split; [rewrite <- EA; apply sp_on|]. split; [exact X|]. split; [exact Y|]. cbv zeta. rewrite <- EA, QE. exact HQ.
Qed.
(** Recovery with any s and z below 2^256 and any r below the field size: the key designated by the residues, with x = r + n*(id/2) as an integer. *)
Lemma C68_recover_pf : forall dbg ctx z r s id, verify_ctx ctx -> 0 <= r < p -> 0 <= s < 2 ^ 256 -> 0 <= z < 2 ^ 256 -> 0 <= id < 4 ->
  (exists k Q, recover dbg ctx (scalar_of z) (Sig (scalar_of r) (scalar_of s)) id = Some (Ok k) /\ key_at k Q /\ recovers_any z r s id Q) \/
  (recover dbg ctx (scalar_of z) (Sig (scalar_of r) (scalar_of s)) id = Some (Err InvalidSignature) /\ forall Q, ~ recovers_any z r s id Q).
Proof.
  intros dbg ctx z r s id HC R S Z ID. apply verify_ctx_ok in HC. destruct (wp_ex _ _ (recover_raw_any dbg ctx r s id z HC R S ID Z)) as ([k|e] & HR & H).
  - left. destruct H as (R1 & S1 & I & A & RP & NQ & KA). exists k, (sp (qpoint r s z A)). split; [exact HR|]. split; [apply key_aok, KA|]. apply recovers_any_log; [exact ID|].
    split; [lia|]. split; [lia|]. split; [intros E0; apply sp_inf in E0; contradiction|]. exists A. auto.
  - right. destruct H as [-> H]. split; [exact HR|]. intros Q HQ. apply recovers_any_log in HQ; [|exact ID]. destruct HQ as (R1 & S1 & NQ & A & RP & ->). apply H. split; [lia|]. split; [lia|].
    exists A. split; [exact RP|]. intros E0. apply NQ. rewrite E0. reflexivity.
Qed.
(** The same nonce point is designated by r = 1 + n in the plain form and by r = 1 with the overflow bit: but only the second designates a standard signature. *)
Lemma C68_recover_example_pf : (exists ctx, verify_ctx ctx) /\ 0 <= n < p /\ 0 <= n + 1 < 2 ^ 256 /\ forall Q id z, ~ recovers_any z n (n + 1) id Q.
Proof.
  destruct C68_verify_example_pf as (H1 & _). split; [exact H1|]. split; [vmr|]. split; [vmr|]. intros Q id z (_ & _ & N & x & y & _ & _ & _ & H). cbv zeta in H.
  assert (W : inv_mod n n = 0) by (vm_compute; reflexivity). rewrite W, !Z.mul_0_r, Z.mod_0_l, !smul_0 in H by (vm_compute; discriminate). exact (N H).
Qed.
(** With r at or above the field size the debug build panics. *)
Lemma C68_recover_r_ge_p_pf : forall ctx z r s id, p <= r < 2 ^ 256 -> 1 <= s < 2 ^ 256 -> recover true ctx z (Sig (scalar_of r) (scalar_of s)) id = None.
Proof.
  intros ctx z r s id R S. pose proof pnx as (PN & _ & _). pose proof n_pos. unfold recover, recover_raw. cbn [sig_r sig_s]. destruct (dassert true (id <? 4)) as [[]|]; [|reflexivity]. cbn [bind].
  rewrite !s_is_zero_eq by lia. rewrite (proj2 (Z.eqb_neq r 0)), (proj2 (Z.eqb_neq s 0)) by lia. cbn [orb]. change (bind (Some ?x) ?f) with (f x). cbv beta.
  rewrite s_b32_eq by lia. destruct (be32_bytes r) as [BL BB].
  assert (BV : p <= be_val (be_bytes 32 r)) by (rewrite be32_val by lia; lia).
  destruct (f_set_b32_over true f_default _ BL BB BV) as (m0 & m1 & m2 & m3 & m4 & m5 & m6 & m7 & m8 & m9 & -> & _). reflexivity.
Qed.
Lemma C68_recover_r_ge_p_example_pf : p <= p + 1 < 2 ^ 256 /\ 1 <= n + 1 < 2 ^ 256.
Proof. split; vmr. Qed.

(** ** Shared secrets *)
(** The debug build panics for every secret key that is not reduced. *)
Lemma C68_ecdh_debug_pf : forall D k d, n <= d < 2 ^ 256 -> shared_secret_new true D k (scalar_of d) = None.
Proof.
  intros D k d R. pose proof n_pos. unfold shared_secret_new, ecdh_raw. rewrite s_is_zero_eq by lia. rewrite (proj2 (Z.eqb_neq d 0)) by lia.
  assert (E0 : ecmult_const true k (scalar_of d) = None); [|rewrite E0; reflexivity]. unfold ecmult_const. change (WINDOW_A - 1) with 4. rewrite wnaf_debug by exact R. reflexivity.
Qed.
Lemma C68_ecdh_debug_example_pf : n <= n + 1 < 2 ^ 256.
Proof. vmr. Qed.
(** The release build computes a secret from another multiple: d - 2^256 in place of d. *)
Lemma C68_ecdh_release_pf : forall D k P d, key_at k P -> P <> Inf -> n <= d < 2 ^ 256 - 2 ->
  exists x y, smul ((d - 2 ^ 256) mod n) P = Aff x y /\ shared_secret_new false D k (scalar_of d) = Some (Ok (D (sec1_compressed x y))).
Proof.
  intros D k P d HK N R. pose proof n_pos as NP. pose proof n_lt as NL. pose proof n_big as NB. assert (N2 : 2 ^ 256 < 2 * n) by vmr.
  destruct (key_log k P HK N) as (e & RE & -> & HA). assert (NA : emul e eG <> e0) by (apply emul_nz, RE).
  unfold shared_secret_new, ecdh_raw. rewrite s_is_zero_eq by lia. rewrite (proj2 (Z.eqb_neq d 0)) by lia.
  destruct (wp_inv _ _ (wnaf_release d R)) as ([l skew] & HW & L & -> & DG & W). pose proof (bskew_cases d) as BC.
  assert (WR : - 2 ^ 256 < wsum 16 l < 2 ^ 256) by (rewrite W; lia).
  destruct (wp_ex _ _ (ecmult_const_from false k _ (scalar_of d) l (bskew d) HA NA HW L BC DG WR)) as (r & -> & J). cbn [bind].
  assert (EM : emul (wsum 16 l - bskew d) (emul e eG) = emul ((d - 2 ^ 256) mod n) (emul e eG)).
  { rewrite emul_mod. rewrite <- (emul_mod (wsum 16 l - bskew d)), <- (emul_mod (d - 2 ^ 256)). f_equal. rewrite W. replace (- (2 ^ 256 + n - (d + bskew d)) - bskew d) with (d - 2 ^ 256 + (-1) * n) by ring. apply Z.mod_add. lia. }
  rewrite EM in J. set (m := (d - 2 ^ 256) mod n) in *.
  assert (MV : m = d - 2 ^ 256 + n). { unfold m. replace (d - 2 ^ 256) with (d - 2 ^ 256 + n + (-1) * n) by ring. rewrite Z.mod_add, Z.mod_small by lia. ring. }
  apply jac_jok in J. rewrite sp_mul in J by lia.
  assert (NZ : smul m (sp (emul e eG)) <> Inf). { rewrite <- smulG by lia. rewrite smulG_mul, <- smulG_mod by nia. apply smulG_nz, mul_mod_n_nz; lia. }
  destruct (C50_set_gej_pf false r _ J) as (a & -> & HAA). cbn [bind]. destruct (smul m (sp (emul e eG))) as [|x y]; [contradiction|].
  exists x, y. split; [reflexivity|]. destruct HAA as (KX & KY & O & I & <- & <-). apply fok_frep in KX, KY.
  assert (VX : val (fe (af_x a)) = fv (af_x a) mod p) by apply val_toF. assert (VY : val (fe (af_y a)) = fv (af_y a) mod p) by apply val_toF.
  assert (FX : frep 31 (af_x a) (fe (af_x a))) by fr. assert (FY : frep 31 (af_y a) (fe (af_y a))) by fr.
  destruct (wp_ex _ _ (f_normalize_rep false _ _ FX)) as (px & -> & PX). cbn [bind]. destruct (wp_ex _ _ (f_normalize_rep false _ _ FY)) as (py & -> & PY). cbn [bind].
  destruct (wp_ex _ _ (f_b32_rep false px _ PX)) as (bx & -> & ->). cbn [bind]. destruct (wp_ex _ _ (f_is_odd_rep false py _ PY)) as (o & -> & ->). cbn [bind app].
  rewrite VX, VY. unfold sec1_compressed. set (y := fv (af_y a) mod p). rewrite odd_mod. pose proof (Z.mod_pos_bound y 2 ltac:(lia)). do 4 f_equal.
  destruct (Z.eqb_spec (y mod 2) 1) as [H1|H1]; [rewrite H1; reflexivity | replace (y mod 2) with 0 by lia; reflexivity].
Qed.
Lemma C68_ecdh_release_example_pf : key_at AFFINE_G G /\ G <> Inf /\ n <= n + 1 < 2 ^ 256 - 2.
Proof. split; [exact G_key|]. split; [discriminate | vmr]. Qed.
(** So the two parties of an exchange get different secrets when one key is not reduced. *)
Lemma C68_ecdh_symmetric_refuted_pf : exists ctx a b ka kb ma mb, gen_ctx ctx /\ sk_try_from (scalar_of a) = Ok (scalar_of a) /\ sk_try_from (scalar_of b) = Ok (scalar_of b) /\
  pk_from_secret_key false ctx (scalar_of a) = Some ka /\ pk_from_secret_key false ctx (scalar_of b) = Some kb /\ ma <> mb /\
  forall D, shared_secret_new false D ka (scalar_of b) = Some (Ok (D ma)) /\ shared_secret_new false D kb (scalar_of a) = Some (Ok (D mb)).
Proof.
  destruct C53_ecmult_gen_example_pf as (ctx & _ & HC). pose proof n_pos as NP. pose proof n_lt as NL.
  assert (RA : 0 <= n + 1 < 2 ^ 256) by vmr. assert (RB : 0 <= 1 < 2 ^ 256) by vmr. assert (RA2 : n <= n + 1 < 2 ^ 256 - 2) by vmr.
  destruct (C68_from_secret_key_pf false ctx (n + 1) HC RA) as (ka & HA & KA & _). destruct (C68_from_secret_key_pf false ctx 1 HC RB) as (kb & HB & KB & _).
  assert (EA : smul (n + 1) G = G) by (rewrite <- smulG_mod by lia; replace ((n + 1) mod n) with 1 by (vm_compute; reflexivity); apply smul_1; exact (key_on _ _ G_key)).
  assert (EB : smul 1 G = G) by (apply smul_1; exact (key_on _ _ G_key)). rewrite EA in KA. rewrite EB in KB. assert (NG : G <> Inf) by discriminate.
  assert (M2 : (n + 1 - 2 ^ 256) mod n = 2 * n + 1 - 2 ^ 256) by (vm_compute; reflexivity). assert (MR : 1 <= 2 * n + 1 - 2 ^ 256 < n) by vmr.
  destruct (nonce_pt _ MR) as (X & Y & _ & HP).
  exists ctx, (n + 1), 1, ka, kb, (sec1_compressed gx gy), (sec1_compressed (val X) (val Y)). split; [exact HC|].
  split; [unfold sk_try_from; rewrite s_is_zero_eq by exact RA; reflexivity|]. split; [unfold sk_try_from; rewrite s_is_zero_eq by exact RB; reflexivity|]. split; [exact HA|]. split; [exact HB|]. split.
  - intros E0. assert (OG : on_curve (Aff gx gy)) by exact (key_on _ _ G_key). assert (OX : on_curve (Aff (val X) (val Y))) by (rewrite <- HP, smulG by lia; apply sp_on).
    assert (EQ : Aff gx gy = Aff (val X) (val Y)). { exact (sec1_compressed_inj _ _ _ _ OG OX E0). }
    rewrite <- HP in EQ. change (Aff gx gy) with G in EQ. rewrite <- EB in EQ at 1. rewrite !smulG in EQ by lia. apply sp_inj in EQ. apply emulG_eqn in EQ. apply eqn_small in EQ; [revert EQ; vm_compute; discriminate | vmr | lia].
  - intros D. destruct (C37_ecdh_pf false D ka G 1 KA NG ltac:(lia)) as [_ H1]. destruct (H1 ltac:(lia)) as (x & y & E1 & H2). rewrite EB in E1. injection E1 as <- <-. split; [exact H2|].
    destruct (C68_ecdh_release_pf D kb G (n + 1) KB NG RA2) as (x & y & E1 & H3). rewrite M2, HP in E1. injection E1 as <- <-. exact H3.
Qed.

(** ** Tweaks and normalisation *)
(** Adding to a secret key: the sum, less n if it reaches n, modulo 2^256. *)
Lemma C68_tweak_add_pf : forall dbg k t, 0 <= k < 2 ^ 256 -> 0 <= t < 2 ^ 256 ->
  let v := if n <=? k + t then (k + t - n) mod 2 ^ 256 else k + t in
  sk_tweak_add_assign dbg (scalar_of k) (scalar_of t) = Some (if v =? 0 then (scalar_of k, Err TweakOutOfRange) else (scalar_of v, Ok tt)).
Proof.
  intros dbg k t K T v. pose proof n_lt. unfold sk_tweak_add_assign. rewrite s_add_any by assumption. cbn [bind]. change (radd k t) with v.
  assert (0 <= v < 2 ^ 256) by (unfold v; destruct (Z.leb_spec n (k + t)); [apply Z.mod_pos_bound; reflexivity | lia]). rewrite s_is_zero_eq by assumption. destruct (v =? 0); reflexivity.
Qed.
Lemma C68_tweak_add_example_pf : 0 <= n + 1 < 2 ^ 256 /\ 0 <= 2 ^ 256 - 1 < 2 ^ 256.
Proof. split; vmr. Qed.
(** Two keys accepted by [try_from] whose tweaked sum is not congruent to their sum. *)
Lemma C68_tweak_add_refuted_pf : exists k t v, sk_try_from (scalar_of k) = Ok (scalar_of k) /\ sk_try_from (scalar_of t) = Ok (scalar_of t) /\ 0 <= v < 2 ^ 256 /\
  (forall dbg, sk_tweak_add_assign dbg (scalar_of k) (scalar_of t) = Some (scalar_of v, Ok tt)) /\ v mod n <> (k + t) mod n.
Proof.
  assert (R : 0 <= 2 ^ 256 - 1 < 2 ^ 256) by vmr. exists (2 ^ 256 - 1), (2 ^ 256 - 1), (2 ^ 256 - 2 - n).
  assert (T : sk_try_from (scalar_of (2 ^ 256 - 1)) = Ok (scalar_of (2 ^ 256 - 1))) by (unfold sk_try_from; rewrite s_is_zero_eq by exact R; reflexivity).
  split; [exact T|]. split; [exact T|]. split; [vmr|]. split; [|vm_compute; discriminate]. intros dbg. rewrite (C68_tweak_add_pf dbg _ _ R R).
  assert (EV : (if n <=? 2 ^ 256 - 1 + (2 ^ 256 - 1) then (2 ^ 256 - 1 + (2 ^ 256 - 1) - n) mod 2 ^ 256 else 2 ^ 256 - 1 + (2 ^ 256 - 1)) = 2 ^ 256 - 2 - n) by (vm_compute; reflexivity).
  rewrite EV, (proj2 (Z.eqb_neq _ 0)) by (vm_compute; discriminate). reflexivity.
Qed.
(** Multiplication reduces; but the tweak n, which is not the zero scalar, succeeds and leaves the zero key. *)
Lemma C68_tweak_mul_pf : forall dbg k t, 0 <= k < 2 ^ 256 -> 1 <= t < 2 ^ 256 -> sk_tweak_mul_assign dbg (scalar_of k) (scalar_of t) = Some (scalar_of ((k * t) mod n), Ok tt).
Proof. intros dbg k t K T. unfold sk_tweak_mul_assign. rewrite s_is_zero_eq by lia. rewrite (proj2 (Z.eqb_neq t 0)) by lia. rewrite s_mul_eq by lia. reflexivity. Qed.
Lemma C68_tweak_mul_example_pf : 0 <= 1 < 2 ^ 256 /\ 1 <= n < 2 ^ 256 /\ (1 * n) mod n = 0.
Proof. split; [vmr|]. split; [vmr | vm_compute; reflexivity]. Qed.
(** Normalising a signature whose s exceeds n: s becomes 2^256 + n - s, which still is high and denotes another residue than n - s. *)
Lemma C68_normalize_s_pf : forall dbg r s, n < s < 2 ^ 256 -> sig_normalize_s dbg (Sig r (scalar_of s)) = Some (Sig r (scalar_of (2 ^ 256 + n - s))) /\
  s_is_high (scalar_of (2 ^ 256 + n - s)) = true /\ (2 ^ 256 + n - s) mod n <> (- s) mod n.
Proof.
  intros dbg r s S. pose proof n_pos as NP. pose proof n_lt as NL. assert (HH : 0 < (n - 1) / 2 < n) by vmr. unfold sig_normalize_s. cbn [sig_s sig_r].
  rewrite !s_is_high_eq by lia. rewrite !(proj2 (Z.leb_le _ _)) by lia. rewrite s_neg_any by lia. cbn [bind]. unfold rneg. rewrite (proj2 (Z.eqb_neq s 0)) by lia.
  replace (n - s) with (2 ^ 256 + n - s + (-1) * 2 ^ 256) by ring. rewrite Z.mod_add, Z.mod_small by lia. split; [reflexivity|]. split; [reflexivity|].
  intros E0. replace (2 ^ 256 + n - s) with (- s + 2 ^ 256 + 1 * n) in E0 by ring. rewrite Z.mod_add in E0 by lia.
  assert (E1 : (- s + 2 ^ 256 - - s) mod n = 0) by (rewrite Zminus_mod, E0, Z.sub_diag; apply Z.mod_0_l; lia). replace (- s + 2 ^ 256 - - s) with (2 ^ 256) in E1 by ring. revert E1. vm_compute. discriminate.
Qed.
Lemma C68_normalize_s_example_pf : n < n + 1 < 2 ^ 256.
Proof. vmr. Qed.

(** ** Public-key tweaks *)
Lemma ones_div S bit : S / 2 ^ 129 = 2 ^ 127 - 1 -> 129 <= bit <= 256 -> S / 2 ^ bit = 2 ^ (256 - bit) - 1.
Proof.
  intros H B. replace bit with (129 + (bit - 129)) at 1 by lia. rewrite Z.pow_add_r by lia. rewrite <- Z.div_div by (try apply Z.pow_nonzero; try apply Z.pow_pos_nonneg; lia). rewrite H.
  assert (P : 2 ^ 127 = 2 ^ (bit - 129) * 2 ^ (256 - bit)) by (rewrite <- Z.pow_add_r by lia; f_equal; lia). rewrite P.
  assert (0 < 2 ^ (bit - 129)) by (apply Z.pow_pos_nonneg; lia). symmetry. apply (Z.div_unique _ _ _ (2 ^ (bit - 129) - 1)); lia.
Qed.
Lemma ones_bits S bit c : S / 2 ^ 129 = 2 ^ 127 - 1 -> 129 <= bit -> 0 <= c -> bit + c <= 256 -> (S / 2 ^ bit) mod 2 ^ c = 2 ^ c - 1.
Proof.
  intros H B C BC. rewrite ones_div by (assumption || lia). assert (P : 2 ^ (256 - bit) = 2 ^ (256 - bit - c) * 2 ^ c) by (rewrite <- Z.pow_add_r by lia; f_equal; lia). rewrite P.
  assert (0 < 2 ^ c) by (apply Z.pow_pos_nonneg; lia). symmetry. apply (Z.mod_unique _ _ (2 ^ (256 - bit - c) - 1)); [left; lia | ring].
Qed.
Lemma land1_bit a : Z.land a 1 = 0 \/ Z.land a 1 = 1.
Proof. change (Z.land a 1) with (Z.land a (Z.ones 1)). rewrite Z.land_ones by lia. change (2 ^ 1) with 2. pose proof (Z.mod_pos_bound a 2). lia. Qed.
(** the leading ones of the number to recode leave a carry *)
Lemma wnaf_loop_carry dbg s w sign : s_u s -> 2 <= w <= 30 -> sv s / 2 ^ 129 = 2 ^ 127 - 1 -> forall fuel bit carry last l r,
  0 <= bit -> (carry = 0 \/ carry = 1) -> (bit < 129 + w \/ carry = 1) -> wnaf_loop dbg fuel s 256 w sign bit carry last l = Some r -> snd (fst r) = 1.
Proof.
  intros SU W ON. induction fuel as [|fuel IH]; intros bit carry last l r B C I; cbn [wnaf_loop].
  { destruct (Z.ltb_spec bit 256) as [L|L]; [discriminate|]. intros H. injection H as <-. cbn [fst snd]. destruct I as [I|I]; [lia | exact I]. }
  destruct (Z.ltb_spec bit 256) as [L|L]; [|intros H; injection H as <-; cbn [fst snd]; destruct I as [I|I]; [lia | exact I]].
  assert (BE : (bit + 1 - 1) / 32 = bit / 32) by (f_equal; lia).
  destruct (wp_inv _ _ (s_bits_ok dbg s bit 1 SU B ltac:(lia) ltac:(lia) BE)) as (b & -> & EB). cbn [bind].
  destruct (Z.lt_ge_cases bit 129) as [LO|HI].
  - destruct (Z.eqb_spec b carry) as [EQ|NE]; [apply IH; lia|]. change (bind (Some ?x) ?f) with (f x). cbv beta.
    rewrite (proj2 (Z.ltb_ge (256 - bit) w)) by lia.
    destruct (s_bits_var dbg s bit w) as [bv|]; [|discriminate]. cbn [bind]. destruct (ichk dbg (bv + carry)) as [word|]; [|discriminate]. cbn [bind].
    match goal with |- context [ichk dbg ?e] => destruct (ichk dbg e) as [wd|]; [|discriminate] end. cbn [bind].
    destruct (ichk dbg (sign * wd)) as [v|]; [|discriminate]. cbn [bind]. destruct (upd l bit v) as [l'|]; [|discriminate]. cbn [bind]. apply IH; [lia | apply land1_bit | lia].
  - rewrite ones_bits in EB by (assumption || lia). change (2 ^ 1 - 1) with 1 in EB. subst b. destruct (Z.eqb_spec 1 carry) as [EQ|NE]; [apply IH; lia|].
    destruct I as [I|I]; [|congruence]. change (bind (Some ?x) ?f) with (f x). cbv beta. rewrite (proj2 (Z.ltb_ge (256 - bit) w)) by lia.
    destruct (wp_inv _ _ (s_bits_var_ok dbg s bit w SU B ltac:(lia) ltac:(lia))) as (bv & -> & BV). cbn [bind]. rewrite ones_bits in BV by (assumption || lia).
    destruct (ichk dbg (bv + carry)) as [word|] eqn:EW; [|discriminate]. cbn [bind].
    match goal with |- context [ichk dbg ?e] => destruct (ichk dbg e) as [wd|]; [|discriminate] end. cbn [bind].
    destruct (ichk dbg (sign * wd)) as [v|]; [|discriminate]. cbn [bind]. destruct (upd l bit v) as [l'|]; [|discriminate]. cbn [bind].
    destruct C as [->|C]; [|congruence].
    apply IH; [lia | apply land1_bit |]. right. assert (PW : 2 ^ w = 2 * 2 ^ (w - 1)) by (rewrite <- Z.pow_succ_r by lia; f_equal; lia).
    assert (P1 : 0 < 2 ^ (w - 1) /\ 2 ^ w <= 2 ^ 30) by (split; [apply Z.pow_pos_nonneg; lia | apply Z.pow_le_mono_r; lia]). change (2 ^ 30) with 1073741824 in P1.
    rewrite ichk_small in EW by lia. injection EW as <-. rewrite Z.shiftr_div_pow2 by lia.
    assert (Q : (bv + 0) / 2 ^ (w - 1) = 1) by (symmetry; apply (Z.div_unique _ _ 1 (2 ^ (w - 1) - 1)); lia). rewrite Q. reflexivity.
Qed.
(** recoding a scalar t >= n: the sum is right because the leftover carry stands for 2^256, which the negation had added *)
Lemma wnaf_big dbg t w : n <= t < 2 ^ 256 -> 2 <= w <= 30 ->
  (n < t -> dbg = true -> ecmult_wnaf dbg 256 (scalar_of t) w = None) /\ (t = n \/ dbg = false -> recodes dbg w (scalar_of t) t).
Proof.
  intros T W. pose proof n_big as NB. pose proof n_lt as NL. pose proof n_pos as NP. assert (N255 : 2 ^ 255 < n) by vmr.
  assert (P255 : 2 ^ 256 = 2 * 2 ^ 255) by reflexivity.
  assert (RN : 0 <= rneg t < 2 ^ 256) by (unfold rneg; destruct (t =? 0); [lia | apply Z.mod_pos_bound; lia]).
  set (s := scalar_of (rneg t)). assert (SU : s_u s) by apply scalar_of_u. assert (SV : sv s = rneg t) by (apply scalar_of_sv, RN).
  assert (SB : t <> n -> rneg t = 2 ^ 256 + n - t).
  { intros NE. unfold rneg. rewrite (proj2 (Z.eqb_neq t 0)) by lia. replace (n - t) with (2 ^ 256 + n - t + (-1) * 2 ^ 256) by ring. rewrite Z.mod_add, Z.mod_small by lia. reflexivity. }
  assert (SN : t = n -> rneg t = 0). { intros ->. unfold rneg. rewrite (proj2 (Z.eqb_neq n 0)) by lia. rewrite Z.sub_diag. reflexivity. }
  assert (ON : t <> n -> sv s / 2 ^ 129 = 2 ^ 127 - 1).
  { intros NE. rewrite SV, (SB NE). symmetry. assert (n0 : 2 ^ 256 - 2 ^ 129 <= n) by vmr. assert (2 ^ 256 = 2 ^ 127 * 2 ^ 129) by reflexivity.
    apply (Z.div_unique _ _ _ (2 ^ 256 + n - t - 2 ^ 129 * (2 ^ 127 - 1))); [left; lia | ring]. }
  assert (HEAD : ecmult_wnaf dbg 256 (scalar_of t) w =
    let* '(wnaf, bit, carry, last) := wnaf_loop dbg (Z.to_nat 256) s 256 w (-1) 0 0 (-1) (repeat 0 (Z.to_nat 256)) in
    dassert dbg (carry =? 0) ;; (if dbg then let* t := high_bits_zero dbg 256 s bit in dassert dbg t else Some tt) ;; Some (wnaf, last + 1)).
  { unfold ecmult_wnaf. rewrite bda by reflexivity. rewrite bda by (apply andb_true_intro; split; apply Z.leb_le; lia).
    destruct (wp_inv _ _ (s_bits_ok dbg (scalar_of t) 255 1 (scalar_of_u t) ltac:(lia) ltac:(lia) ltac:(lia) eq_refl)) as (b & -> & EB). cbn [bind].
    rewrite scalar_of_sv in EB by lia. assert (b = 1).
    { rewrite EB. assert (Q : t / 2 ^ 255 = 1) by (symmetry; apply (Z.div_unique _ _ _ (t - 2 ^ 255)); lia). rewrite Q. reflexivity. }
    clear EB. subst b. change (0 <? 1) with true. cbn match. rewrite s_neg_any by lia. cbn [bind]. reflexivity. }
  assert (I0 : winv s w (-1) 0 0 (-1) (repeat 0 (Z.to_nat 256))).
  { unfold winv. rewrite wsum_zeros, repeat_length. rewrite Z.pow_0_r, Z.mod_1_r. split; [lia|]. split; [lia|]. split; [lia|]. split; [lia|]. split; [lia|]. split; [lia|].
    split; [intros; apply digit_zeros|]. split; [intros; apply digit_zeros|]. split; [intros; left; apply digit_zeros|]. split; intros *; rewrite !digit_zeros; congruence. }
  pose proof (wnaf_loop_ok dbg s w (-1) SU ltac:(lia) ltac:(lia) ltac:(auto) (Z.to_nat 256) 0 0 (-1) _ I0 ltac:(lia)) as WL.
  apply wp_inv in WL. destruct WL as ([[[l bit] carry] last] & EL & -> & B & C & LA & LEN & SUM & TOPC & Z1 & Z2 & DG & _ & SP2).
  unfold recodes. rewrite HEAD, EL. change (bind (Some ?x) ?f) with (f x). cbv beta match.
  assert (CA : t <> n -> carry = 1).
  { intros NE. exact (wnaf_loop_carry dbg s w (-1) SU W (ON NE) _ 0 0 (-1) _ _ ltac:(lia) ltac:(auto) ltac:(lia) EL). }
  rewrite SV in SUM, TOPC. rewrite (Z.mod_small (rneg t) (2 ^ 256)) in SUM, TOPC by lia.
  assert (CN : t = n -> carry = 0). { intros E. destruct C as [C|C]; [exact C|]. destruct (TOPC C) as [_ TC]. rewrite (SN E) in TC. lia. }
  split; [intros LT D; rewrite D, (CA ltac:(lia)); reflexivity|].
  intros H.
  assert (ws : wsum 2 l mod n = t mod n).
  { destruct (Z.eq_dec t n) as [E|NE].
    - rewrite (CN E), (SN E) in SUM. replace (wsum 2 l) with 0 by lia. rewrite E, Z.mod_same, Z.mod_0_l by lia. reflexivity.
    - rewrite (CA NE), (SB NE) in SUM. replace (wsum 2 l) with (t + (-1) * n) by lia. apply Z.mod_add. lia. }
  assert (R : (dassert dbg (carry =? 0) ;; (if dbg then let* t := high_bits_zero dbg 256 s 256 in dassert dbg t else Some tt) ;; Some (l, last + 1)) = Some (l, last + 1)).
  { destruct H as [E| ->]; [|reflexivity]. rewrite (CN E). rewrite bda by reflexivity. assert (HB : high_bits_zero dbg 256 s 256 = Some true) by reflexivity. rewrite HB. destruct dbg; reflexivity. }
  rewrite R. cbn [wp]. split; [exact LEN|]. split; [lia|]. split; [exact ws|]. split; [intros i Hi; apply Z2; lia | exact DG].
Qed.

Lemma ecmult_any dbg ctx j P na ng m k : verify_ctx ctx -> jac_at j P -> P <> Inf -> 0 <= m -> 0 <= k -> recodes dbg WINDOW_A na m -> recodes dbg WINDOW_G ng k ->
  exists r, ecmult dbg ctx j na ng = Some r /\ jac_at r (padd (smul m P) (smul k G)).
Proof.
  intros HC HJ N M K HA HG. apply verify_ctx_ok in HC. destruct (jac_exists _ _ HJ) as (A & -> & JA).
  assert (NA : A <> e0) by (intros ->; apply N; reflexivity).
  destruct (wp_ex _ _ (ecmult_from dbg ctx j A m k na ng HC JA NA HA HG)) as (r & -> & R). exists r. split; [reflexivity|].
  rewrite smul_sp, smul_G, <- sp_add by lia. apply jac_jok, R.
Qed.
(** A tweak that is not reduced added to a public key.  Without assertions the result is P + t*G for every t below 2^256; with assertions the call panics for every t above n. *)
Lemma C68_public_tweak_add_pf : forall dbg ctx k P t, verify_ctx ctx -> key_at k P -> P <> Inf -> n <= t < 2 ^ 256 ->
  (t <> n -> dbg = true -> pk_tweak_add_assign dbg ctx k (scalar_of t) = None) /\
  (t = n \/ dbg = false -> (padd P (smul t G) = Inf -> pk_tweak_add_assign dbg ctx k (scalar_of t) = Some (k, Err TweakOutOfRange)) /\
    (padd P (smul t G) <> Inf -> exists k', pk_tweak_add_assign dbg ctx k (scalar_of t) = Some (k', Ok tt) /\ aff_at 1 k' (padd P (smul t G)))).
Proof.
  intros dbg ctx k P t HC HK N T. assert (T0 : 0 <= t) by (pose proof n_pos; lia). assert (O : 0 <= 1 < n) by vmr.
  destruct (wnaf_big dbg t WINDOW_G T ltac:(unfold WINDOW_G; lia)) as [WD WR].
  unfold pk_tweak_add_assign. destruct (set_ge_key dbg k P HK) as (j & -> & J). cbn [bind]. change (s_from_int 1) with (scalar_of 1).
  change (bind (Some (scalar_of 1)) ?f) with (f (scalar_of 1)). cbv beta. split.
  - intros NE D. assert (E : ecmult dbg ctx j (scalar_of 1) (scalar_of t) = None).
    { destruct ctx as [tg]. unfold ecmult. destruct (jac_exists _ _ J) as (A & -> & JA). assert (NA : A <> e0) by (intros ->; apply N; reflexivity).
      destruct (wp_inv _ _ (recodes_ok dbg WINDOW_A 1 O ltac:(unfold WINDOW_A; lia))) as ([wa ba] & -> & _). change (bind (Some ?x) ?f) with (f x). cbv beta match.
      destruct (wp_inv _ _ (table_windowa_ok dbg j A JA NA)) as ([ta z] & -> & _). change (bind (Some ?x) ?f) with (f x). cbv beta match.
      rewrite WD by (assumption || lia). reflexivity. }
    rewrite E. reflexivity.
  - intros H. destruct (ecmult_any dbg ctx j P (scalar_of 1) (scalar_of t) 1 t HC J N ltac:(lia) T0 (recodes_ok dbg WINDOW_A 1 O ltac:(unfold WINDOW_A; lia)) (WR H)) as (r & -> & R).
    cbn [bind]. rewrite smul_1 in R by exact (key_on _ _ HK). pose proof (jac_inf _ _ R) as RI. split.
    + intros E0. rewrite (proj2 RI E0). reflexivity.
    + intros NE. destruct (j_inf r) eqn:IR; [elim NE; apply RI; reflexivity|]. destruct (C50_set_gej_pf dbg r _ R) as (a & -> & HA). exists a. split; [reflexivity | exact HA].
Qed.
Lemma C68_public_tweak_add_example_pf : (exists ctx, verify_ctx ctx) /\ key_at AFFINE_G G /\ G <> Inf /\ n <= n + 1 < 2 ^ 256 /\ n + 1 <> n /\ padd G (smul (n + 1) G) <> Inf.
Proof.
  split; [exact (proj1 C34_public_tweak_add_example_pf)|]. split; [exact G_key|]. split; [discriminate|]. split; [vmr|]. pose proof n_pos. split; [lia|].
  rewrite <- (smul_1 G G_on) at 1. rewrite smulG_add, <- smulG_mod by lia. apply smulG_nz. vmr.
Qed.
(** Multiplying: likewise; and the tweak n is accepted in both builds, leaving a public key at infinity. *)
Lemma C68_public_tweak_mul_pf : forall dbg ctx k P t, verify_ctx ctx -> key_at k P -> P <> Inf -> n <= t < 2 ^ 256 ->
  (t <> n -> dbg = true -> pk_tweak_mul_assign dbg ctx k (scalar_of t) = None) /\
  (t = n \/ dbg = false -> exists k', pk_tweak_mul_assign dbg ctx k (scalar_of t) = Some (k', Ok tt) /\ aff_at 1 k' (smul t P)).
Proof.
  intros dbg ctx k P t HC HK N T. pose proof n_pos as NP. pose proof n_lt as NL. assert (O : 0 <= 0 < n) by vmr.
  destruct (wnaf_big dbg t WINDOW_A T ltac:(unfold WINDOW_A; lia)) as [WD WR].
  unfold pk_tweak_mul_assign. rewrite s_is_zero_eq by lia. rewrite (proj2 (Z.eqb_neq t 0)) by lia.
  change (s_from_int 0) with (scalar_of 0). change (bind (Some (scalar_of 0)) ?f) with (f (scalar_of 0)). cbv beta.
  destruct (set_ge_key dbg k P HK) as (j & -> & J). cbn [bind]. split.
  - intros NE D. assert (E : ecmult dbg ctx j (scalar_of t) (scalar_of 0) = None) by (destruct ctx as [tg]; unfold ecmult; rewrite WD by (assumption || lia); reflexivity).
    rewrite E. reflexivity.
  - intros H. destruct (ecmult_any dbg ctx j P (scalar_of t) (scalar_of 0) t 0 HC J N ltac:(lia) ltac:(lia) (WR H) (recodes_ok dbg WINDOW_G 0 O ltac:(unfold WINDOW_G; lia))) as (r & -> & R).
    cbn [bind]. rewrite smul_0, padd_inf_r in R. destruct (C50_set_gej_pf dbg r _ R) as (a & -> & HA). exists a. split; [reflexivity | exact HA].
Qed.
Lemma C68_public_tweak_mul_example_pf : (exists ctx, verify_ctx ctx) /\ key_at AFFINE_G G /\ G <> Inf /\ n <= n + 1 < 2 ^ 256 /\ n + 1 <> n.
Proof. destruct C68_public_tweak_add_example_pf as (H1 & H2 & H3 & H4 & H5 & _). auto. Qed.
(** A key accepted by [try_from] used as a tweak makes a successful call return the point at infinity. *)
Lemma C68_tweak_mul_finite_refuted_pf : exists ctx t, verify_ctx ctx /\ sk_try_from (scalar_of t) = Ok (scalar_of t) /\
  forall dbg, exists k', pk_tweak_mul_assign dbg ctx AFFINE_G (scalar_of t) = Some (k', Ok tt) /\ af_inf k' = true.
Proof.
  destruct (proj1 C34_public_tweak_add_example_pf) as (ctx & HC). pose proof n_lt as NL. pose proof n_pos as NP. exists ctx, n. split; [exact HC|]. split.
  - unfold sk_try_from. rewrite s_is_zero_eq by lia. rewrite (proj2 (Z.eqb_neq n 0)) by lia. reflexivity.
  - intros dbg. destruct (C68_public_tweak_mul_pf dbg ctx AFFINE_G G n HC G_key ltac:(discriminate) ltac:(lia)) as [_ H]. destruct (H (or_introl eq_refl)) as (k' & E & K). exists k'. split; [exact E|].
    rewrite <- smulG_mod, Z.mod_same in K by lia. change (smul 0 G) with Inf in K. apply (key_inf _ _ (key_mono _ _ K)). reflexivity.
Qed.
