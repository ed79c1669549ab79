(** Property theorems proved in ApiResidue.v (written by tools/gen_props.py). *)
From Coq Require Import Znumtheory Field.
From Verif Require Import Word MField MScalar MGroup MEcmult MEcdsa MCore MApi MResidue Residue WP FieldMul FieldNorm Spec Fp Bits FieldOps FieldCodec FieldStore ScalarMul ScalarOps ScalarMore ScalarBits Denote Unred Curve Group Chain Order Jac JacOps Table Ecmult Lift Gen Key Ctx ApiScalar ApiPub ApiGroup Ecdsa ApiEcdsa ApiKeys ApiGen ApiEq ApiResidue.

(** * C89 *)
Theorem C89_same_results : forall dbg keep,
  (forall ctx k, res (ecmult_gen_r dbg keep ctx k) = ecmult_gen dbg ctx k) /\
  (forall ctx d m k, res (sign_raw_r dbg keep ctx d m k) = sign_raw dbg ctx d m k) /\
  (forall drbg fuel ctx m d, ores (sign_r dbg keep drbg fuel ctx m d) = sign dbg drbg fuel ctx m d) /\
  (forall D P d, res (ecdh_raw_r dbg D P d) = ecdh_raw dbg D P d) /\
  (forall fuel rng, ores (sk_random_r dbg fuel rng 0) = sk_random dbg fuel rng 0).
Proof. exact C89_same_results_pf. Qed.
Print Assumptions C89_same_results.

(** Whatever the table holds: the entry of its last row that was added last stays, and with it the top four bits of the blinded scalar;
    the blinded scalar itself is always zeroed, the copy of the entry and the index only if dead stores are executed. *)
Theorem C89_multiplication : forall dbg keep prec row b ini k r l, length prec = 64%nat -> nth_error prec 63 = Some row -> length row = 16%nat -> 0 <= b < n -> 0 <= k < n ->
  ecmult_gen_r dbg keep (GCtx prec (scalar_of b) ini) (scalar_of k) = Some (r, l) ->
  gl_gnb l = scalar_of 0 /\ nth_error row (Z.to_nat (top4 ((k + b) mod n))) = Some (gl_adds l) /\
  gl_add l = (if keep then zero_af else af_from_storage (gl_adds l)) /\ gl_bits l = (if keep then 0 else top4 ((k + b) mod n)).
Proof. exact C89_multiplication_pf. Qed.
Print Assumptions C89_multiplication.

Example C89_multiplication_example : exists prec row b ini, length prec = 64%nat /\ nth_error prec 63 = Some row /\ length row = 16%nat /\ 0 <= b < n /\
  forall dbg keep, exists r l, ecmult_gen_r dbg keep (GCtx prec (scalar_of b) ini) (scalar_of 1) = Some (r, l).
Proof. exact C89_multiplication_example_pf. Qed.

(** In a right context the leftover tells the top four bits of the blinded scalar and nothing else. *)
Theorem C89_four_bits : forall dbg keep prec b ini k1 k2 r1 l1 r2 l2, gen_ctx (GCtx prec (scalar_of b) ini) -> 0 <= b < n -> 0 <= k1 < n -> 0 <= k2 < n ->
  ecmult_gen_r dbg keep (GCtx prec (scalar_of b) ini) (scalar_of k1) = Some (r1, l1) -> ecmult_gen_r dbg keep (GCtx prec (scalar_of b) ini) (scalar_of k2) = Some (r2, l2) ->
  (l1 = l2 <-> top4 ((k1 + b) mod n) = top4 ((k2 + b) mod n)).
Proof. exact C89_four_bits_pf. Qed.
Print Assumptions C89_four_bits.

Example C89_four_bits_example : exists ctx b k1 k2, gen_ctx ctx /\ (exists prec ini, ctx = GCtx prec (scalar_of b) ini) /\ 0 <= b < n /\ 0 <= k1 < n /\ 0 <= k2 < n /\ top4 ((k1 + b) mod n) <> top4 ((k2 + b) mod n) /\
  forall dbg keep, (exists r l, ecmult_gen_r dbg keep ctx (scalar_of k1) = Some (r, l)) /\ exists r l, ecmult_gen_r dbg keep ctx (scalar_of k2) = Some (r, l).
Proof. exact C89_four_bits_example_pf. Qed.

(** That the multiplication leaves nothing that depends on the scalar is false, even if every store is executed. *)
Theorem C89_multiplication_clean_refuted : exists ctx k1 k2, gen_ctx ctx /\ 1 <= k1 < n /\ 1 <= k2 < n /\ forall dbg, exists r1 l1 r2 l2,
  ecmult_gen_r dbg true ctx (scalar_of k1) = Some (r1, l1) /\ ecmult_gen_r dbg true ctx (scalar_of k2) = Some (r2, l2) /\ l1 <> l2.
Proof. exact C89_multiplication_clean_refuted_pf. Qed.
Print Assumptions C89_multiplication_clean_refuted.

(** What one run of the inner signing function leaves besides its callee's variables. *)
Theorem C89_sign_raw : forall dbg keep ctx d z k r s id l, gen_ctx ctx -> 0 <= d < n -> 0 <= z < n -> 1 <= k < n ->
  sign_raw_r dbg keep ctx (scalar_of d) (scalar_of z) (scalar_of k) = Some (Ok (r, s, id), l) ->
  rl_n l = scalar_of 0 /\ rl_sigr l = r /\ rl_sigs l = s /\ rl_recid l = id /\ rl_overflow l = (2 <=? id) /\ rl_b l = be_bytes 32 (sv r + n * (id / 2)) /\
  (if keep then rl_rp l = zero_jac /\ rl_r l = zero_af else jac_at (rl_rp l) (smul k G) /\ key_at (rl_r l) (smul k G)) /\
  exists rp, ecmult_gen_r dbg keep ctx (scalar_of k) = Some (rp, rl_gen l).
Proof. exact C89_sign_raw_pf. Qed.
Print Assumptions C89_sign_raw.

Example C89_sign_raw_example : exists ctx, gen_ctx ctx /\ 0 <= 1 < n /\ 1 <= 1 < n /\
  forall dbg keep, exists r s id l, sign_raw_r dbg keep ctx (scalar_of 1) (scalar_of 1) (scalar_of 1) = Some (Ok (r, s, id), l).
Proof. exact C89_sign_raw_example_pf. Qed.

(** So with all stores executed its own variables are a function of the signature it returned: they tell nothing the signature does not. *)
Theorem C89_sign_raw_clean : forall dbg dbg' ctx ctx' d z k d' z' k' v l l', gen_ctx ctx -> gen_ctx ctx' -> 0 <= d < n -> 0 <= z < n -> 1 <= k < n -> 0 <= d' < n -> 0 <= z' < n -> 1 <= k' < n ->
  sign_raw_r dbg true ctx (scalar_of d) (scalar_of z) (scalar_of k) = Some (Ok v, l) -> sign_raw_r dbg' true ctx' (scalar_of d') (scalar_of z') (scalar_of k') = Some (Ok v, l') ->
  rl_rp l = rl_rp l' /\ rl_r l = rl_r l' /\ rl_b l = rl_b l' /\ rl_sigr l = rl_sigr l' /\ rl_overflow l = rl_overflow l' /\ rl_recid l = rl_recid l' /\ rl_n l = rl_n l' /\ rl_sigs l = rl_sigs l'.
Proof. exact C89_sign_raw_clean_pf. Qed.
Print Assumptions C89_sign_raw_clean.

Example C89_sign_raw_clean_example : exists ctx, gen_ctx ctx /\ 0 <= 1 < n /\ 1 <= 1 < n /\ 0 <= 2 < n /\ 0 <= z_two < n /\
  forall dbg, exists v l l', sign_raw_r dbg true ctx (scalar_of 1) (scalar_of 1) (scalar_of 1) = Some (Ok v, l) /\ sign_raw_r dbg true ctx (scalar_of 2) (scalar_of z_two) (scalar_of 1) = Some (Ok v, l').
Proof. exact C89_sign_raw_clean_example_pf. Qed.

(** After signing, the secret key and the nonce are in local variables in both cases; the variable [nonce] is zeroed only if dead stores are executed. *)
Theorem C89_sign : forall dbg keep drbg fuel ctx d z r s id l, gen_ctx ctx -> 0 <= d < n -> 0 <= z < n -> stream (drbg (be_bytes 32 d) (be_bytes 32 z)) ->
  sign_r dbg keep drbg fuel ctx (scalar_of z) (scalar_of d) = Done ((Sig r s, id), l) ->
  sl_seckey_b32 l = be_bytes 32 d /\ sl_message_b32 l = be_bytes 32 z /\ sl_overflow l = false /\ sl_result l = (r, s, id) /\
  exists k, 1 <= k < n /\ sl_generated l = be_bytes 32 k /\ sl_nonce l = scalar_of (if keep then 0 else k) /\
    sign_raw_r dbg keep ctx (scalar_of d) (scalar_of z) (scalar_of k) = Some (Ok (r, s, id), sl_raw l).
Proof. exact C89_sign_pf. Qed.
Print Assumptions C89_sign.

Example C89_sign_example : exists ctx, gen_ctx ctx /\ 0 <= 1 < n /\ stream (fun _ => be_bytes 32 1) /\
  forall dbg keep, exists r s id l, sign_r dbg keep (fun _ _ _ => be_bytes 32 1) 1 ctx (scalar_of 1) (scalar_of 1) = Done ((Sig r s, id), l).
Proof. exact C89_sign_example_pf. Qed.

(** That signing leaves nothing beyond what the signature tells is false even if every store is executed: two runs with one signature leave different keys. *)
Theorem C89_sign_clean_refuted : exists drbg ctx z1 z2, gen_ctx ctx /\ 0 <= z1 < n /\ 0 <= z2 < n /\ forall dbg, exists v l1 l2,
  sign_r dbg true drbg 1 ctx (scalar_of z1) (scalar_of 1) = Done (v, l1) /\ sign_r dbg true drbg 1 ctx (scalar_of z2) (scalar_of 2) = Done (v, l2) /\
  be_val (sl_seckey_b32 l1) = 1 /\ be_val (sl_seckey_b32 l2) = 2.
Proof. exact C89_sign_clean_refuted_pf. Qed.
Print Assumptions C89_sign_clean_refuted.

(** Key agreement clears nothing: the secret scalar, the shared point in both forms and its encoding stay. *)
Theorem C89_ecdh : forall dbg D k P d o l, key_at k P -> P <> Inf -> 0 <= d < n -> ecdh_raw_r dbg D k (scalar_of d) = Some (o, l) ->
  el_s l = scalar_of d /\ (d = 0 -> el_pt l = k /\ el_res l = None /\ el_x l = None /\ el_y l = None) /\
  (d <> 0 -> exists x y j, smul d P = Aff x y /\ key_at (el_pt l) (Aff x y) /\ el_res l = Some j /\ jac_at j (Aff x y) /\ el_x l = Some (be_bytes 32 x) /\ el_y l = Some (2 + y mod 2)).
Proof. exact C89_ecdh_pf. Qed.
Print Assumptions C89_ecdh.

Example C89_ecdh_example : key_at AFFINE_G G /\ G <> Inf /\ 0 <= 1 < n /\ 1 <> 0 /\ forall dbg D, exists o l, ecdh_raw_r dbg D AFFINE_G (scalar_of 1) = Some (o, l).
Proof. exact C89_ecdh_example_pf. Qed.

(** Generating a key leaves its encoding in the buffer. *)
Theorem C89_random : forall dbg fuel rng k ret, stream rng -> sk_random_r dbg fuel rng 0 = Done (k, ret) -> exists d, 1 <= d < n /\ k = scalar_of d /\ ret = be_bytes 32 d.
Proof. exact C89_random_pf. Qed.
Print Assumptions C89_random.

Example C89_random_example : stream (fun _ => be_bytes 32 1) /\ forall dbg, sk_random_r dbg 1 (fun _ => be_bytes 32 1) 0 = Done (scalar_of 1, be_bytes 32 1).
Proof. exact C89_random_example_pf. Qed.
