(** Property theorems proved in ApiTrace.v (written by tools/gen_props.py). *)
From Coq Require Import Znumtheory Field.
From Verif Require Import Word MField MScalar MGroup MEcmult MEcdsa MApi MTrace WP Spec Fp Denote ScalarMul ScalarOps ScalarMore Curve Group Order Jac JacOps Key Ctx Gen Endo Trace TraceEc TraceGen ApiEcdsa ApiGroup ApiKeys ApiTrace.

(** The traced functions compute what the model of the code computes. *)
Theorem C59_erasure : forall dbg,
  (forall D point s, snd (t_ecdh_raw dbg D point s) = ecdh_raw dbg D point s) /\
  (forall ctx sk, snd (t_pk_from_secret_key dbg ctx sk) = pk_from_secret_key dbg ctx sk) /\
  (forall ctx sk m k, snd (t_sign_raw dbg ctx sk m k) = sign_raw dbg ctx sk m k).
Proof. exact C59_erasure_pf. Qed.
Print Assumptions C59_erasure.

Example C59_erasure_example : fst (t_ecdh_raw true (fun l => l) AFFINE_G (scalar_of 0)) = [EBranch true] /\ snd (t_ecdh_raw true (fun l => l) AFFINE_G (scalar_of 0)) = Some None.
Proof. exact C59_erasure_example_pf. Qed.

(** Diffie-Hellman: the branches taken and the array elements touched are the same for every two secrets that are
    both among the three or both not among them, and differ otherwise; whatever the public point. *)
Theorem C59_ecdh : forall dbg D k P d e, key_at k P -> P <> Inf -> 1 <= d < n -> 1 <= e < n ->
  (fst (t_ecdh_raw dbg D k (scalar_of d)) = fst (t_ecdh_raw dbg D k (scalar_of e)) <-> (In d odd_ones_out <-> In e odd_ones_out)).
Proof. exact C59_ecdh_pf. Qed.
Print Assumptions C59_ecdh.

Example C59_ecdh_example : key_at AFFINE_G G /\ G <> Inf /\ 1 <= 1 < n /\ ~ In 1 odd_ones_out /\ ~ In (n - 1) odd_ones_out /\ Forall (fun d => 1 <= d < n) odd_ones_out.
Proof. exact C59_ecdh_example_pf. Qed.

(** Hence it is not so that the trace never depends on the secret. *)
Theorem C59_ecdh_refuted : forall dbg D k P, key_at k P -> P <> Inf -> exists d e, 1 <= d < n /\ 1 <= e < n /\
  fst (t_ecdh_raw dbg D k (scalar_of d)) <> fst (t_ecdh_raw dbg D k (scalar_of e)).
Proof. exact C59_ecdh_refuted_pf. Qed.
Print Assumptions C59_ecdh_refuted.

Example C59_ecdh_refuted_example : key_at AFFINE_G G /\ G <> Inf.
Proof. exact C59_ecdh_refuted_example_pf. Qed.

(** The trace of a multiplication of the generator, and of what the crate does with it: for every context there is a blinding
    scalar and, for each of the 64 windows, a list of at most 48 values of the digits up to that window, such that all the
    scalars that avoid these values have one and the same trace; some scalar avoids them. *)
Theorem C59_generator : forall dbg prec blind ini, gen_ctx (GCtx prec blind ini) -> j_inf ini = false ->
  exists b avoid trace, blind = scalar_of b /\ 0 <= b < n /\ length avoid = 64%nat /\ Forall (fun l => (length l <= 48)%nat) avoid /\
    let clear k := forall j l, nth_error avoid j = Some l -> ~ In (((k + b) mod n) mod 16 ^ (Z.of_nat j + 1)) l in
    (exists k, 0 <= k < n /\ clear k) /\
    (forall k, 0 <= k < n -> clear k -> fst (t_ecmult_gen dbg (GCtx prec blind ini) (scalar_of k)) = trace) /\
    (forall d, 0 <= d < n -> clear d -> fst (t_pk_from_secret_key dbg (GCtx prec blind ini) (scalar_of d)) = trace) /\
    (forall d m k res, 0 <= k < n -> clear k -> sign_raw dbg (GCtx prec blind ini) d m (scalar_of k) = Some res ->
      match res with
      | Err _ => fst (t_sign_raw dbg (GCtx prec blind ini) d m (scalar_of k)) = trace ++ [EBranch true]
      | Ok _ => exists h, fst (t_sign_raw dbg (GCtx prec blind ini) d m (scalar_of k)) = trace ++ [EBranch false; EBranch h]
      end).
Proof. exact C59_generator_pf. Qed.
Print Assumptions C59_generator.

Example C59_generator_example : exists prec blind ini, ecmult_gen_context_new true = Some (GCtx prec blind ini) /\ gen_ctx (GCtx prec blind ini) /\ j_inf ini = false.
Proof. exact C59_generator_example_pf. Qed.

(** The trace of a whole signing: it is determined by the classes of the draws (too big, zero, no signature), of which all but
    the last fail, and by whether s was negated; provided the draws avoid the values of [C59_generator]. *)
Theorem C59_sign : forall dbg prec blind ini, gen_ctx (GCtx prec blind ini) -> j_inf ini = false ->
  exists b avoid trace, blind = scalar_of b /\ 0 <= b < n /\ length avoid = 64%nat /\ Forall (fun l => (length l <= 48)%nat) avoid /\
    let clear k := forall j l, nth_error avoid j = Some l -> ~ In (((k + b) mod n) mod 16 ^ (Z.of_nat j + 1)) l in
    (exists k, 0 <= k < n /\ clear k) /\
    forall drbg fuel sk m r, let gen := drbg (s_b32 sk) (s_b32 m) in stream gen ->
      snd (t_sign dbg drbg fuel (GCtx prec blind ini) m sk) = sign dbg drbg fuel (GCtx prec blind ini) m sk /\
      (sign dbg drbg fuel (GCtx prec blind ini) m sk = Done r ->
       exists j, (j < fuel)%nat /\ ((forall l, (l <= j)%nat -> 1 <= nonce gen l < n -> clear (nonce gen l)) ->
         exists h, fst (t_sign dbg drbg fuel (GCtx prec blind ini) m sk) = flat_map (seen trace) (map (fun l => attempt_of (nonce gen l)) (seq 0 j) ++ [Signed h]))).
Proof. exact C59_sign_pf. Qed.
Print Assumptions C59_sign.

Example C59_sign_example : exists prec blind ini drbg g id, gen_ctx (GCtx prec blind ini) /\ j_inf ini = false /\
  stream (drbg (s_b32 (scalar_of 1)) (s_b32 (scalar_of 1))) /\ sign true drbg 2 (GCtx prec blind ini) (scalar_of 1) (scalar_of 1) = Done (g, id).
Proof. exact C59_sign_example_pf. Qed.
