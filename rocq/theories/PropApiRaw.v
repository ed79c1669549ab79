(** Property theorems proved in ApiRaw.v (written by tools/gen_props.py). *)
From Coq Require Import Znumtheory Field.
From Verif Require Import Word MField MScalar MGroup MEcmult MRaw MApi WP Spec Fp FieldStore Denote Curve Group Chain OrderCert Order Jac JacOps Lift Table Ecmult Gen Key Ctx Raw Ecdsa ApiScalar ApiPub ApiGroup ApiEcdsa ApiKeys ApiGen ApiRaw.

(** Whatever else the table holds: tweaking by 2i+1 adds the point at index i. *)
Theorem C88_tweak_entry : forall dbg t i s Q k P, nth_error t i = Some s -> Z.of_nat i < 16384 -> stored_at s Q -> key_at k P -> P <> Inf ->
  (padd P Q = Inf -> pk_tweak_add_assign dbg (ecctx_new_from_raw t) k (scalar_of (2 * Z.of_nat i + 1)) = Some (k, Err TweakOutOfRange)) /\
  (padd P Q <> Inf -> exists k', pk_tweak_add_assign dbg (ecctx_new_from_raw t) k (scalar_of (2 * Z.of_nat i + 1)) = Some (k', Ok tt) /\ aff_at 1 k' (padd P Q)).
Proof. exact C88_tweak_entry_pf. Qed.
Print Assumptions C88_tweak_entry.

Example C88_tweak_entry_example : exists t s, nth_error t 1 = Some s /\ stored_at s (smul 3 G) /\ key_at AFFINE_G G /\ padd G (smul 3 G) <> Inf.
Proof. exact C88_tweak_entry_example_pf. Qed.

(** If the odd tweaks below 2^15 of one single key come out right, the table is the right one. *)
Theorem C88_verify_detect : forall dbg t k P, raw_table t -> key_at k P -> P <> Inf ->
  (forall e, 0 < e < 32768 -> e mod 2 = 1 -> tweak_right dbg (ecctx_new_from_raw t) k P e) -> verify_ctx (ecctx_new_from_raw t).
Proof. exact C88_verify_detect_pf. Qed.
Print Assumptions C88_verify_detect.

Example C88_verify_detect_example : exists t, raw_table t /\ key_at AFFINE_G G /\ G <> Inf /\ forall e, 0 < e < 32768 -> e mod 2 = 1 -> tweak_right true (ecctx_new_from_raw t) AFFINE_G G e.
Proof. exact C88_verify_detect_example_pf. Qed.

(** So a table of curve points is the right one exactly when tweaking is right for all keys and all tweaks. *)
Theorem C88_verify_table : forall dbg t, raw_table t ->
  (verify_ctx (ecctx_new_from_raw t) <-> forall k P e, key_at k P -> P <> Inf -> 0 <= e < n -> tweak_right dbg (ecctx_new_from_raw t) k P e).
Proof. exact C88_verify_table_pf. Qed.
Print Assumptions C88_verify_table.

Example C88_verify_table_example : exists t, raw_table t /\ verify_ctx (ecctx_new_from_raw t).
Proof. exact C88_verify_table_example_pf. Qed.

(** The result of multiplying the generator with any table, blinding and initial point: the initial point plus one entry of each row. *)
Theorem C88_gen_value : forall dbg prec rows b ini P k, raw_rows prec rows -> 0 <= b < n -> jac_loose ini P -> 0 <= k < n ->
  exists r, ecmult_gen dbg (GCtx prec (scalar_of b) ini) (scalar_of k) = Some r /\ jac_at r (padd P (psum (picks rows 0 ((k + b) mod n)))).
Proof. exact C88_gen_value_pf. Qed.
Print Assumptions C88_gen_value.

Example C88_gen_value_example : exists prec rows b ini P, raw_rows prec rows /\ 0 <= b < n /\ jac_loose ini P.
Proof. exact C88_gen_value_example_pf. Qed.

(** A table of curve points, with its blinding and initial point, is right exactly when every secret key gets its public key. *)
Theorem C88_gen_table : forall dbg prec rows b ini P, raw_rows prec rows -> 0 <= b < n -> jac_loose ini P ->
  (gen_ctx (GCtx prec (scalar_of b) ini) <-> forall d, 1 <= d < n -> exists k, pk_from_secret_key dbg (GCtx prec (scalar_of b) ini) (scalar_of d) = Some k /\ key_at k (smul d G)).
Proof. exact C88_gen_table_pf. Qed.
Print Assumptions C88_gen_table.

Example C88_gen_table_example : exists prec rows b ini P, raw_rows prec rows /\ 0 <= b < n /\ jac_loose ini P /\ gen_ctx (GCtx prec (scalar_of b) ini).
Proof. exact C88_gen_table_example_pf. Qed.

(** Taking the table out of a context and making a context of it: the same verification context; ... *)
Theorem C88_raw_verify : forall c, ecctx_new_from_raw (ecctx_inspect_raw c) = c.
Proof. exact C88_raw_verify_pf. Qed.
Print Assumptions C88_raw_verify.

(** ... and a right signing context exactly when the offsets of the rows cancel, that is when the old initial point was minus the old blinding times G. *)
Theorem C88_raw_gen : forall prec b ini P, gen_ctx (GCtx prec (scalar_of b) ini) -> 0 <= b < n -> jac_loose ini P ->
  (gen_ctx (genctx_new_from_raw (genctx_inspect_raw (GCtx prec (scalar_of b) ini))) <-> P = pneg (smul b G)).
Proof. exact C88_raw_gen_pf. Qed.
Print Assumptions C88_raw_gen.

Example C88_raw_gen_example : exists prec b ini P, gen_ctx (GCtx prec (scalar_of b) ini) /\ 0 <= b < n /\ jac_loose ini P /\ P = pneg (smul b G).
Proof. exact C88_raw_gen_example_pf. Qed.

(** There are right contexts whose table does not survive this: the constructor forgets the blinding and the initial point. *)
Theorem C88_raw_gen_refuted : exists c, gen_ctx c /\ ~ gen_ctx (genctx_new_from_raw (genctx_inspect_raw c)).
Proof. exact C88_raw_gen_refuted_pf. Qed.
Print Assumptions C88_raw_gen_refuted.

(** With the odd multiples of another point B as table, [verify] checks the equation with B in the place of the generator; ... *)
Theorem C88_other_generator : forall dbg t B k Q z r s, Z.of_nat (length t) = 16384 -> on_curve B ->
  (forall i s, nth_error t i = Some s -> stored_at s (smul (2 * Z.of_nat i + 1) B)) -> key_at k Q -> Q <> Inf -> 0 <= r < n -> 0 <= s < n -> 0 <= z < n ->
  exists b, verify dbg (ecctx_new_from_raw t) (scalar_of z) (Sig (scalar_of r) (scalar_of s)) k = Some b /\ (b = true <-> valid_for B Q z r s).
Proof. exact C88_other_generator_pf. Qed.
Print Assumptions C88_other_generator.

Example C88_other_generator_example : exists t, Z.of_nat (length t) = 16384 /\ on_curve (smul 2 G) /\ (forall i s, nth_error t i = Some s -> stored_at s (smul (2 * Z.of_nat i + 1) (smul 2 G))) /\
  valid_for (smul 2 G) G 0 gx gx /\ ~ valid_for (smul 2 G) G 0 1 1.
Proof. exact C88_other_generator_example_pf. Qed.

(** ... so with the odd multiples of c*G, it treats the hash z as the hash c*z. *)
Theorem C88_scaled_table : forall dbg t c k Q z r s, Z.of_nat (length t) = 16384 -> 1 <= c < n ->
  (forall i s, nth_error t i = Some s -> stored_at s (smul (2 * Z.of_nat i + 1) (smul c G))) -> key_at k Q -> Q <> Inf -> 0 <= r < n -> 0 <= s < n -> 0 <= z < n ->
  exists b, verify dbg (ecctx_new_from_raw t) (scalar_of z) (Sig (scalar_of r) (scalar_of s)) k = Some b /\ (b = true <-> ecdsa_valid Q ((c * z) mod n) r s).
Proof. exact C88_scaled_table_pf. Qed.
Print Assumptions C88_scaled_table.

(** A signature of the hash 2z then passes for the hash z. *)
Example C88_scaled_table_example : exists t, Z.of_nat (length t) = 16384 /\ 1 <= 2 < n /\ forall i s, nth_error t i = Some s -> stored_at s (smul (2 * Z.of_nat i + 1) (smul 2 G)).
Proof. exact C88_scaled_table_example_pf. Qed.
