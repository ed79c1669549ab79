(** Property theorems proved in ApiUniform.v (written by tools/gen_props.py). *)
From Coq Require Import Znumtheory Zdiv.
From Verif Require Import Word MField MScalar MGroup MEcmult MEcdsa MDer MApi WP FieldMul FieldNorm FieldZero Spec Fp Bits FieldOps FieldCodec FieldStore ScalarMul ScalarOps ScalarMore ScalarBits Denote Unred Curve Group Chain Order Jac JacOps Table Ecmult Lift Gen Key Ctx ApiScalar ApiDer ApiPub ApiGroup Ecdsa ApiEcdsa ApiKeys ApiArith ApiMore ApiUnred ApiNonce ApiUniform.

(** * Random keys *)
Theorem C91_random : forall d d', 1 <= d < n -> 1 <= d' < n ->
  exists f, rearranges f /\ forall dbg fuel rng i, stream rng ->
    (sk_random dbg fuel rng i = Done (scalar_of d) <-> sk_random dbg fuel (fun j => f (rng j)) i = Done (scalar_of d')) /\
    (sk_random dbg fuel rng i = Running <-> sk_random dbg fuel (fun j => f (rng j)) i = Running).
Proof. exact C91_random_pf. Qed.
Print Assumptions C91_random.

Example C91_random_example : 1 <= 1 < n /\ 1 <= n - 1 < n /\ stream one_stream /\ sk_random true 2 one_stream 0 = Done (scalar_of 1) /\
  exists f, rearranges f /\ sk_random true 2 (fun j => f (one_stream j)) 0 = Done (scalar_of (n - 1)).
Proof. exact C91_random_example_pf. Qed.

Theorem C91_nonce : forall dbg ctx d z k r s id k' r' s' id', gen_ctx ctx -> 0 <= d < n -> 0 <= z < n -> 1 <= k < n -> 1 <= k' < n ->
  signature_for d z k r s id -> signature_for d z k' r' s' id' -> regular s -> regular s' -> (dbg = false \/ ~ wraps k /\ ~ wraps k') ->
  exists f, rearranges f /\ forall drbg fuel, stream (drbg (be_bytes 32 d) (be_bytes 32 z)) ->
    let o := sign dbg drbg fuel ctx (scalar_of z) (scalar_of d) in let o' := sign dbg (fun a b i => f (drbg a b i)) fuel ctx (scalar_of z) (scalar_of d) in
    (o = Done (Sig (scalar_of r) (scalar_of s), id) <-> o' = Done (Sig (scalar_of r') (scalar_of s'), id')) /\ (o = Running <-> o' = Running) /\ (o = Panic <-> o' = Panic).
Proof. exact C91_nonce_pf. Qed.
Print Assumptions C91_nonce.

Example C91_nonce_example : exists ctx r s id r' s' id', gen_ctx ctx /\ signature_for 1 1 1 r s id /\ signature_for 1 1 2 r' s' id' /\ regular s /\ regular s' /\ ~ wraps 1 /\ ~ wraps 2 /\ (r, s) <> (r', s').
Proof. exact C91_nonce_example_pf. Qed.

(** The signatures with s next to n/2 have one nonce instead of two, so they are half as likely. *)
Theorem C91_all_signatures_refuted : exists ctx d z k r s id k' r' s' id', gen_ctx ctx /\ 1 <= d < n /\ 0 <= z < n /\ 1 <= k < n /\ 1 <= k' < n /\
  signature_for d z k r s id /\ signature_for d z k' r' s' id' /\ ~ wraps k /\ ~ wraps k' /\
  ~ exists f, rearranges f /\ forall drbg fuel, stream (drbg (be_bytes 32 d) (be_bytes 32 z)) ->
    (sign false drbg fuel ctx (scalar_of z) (scalar_of d) = Done (Sig (scalar_of r) (scalar_of s), id) <->
     sign false (fun a b i => f (drbg a b i)) fuel ctx (scalar_of z) (scalar_of d) = Done (Sig (scalar_of r') (scalar_of s'), id')).
Proof. exact C91_all_signatures_refuted_pf. Qed.
Print Assumptions C91_all_signatures_refuted.

(** A message value has one 32-byte representative, or two when z + n still fits into 32 bytes. *)
Theorem C91_message : forall dbg z b, 0 <= z < n -> block b ->
  (msg_parse dbg b = Some (scalar_of z) <-> b = be_bytes 32 z \/ (z + n < 2 ^ 256 /\ b = be_bytes 32 (z + n))) /\ (z + n < 2 ^ 256 -> be_bytes 32 z <> be_bytes 32 (z + n)).
Proof. exact C91_message_pf. Qed.
Print Assumptions C91_message.

Example C91_message_example : 0 <= 0 < n /\ 0 + n < 2 ^ 256 /\ block (be_bytes 32 n) /\ msg_parse true (be_bytes 32 n) = Some (scalar_of 0) /\ 2 ^ 256 <= (n - 1) + n.
Proof. exact C91_message_example_pf. Qed.

Theorem C91_secret_tweaks : forall dbg d e, 1 <= d < n -> 1 <= e < n ->
  (exists t, 1 <= t < n /\ forall u, 1 <= u < n -> (sk_tweak_mul_assign dbg (scalar_of d) (scalar_of u) = Some (scalar_of e, Ok tt) <-> u = t)) /\
  (exists t, 1 <= t < n /\ forall u, 1 <= u < n -> (sk_tweak_mul_assign dbg (scalar_of u) (scalar_of d) = Some (scalar_of e, Ok tt) <-> u = t)) /\
  (e <> d -> exists t, 1 <= t < n /\ forall u, 1 <= u < n -> (sk_tweak_add_assign dbg (scalar_of d) (scalar_of u) = Some (scalar_of e, Ok tt) <-> u = t)) /\
  (e <> d -> exists t, 1 <= t < n /\ forall u, 1 <= u < n -> (sk_tweak_add_assign dbg (scalar_of u) (scalar_of d) = Some (scalar_of e, Ok tt) <-> u = t)) /\
  (forall u, 1 <= u < n -> sk_tweak_add_assign dbg (scalar_of d) (scalar_of u) <> Some (scalar_of d, Ok tt) /\ sk_tweak_add_assign dbg (scalar_of u) (scalar_of d) <> Some (scalar_of d, Ok tt)) /\
  (exists t, 1 <= t < n /\ forall u, 1 <= u < n -> (sk_inv dbg (scalar_of u) = Some (scalar_of e) <-> u = t)).
Proof. exact C91_secret_tweaks_pf. Qed.
Print Assumptions C91_secret_tweaks.

Example C91_secret_tweaks_example : 1 <= 2 < n /\ 1 <= n - 1 < n /\ n - 1 <> 2.
Proof. exact C91_secret_tweaks_example_pf. Qed.

Theorem C91_public_tweaks : forall dbg ctx k P Q, verify_ctx ctx -> key_at k P -> P <> Inf -> on_curve Q -> Q <> Inf ->
  (exists t, 1 <= t < n /\ forall u, 1 <= u < n -> ((exists k', pk_tweak_mul_assign dbg ctx k (scalar_of u) = Some (k', Ok tt) /\ key_at k' Q) <-> u = t)) /\
  (Q <> P -> exists t, 1 <= t < n /\ forall u, 1 <= u < n -> ((exists k', pk_tweak_add_assign dbg ctx k (scalar_of u) = Some (k', Ok tt) /\ key_at k' Q) <-> u = t)) /\
  (forall u k', 1 <= u < n -> pk_tweak_add_assign dbg ctx k (scalar_of u) = Some (k', Ok tt) -> ~ key_at k' P).
Proof. exact C91_public_tweaks_pf. Qed.
Print Assumptions C91_public_tweaks.

Example C91_public_tweaks_example : (exists ctx, verify_ctx ctx) /\ key_at AFFINE_G G /\ G <> Inf /\ on_curve (pneg G) /\ pneg G <> Inf /\ pneg G <> G.
Proof. exact C91_public_tweaks_example_pf. Qed.

(** For a fixed own key, the point that is hashed takes each finite value for exactly one peer key. *)
Theorem C91_shared : forall dbg d x y, 1 <= d < n -> on_curve (Aff x y) ->
  exists P, on_curve P /\ P <> Inf /\ (forall k D, key_at k P -> shared_secret_new dbg D k (scalar_of d) = Some (Ok (D (sec1_compressed x y)))) /\
    (exists k, key_at k P) /\
    forall k P', key_at k P' -> P' <> Inf -> shared_secret_new dbg (fun b => b) k (scalar_of d) = Some (Ok (sec1_compressed x y)) -> P' = P.
Proof. exact C91_shared_pf. Qed.
Print Assumptions C91_shared.

Example C91_shared_example : 1 <= 2 < n /\ on_curve (Aff gx gy).
Proof. exact C91_shared_example_pf. Qed.
