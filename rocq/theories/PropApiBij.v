(** Property theorems proved in ApiBij.v (written by tools/gen_props.py). *)
From Coq Require Import Znumtheory Zdiv.
From Verif Require Import Word MField MScalar MGroup MEcmult MEcdsa MDer MApi WP FieldMul FieldNorm FieldZero Spec Fp Bits FieldOps FieldCodec FieldStore ScalarMul ScalarOps ScalarMore ScalarBits Denote Unred Curve Group Chain Order Jac JacOps Table Ecmult Lift Gen Key Ctx ApiScalar ApiDer ApiPub ApiGroup Ecdsa ApiEcdsa ApiKeys ApiArith ApiMore ApiUnred ApiBij.

(** Every key any parser returns is, whatever the build and the blinding, the public key of one and only one secret. *)
Theorem C87_every_key : forall dbg dbg' ctx b f k, gen_ctx ctx -> bytes b -> pk_parse_slice dbg b f = Some (Ok k) ->
  exists d k', 1 <= d < n /\ pk_from_secret_key dbg' ctx (scalar_of d) = Some k' /\ pk_eq dbg k' k = Some true /\ pk_serialize dbg' k' = pk_serialize dbg k /\
    pk_serialize_compressed dbg' k' = pk_serialize_compressed dbg k /\
    forall e k2, 1 <= e < n -> pk_from_secret_key dbg' ctx (scalar_of e) = Some k2 -> pk_eq dbg k2 k = Some true -> e = d.
Proof. exact C87_every_key_pf. Qed.
Print Assumptions C87_every_key.

Example C87_every_key_example : bytes (sec1_full gx gy) /\ (exists k, pk_parse_slice true (sec1_full gx gy) None = Some (Ok k)) /\ exists ctx, gen_ctx ctx.
Proof. exact C87_every_key_example_pf. Qed.

(** The secrets 1..n-1 and the 33-byte strings that parse are in one-to-one correspondence. *)
Theorem C87_compressed : forall dbg ctx, gen_ctx ctx ->
  (forall d, 1 <= d < n -> exists c, encodes dbg ctx d c /\ length c = 33%nat /\ bytes c /\ exists k, pk_parse_compressed dbg c = Some (Ok k)) /\
  (forall d e c, 1 <= d < n -> 1 <= e < n -> encodes dbg ctx d c -> encodes dbg ctx e c -> d = e) /\
  (forall c k, length c = 33%nat -> bytes c -> pk_parse_compressed dbg c = Some (Ok k) -> exists d, 1 <= d < n /\ encodes dbg ctx d c).
Proof. exact C87_compressed_pf. Qed.
Print Assumptions C87_compressed.

Example C87_compressed_example : (exists ctx, gen_ctx ctx) /\ 1 <= n - 1 < n /\ length (2 :: be_bytes 32 gx) = 33%nat /\ bytes (2 :: be_bytes 32 gx) /\ exists k, pk_parse_compressed true (2 :: be_bytes 32 gx) = Some (Ok k).
Proof. exact C87_compressed_example_pf. Qed.

(** Each secret has exactly two 65-byte encodings that parse to its key: tag 4, and tag 6 or 7 after the parity of y. *)
Theorem C87_full : forall dbg ctx d x y b, gen_ctx ctx -> 1 <= d < n -> smul d G = Aff x y -> length b = 65%nat -> bytes b ->
  (exists k k', pk_from_secret_key dbg ctx (scalar_of d) = Some k /\ pk_parse dbg b = Some (Ok k') /\ pk_eq dbg k k' = Some true) <->
  In b [4 :: be_bytes 32 x ++ be_bytes 32 y; (6 + y mod 2) :: be_bytes 32 x ++ be_bytes 32 y].
Proof. exact C87_full_pf. Qed.
Print Assumptions C87_full.

Example C87_full_example : (exists ctx, gen_ctx ctx) /\ smul 1 G = Aff gx gy /\ length (4 :: be_bytes 32 gx ++ be_bytes 32 gy) = 65%nat /\ 6 + gy mod 2 = 6.
Proof. exact C87_full_example_pf. Qed.

(** A signature is accepted exactly when the ECDSA equations hold for some nonce, and that nonce is unique. *)
Theorem C87_accepted : forall dbg ctx k d z r s, verify_ctx ctx -> 1 <= d < n -> key_at k (smul d G) -> 0 <= z < n -> 0 <= r < n -> 0 <= s < n ->
  (verify dbg ctx (scalar_of z) (Sig (scalar_of r) (scalar_of s)) k = Some true <-> 1 <= r /\ 1 <= s /\ exists t, 1 <= t < n /\ nonce_of d z r s t) /\
  (1 <= s -> forall t t', 1 <= t < n -> 1 <= t' < n -> nonce_of d z r s t -> nonce_of d z r s t' -> t = t').
Proof. exact C87_accepted_pf. Qed.
Print Assumptions C87_accepted.

(** the secret 1 signs the hash 1 with the nonce 1: s = 1 + gx *)
Example C87_accepted_example : (exists ctx, verify_ctx ctx) /\ key_at AFFINE_G (smul 1 G) /\ nonce_of 1 1 gx (1 + gx) 1.
Proof. exact C87_accepted_example_pf. Qed.

(** The signatures that verify are those signing returns for some nonce, and the same with s negated. *)
Theorem C87_reached : forall dbg vctx gctx k d z r s, verify_ctx vctx -> gen_ctx gctx -> 1 <= d < n -> key_at k (smul d G) -> 0 <= z < n -> 0 <= r < n -> 0 <= s < n ->
  verify dbg vctx (scalar_of z) (Sig (scalar_of r) (scalar_of s)) k = Some true <->
  1 <= r /\ exists t s' id, 1 <= t < n /\ 1 <= s' < n /\ (s = s' \/ s = n - s') /\ sign_raw false gctx (scalar_of d) (scalar_of z) (scalar_of t) = Some (Ok (scalar_of r, scalar_of s', id)).
Proof. exact C87_reached_pf. Qed.
Print Assumptions C87_reached.

(** debug builds panic on some nonces but return nothing else *)
Example C87_reached_example : (exists ctx, verify_ctx ctx) /\ key_at AFFINE_G (smul 1 G) /\ exists ctx r s id, gen_ctx ctx /\ 1 <= r < n /\ 1 <= s < n /\ sign_raw false ctx (scalar_of 1) (scalar_of 1) (scalar_of 1) = Some (Ok (scalar_of r, scalar_of s, id)).
Proof. exact C87_reached_example_pf. Qed.

(** For any key and any s, the pair (r, s) is a signature of some hash exactly when r is the x coordinate, modulo n, of a curve point; the hashes are given by a list of at most four. *)
Theorem C87_some_hash : forall dbg ctx k d r s, verify_ctx ctx -> 1 <= d < n -> key_at k (smul d G) -> 1 <= r < n -> 1 <= s < n ->
  ((exists z, 0 <= z < n /\ verify dbg ctx (scalar_of z) (Sig (scalar_of r) (scalar_of s)) k = Some true) <-> exists x y, on_curve (Aff x y) /\ r = x mod n) /\
  exists l, (length l <= 4)%nat /\ forall z, 0 <= z < n -> (verify dbg ctx (scalar_of z) (Sig (scalar_of r) (scalar_of s)) k = Some true <-> In z l).
Proof. exact C87_some_hash_pf. Qed.
Print Assumptions C87_some_hash.

(** r = gx is a signature of some hash whatever the key and s; [lonely] is not, as no point has that x. *)
Example C87_some_hash_example : (exists ctx, verify_ctx ctx) /\ key_at AFFINE_G (smul 1 G) /\ on_curve (Aff gx gy) /\ gx = gx mod n /\ 1 <= lonely < n /\ forall x y, on_curve (Aff x y) -> lonely <> x mod n.
Proof. exact C87_some_hash_example_pf. Qed.

(** [random] returns a given key for exactly one value of the first usable block: all keys are equally likely. *)
Theorem C87_random : forall dbg d, 1 <= d < n ->
  exists b, length b = 32%nat /\ bytes b /\ (forall rng fuel i, rng i = b -> sk_random dbg (S fuel) rng i = Done (scalar_of d)) /\
    forall c rng, length c = 32%nat -> bytes c -> rng 0%nat = c -> sk_random dbg 1 rng 0 = Done (scalar_of d) -> c = b.
Proof. exact C87_random_pf. Qed.
Print Assumptions C87_random.

Example C87_random_example : 1 <= n - 1 < n /\ sk_random true 1 (fun _ => be_bytes 32 n) 0 = Running.
Proof. exact C87_random_example_pf. Qed.
