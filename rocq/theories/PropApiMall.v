(** Property theorems proved in ApiMall.v (written by tools/gen_props.py). *)
From Coq Require Import Znumtheory Zdiv.
From Verif Require Import Word MField MScalar MGroup MEcmult MEcdsa MApi WP FieldMul FieldNorm Spec Fp Bits FieldOps FieldCodec Denote Curve Group Chain Order Jac JacOps Table Ecmult Lift Gen Key Ctx ApiScalar ApiPub ApiGroup Ecdsa ApiEcdsa ApiMall.

(** Two signatures with the same r accepted for one message under one key: s is the same up to negation, or both r and r + n are x coordinates on the curve. *)
Theorem C79_s_unique : forall dbg ctx k Q z r s1 s2, verify_ctx ctx -> key_at k Q -> Q <> Inf -> 0 <= r < n -> 0 <= s1 < n -> 0 <= s2 < n -> 0 <= z < n ->
  verify dbg ctx (scalar_of z) (Sig (scalar_of r) (scalar_of s1)) k = Some true -> verify dbg ctx (scalar_of z) (Sig (scalar_of r) (scalar_of s2)) k = Some true ->
  s1 = s2 \/ s1 + s2 = n \/ (r + n < p /\ exists y y', on_curve (Aff r y) /\ on_curve (Aff (r + n) y')).
Proof. exact C79_s_unique_pf. Qed.
Print Assumptions C79_s_unique.

Example C79_s_unique_example : exists ctx, verify_ctx ctx /\ key_at AFFINE_G G /\ G <> Inf /\
  verify true ctx (scalar_of 0) (Sig (scalar_of gx) (scalar_of gx)) AFFINE_G = Some true /\ verify true ctx (scalar_of 0) (Sig (scalar_of gx) (scalar_of (n - gx))) AFFINE_G = Some true.
Proof. exact C79_s_unique_example_pf. Qed.

(** With low s and r >= p - n (all but one in 2^127 signatures) nothing else with the same r is accepted. *)
Theorem C79_low_s_unique : forall dbg ctx k Q z r s1 s2, verify_ctx ctx -> key_at k Q -> Q <> Inf -> p - n <= r < n -> 0 <= s1 <= (n - 1) / 2 -> 0 <= s2 <= (n - 1) / 2 -> 0 <= z < n ->
  verify dbg ctx (scalar_of z) (Sig (scalar_of r) (scalar_of s1)) k = Some true -> verify dbg ctx (scalar_of z) (Sig (scalar_of r) (scalar_of s2)) k = Some true -> s1 = s2.
Proof. exact C79_low_s_unique_pf. Qed.
Print Assumptions C79_low_s_unique.

Example C79_low_s_unique_example : (exists ctx, verify_ctx ctx /\ key_at AFFINE_G G /\ verify true ctx (scalar_of 0) (Sig (scalar_of gx) (scalar_of gx)) AFFINE_G = Some true) /\
  p - n <= gx < n /\ 0 <= gx <= (n - 1) / 2.
Proof. exact C79_low_s_unique_example_pf. Qed.

(** Negating s and inverting the parity bit of the id recovers the same key, or fails the same way. *)
Theorem C79_recover_flip : forall dbg dbg' dbg'' ctx ctx' z r s id, verify_ctx ctx -> verify_ctx ctx' -> 0 <= r < n -> 1 <= s < n -> 0 <= z < n -> 0 <= id < 4 ->
  let old := recover dbg ctx (scalar_of z) (Sig (scalar_of r) (scalar_of s)) id in
  let new := recover dbg' ctx' (scalar_of z) (Sig (scalar_of r) (scalar_of (n - s))) (Z.lxor id 1) in
  (old = Some (Err InvalidSignature) /\ new = Some (Err InvalidSignature)) \/
  exists k k', old = Some (Ok k) /\ new = Some (Ok k') /\ pk_eq dbg'' k k' = Some true.
Proof. exact C79_recover_flip_pf. Qed.
Print Assumptions C79_recover_flip.

Example C79_recover_flip_example : exists ctx k, verify_ctx ctx /\ recover true ctx (scalar_of 0) (Sig (scalar_of gx) (scalar_of gx)) 0 = Some (Ok k) /\ key_at k G /\ Z.lxor 0 1 = 1.
Proof. exact C79_recover_flip_example_pf. Qed.

(** When [normalize_s] changes a signature, the old id no longer yields the old key: it fails or yields another key, and the inverted id yields the old key. *)
Theorem C79_normalize_id : forall dbg dbg' ctx z r s id k g, verify_ctx ctx -> 0 <= r < n -> 1 <= s < n -> 0 <= z < n -> 0 <= id < 4 ->
  recover dbg ctx (scalar_of z) (Sig (scalar_of r) (scalar_of s)) id = Some (Ok k) ->
  sig_normalize_s dbg (Sig (scalar_of r) (scalar_of s)) = Some g ->
  g = Sig (scalar_of r) (scalar_of s) \/
  ((exists k', recover dbg ctx (scalar_of z) g (Z.lxor id 1) = Some (Ok k') /\ pk_eq dbg' k k' = Some true) /\
   (recover dbg ctx (scalar_of z) g id = Some (Err InvalidSignature) \/
    exists k', recover dbg ctx (scalar_of z) g id = Some (Ok k') /\ pk_eq dbg' k k' = Some false)).
Proof. exact C79_normalize_id_pf. Qed.
Print Assumptions C79_normalize_id.

(** A signature that [normalize_s] changes: s = n - gx, id 1, recovers the generator. *)
Example C79_normalize_id_example : exists ctx k, verify_ctx ctx /\ recover true ctx (scalar_of 0) (Sig (scalar_of gx) (scalar_of (n - gx))) 1 = Some (Ok k) /\ key_at k G /\
  sig_normalize_s true (Sig (scalar_of gx) (scalar_of (n - gx))) = Some (Sig (scalar_of gx) (scalar_of gx)).
Proof. exact C79_normalize_id_example_pf. Qed.
