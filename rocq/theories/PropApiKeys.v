(** Property theorems proved in ApiKeys.v (written by tools/gen_props.py). *)
From Coq Require Import Znumtheory Field Zdiv Permutation.
From Verif Require Import Word MField MScalar MGroup MEcmult MEcdsa MDer MApi WP FieldMul FieldNorm Spec Fp Bits FieldOps FieldCodec Denote Curve Group Chain Order Jac JacOps Table Ecmult Lift Gen Key Ctx ApiScalar ApiDer ApiPub ApiGroup Ecdsa ApiEcdsa ApiKeys.

(** Adding a tweak (zero included) is point addition of t*G; if the sum is infinity the call is refused and the key unchanged. *)
Theorem C34_public_tweak_add : forall dbg ctx k P t, verify_ctx ctx -> key_at k P -> P <> Inf -> 0 <= t < n ->
  (padd P (smul t G) = Inf -> pk_tweak_add_assign dbg ctx k (scalar_of t) = Some (k, Err TweakOutOfRange)) /\
  (padd P (smul t G) <> Inf -> exists k', pk_tweak_add_assign dbg ctx k (scalar_of t) = Some (k', Ok tt) /\ aff_at 1 k' (padd P (smul t G))).
Proof. exact C34_public_tweak_add_pf. Qed.
Print Assumptions C34_public_tweak_add.

Example C34_public_tweak_add_example : (exists ctx, verify_ctx ctx) /\ key_at AFFINE_G G /\ G <> Inf /\ padd G (smul (n - 1) G) = Inf /\ padd G (smul 1 G) <> Inf.
Proof. exact C34_public_tweak_add_example_pf. Qed.

(** Tweaking the derived public key and deriving from the tweaked secret key agree, in the error case too. *)
Theorem C34_commutes : forall dbg dbg' vctx gctx k d t, verify_ctx vctx -> gen_ctx gctx -> 1 <= d < n -> 1 <= t < n -> key_at k (smul d G) ->
  (pk_tweak_add_assign dbg vctx k (scalar_of t) = Some (k, Err TweakOutOfRange) /\ sk_tweak_add_assign dbg' (scalar_of d) (scalar_of t) = Some (scalar_of d, Err TweakOutOfRange)) \/
  exists k1 d1 k2, pk_tweak_add_assign dbg vctx k (scalar_of t) = Some (k1, Ok tt) /\ sk_tweak_add_assign dbg' (scalar_of d) (scalar_of t) = Some (d1, Ok tt) /\
    pk_from_secret_key dbg' gctx d1 = Some k2 /\ pk_eq dbg k1 k2 = Some true.
Proof. exact C34_commutes_pf. Qed.
Print Assumptions C34_commutes.

Example C34_commutes_example : (exists ctx, verify_ctx ctx) /\ (exists ctx, gen_ctx ctx) /\ 1 <= n - 1 < n /\ key_at AFFINE_G (smul 1 G).
Proof. exact C34_commutes_example_pf. Qed.

(** Multiplying by a non-zero tweak is scalar multiplication and gives a finite point; zero is refused and the key unchanged. *)
Theorem C35_public_tweak_mul : forall dbg ctx k P t, verify_ctx ctx -> key_at k P -> P <> Inf -> 0 <= t < n ->
  (t = 0 -> pk_tweak_mul_assign dbg ctx k (scalar_of t) = Some (k, Err TweakOutOfRange)) /\
  (t <> 0 -> exists k', pk_tweak_mul_assign dbg ctx k (scalar_of t) = Some (k', Ok tt) /\ aff_at 1 k' (smul t P) /\ smul t P <> Inf).
Proof. exact C35_public_tweak_mul_pf. Qed.
Print Assumptions C35_public_tweak_mul.

Example C35_public_tweak_mul_example : (exists ctx, verify_ctx ctx) /\ key_at AFFINE_G G /\ G <> Inf /\ 0 <= n - 1 < n /\ n - 1 <> 0.
Proof. exact C35_public_tweak_mul_example_pf. Qed.

Theorem C35_commutes : forall dbg dbg' vctx gctx k d t, verify_ctx vctx -> gen_ctx gctx -> 1 <= d < n -> 1 <= t < n -> key_at k (smul d G) ->
  exists k1 d1 k2, pk_tweak_mul_assign dbg vctx k (scalar_of t) = Some (k1, Ok tt) /\ sk_tweak_mul_assign dbg' (scalar_of d) (scalar_of t) = Some (d1, Ok tt) /\
    pk_from_secret_key dbg' gctx d1 = Some k2 /\ pk_eq dbg k1 k2 = Some true.
Proof. exact C35_commutes_pf. Qed.
Print Assumptions C35_commutes.

Example C35_commutes_example : (exists ctx, verify_ctx ctx) /\ (exists ctx, gen_ctx ctx) /\ 1 <= n - 1 < n /\ key_at AFFINE_G (smul 1 G).
Proof. exact C35_commutes_example_pf. Qed.

(** [combine] of a list of finite keys is their sum; refused iff the sum is infinity. *)
Theorem C36_combine : forall dbg ks Ps, Forall2 key_at ks Ps -> Forall fin Ps ->
  (psum Ps = Inf -> pk_combine dbg ks = Some (Err InvalidPublicKey)) /\
  (psum Ps <> Inf -> exists k, pk_combine dbg ks = Some (Ok k) /\ aff_at 1 k (psum Ps)).
Proof. exact C36_combine_pf. Qed.
Print Assumptions C36_combine.

Example C36_combine_example : (exists k, Forall2 key_at [AFFINE_G; k; AFFINE_G] [G; pneg G; G]) /\ Forall fin [G; pneg G; G] /\ psum [G; pneg G; G] = G /\ psum [G; pneg G] = Inf.
Proof. exact C36_combine_example_pf. Qed.

(** The order of the keys does not matter. *)
Theorem C36_order : forall dbg ks ks' Ps, Forall2 key_at ks Ps -> Forall fin Ps -> Permutation ks ks' -> same_result dbg (pk_combine dbg ks) (pk_combine dbg ks').
Proof. exact C36_order_pf. Qed.
Print Assumptions C36_order.

Example C36_order_example : exists k, Forall2 key_at [AFFINE_G; k] [G; pneg G] /\ Forall fin [G; pneg G] /\ Permutation [AFFINE_G; k] [k; AFFINE_G].
Proof. exact C36_order_example_pf. Qed.

(** Grouping does not matter: a sublist may be replaced by its combination, or dropped when it combines to an error. *)
Theorem C36_grouping : forall dbg ks1 ks2 ks3 Ps1 Ps2 Ps3, Forall2 key_at ks1 Ps1 -> Forall2 key_at ks2 Ps2 -> Forall2 key_at ks3 Ps3 -> Forall fin (Ps1 ++ Ps2 ++ Ps3) ->
  same_result dbg (pk_combine dbg (ks1 ++ ks2 ++ ks3)) (match pk_combine dbg ks2 with Some (Ok k) => pk_combine dbg (ks1 ++ k :: ks3) | _ => pk_combine dbg (ks1 ++ ks3) end).
Proof. exact C36_grouping_pf. Qed.
Print Assumptions C36_grouping.

Example C36_grouping_example : exists k, Forall2 key_at [AFFINE_G] [G] /\ Forall2 key_at [AFFINE_G; k] [G; pneg G] /\ Forall2 key_at [] [] /\ Forall fin ([G] ++ [G; pneg G] ++ []).
Proof. exact C36_grouping_example_pf. Qed.

(** A key and its negation, anywhere in the list, cancel. *)
Theorem C36_cancel : forall dbg k k' P ks1 ks2 ks3 Ps1 Ps2 Ps3, key_at k P -> key_at k' (pneg P) -> P <> Inf ->
  Forall2 key_at ks1 Ps1 -> Forall2 key_at ks2 Ps2 -> Forall2 key_at ks3 Ps3 -> Forall fin (Ps1 ++ Ps2 ++ Ps3) ->
  same_result dbg (pk_combine dbg (ks1 ++ k :: ks2 ++ k' :: ks3)) (pk_combine dbg (ks1 ++ ks2 ++ ks3)).
Proof. exact C36_cancel_pf. Qed.
Print Assumptions C36_cancel.

Example C36_cancel_example : exists k, key_at AFFINE_G G /\ key_at k (pneg G) /\ G <> Inf /\ Forall2 key_at [AFFINE_G] [G] /\ Forall fin ([G] ++ [G] ++ [G]).
Proof. exact C36_cancel_example_pf. Qed.

(** The shared secret is the digest of the compressed encoding of d*P. *)
Theorem C37_ecdh : forall dbg D k P d, key_at k P -> P <> Inf -> 0 <= d < n ->
  (d = 0 -> shared_secret_new dbg D k (scalar_of d) = Some (Err InvalidSecretKey)) /\
  (d <> 0 -> exists x y, smul d P = Aff x y /\ shared_secret_new dbg D k (scalar_of d) = Some (Ok (D (sec1_compressed x y)))).
Proof. exact C37_ecdh_pf. Qed.
Print Assumptions C37_ecdh.

Example C37_ecdh_example : key_at AFFINE_G G /\ G <> Inf /\ 0 <= n - 1 < n /\ n - 1 <> 0 /\ smul (n - 1) G = pneg G.
Proof. exact C37_ecdh_example_pf. Qed.

(** Both parties get the same secret, the digest of a*b*G. *)
Theorem C38_ecdh_symmetric : forall dbg dbg' D a b ka kb, 1 <= a < n -> 1 <= b < n -> key_at ka (smul a G) -> key_at kb (smul b G) ->
  exists x y, smul (a * b) G = Aff x y /\ shared_secret_new dbg D ka (scalar_of b) = Some (Ok (D (sec1_compressed x y))) /\ shared_secret_new dbg' D kb (scalar_of a) = Some (Ok (D (sec1_compressed x y))).
Proof. exact C38_ecdh_symmetric_pf. Qed.
Print Assumptions C38_ecdh_symmetric.

Example C38_ecdh_symmetric_example : exists ctx ka kb, gen_ctx ctx /\ pk_from_secret_key true ctx (scalar_of 1) = Some ka /\ pk_from_secret_key true ctx (scalar_of (n - 1)) = Some kb /\ key_at ka (smul 1 G) /\ key_at kb (smul (n - 1) G).
Proof. exact C38_ecdh_symmetric_example_pf. Qed.

Theorem C40_reachable_valid : forall v, reachable v -> valid v.
Proof. exact C40_reachable_valid_pf. Qed.
Print Assumptions C40_reachable_valid.

(** A key obtained by deriving, tweaking, inverting and combining. *)
Example C40_reachable_valid_example : exists k q q', sk_default true = Some k /\ reachable (VSec k) /\ reachable (VPub q) /\ pk_combine true [q; q] = Some (Ok q') /\ reachable (VPub q').
Proof. exact C40_reachable_valid_example_pf. Qed.

(** No API call on reachable values panics, except [sign] in a debug build (see C31). *)
Theorem C40_no_panic : forall dbg gc vc k t q q' qs m g i, reachable (VGen gc) -> reachable (VVerify vc) -> reachable (VSec k) -> reachable (VSec t) ->
  reachable (VPub q) -> reachable (VPub q') -> (forall x, In x qs -> reachable (VPub x)) -> reachable (VMsg m) -> reachable (VSig g) -> reachable (VRid i) ->
  pk_from_secret_key dbg gc k <> None /\ pk_serialize dbg q <> None /\ pk_serialize_compressed dbg q <> None /\ pk_eq dbg q q' <> None /\
  pk_tweak_add_assign dbg vc q t <> None /\ pk_tweak_mul_assign dbg vc q t <> None /\ pk_combine dbg qs <> None /\
  sk_tweak_add_assign dbg k t <> None /\ sk_tweak_mul_assign dbg k t <> None /\ sk_inv dbg k <> None /\ sig_normalize_s dbg g <> None /\
  verify dbg vc m g q <> None /\ recover dbg vc m g i <> None /\ (forall D, shared_secret_new dbg D q k <> None) /\
  (forall drbg fuel, (forall s s', stream (drbg s s')) -> sign false drbg fuel gc m k <> Panic).
Proof. exact C40_no_panic_pf. Qed.
Print Assumptions C40_no_panic.

Example C40_no_panic_example : exists gc vc k q m g i, reachable (VGen gc) /\ reachable (VVerify vc) /\ reachable (VSec k) /\ reachable (VPub q) /\ reachable (VMsg m) /\ reachable (VSig g) /\ reachable (VRid i).
Proof. exact C40_no_panic_example_pf. Qed.
