(** Property theorems proved in ApiGroup.v (written by tools/gen_props.py). *)
From Coq Require Import Znumtheory Field.
From Verif Require Import Word MField MScalar MGroup MEcmult WP FieldMul FieldNorm Spec Fp Bits FieldOps FieldCodec FieldStore Denote Curve Group Chain Order Jac JacOps Table Wnaf WnafC Ecmult Lift Gen Key Ctx ApiScalar ApiPub ApiGroup.

(** * C56 *)
Theorem C56_primes : prime p /\ prime n.
Proof. exact C56_primes_pf. Qed.
Print Assumptions C56_primes.

(** The curve points with the chord-tangent law form an abelian group. *)
Theorem C56_abelian_group : on_curve Inf /\ on_curve G /\
  (forall P, on_curve P -> on_curve (pneg P) /\ padd Inf P = P /\ padd P Inf = P /\ padd P (pneg P) = Inf) /\
  (forall P Q, on_curve P -> on_curve Q -> on_curve (padd P Q) /\ padd P Q = padd Q P) /\
  (forall P Q R, on_curve P -> on_curve Q -> on_curve R -> padd P (padd Q R) = padd (padd P Q) R).
Proof. exact C56_abelian_group_pf. Qed.
Print Assumptions C56_abelian_group.

(** It is cyclic of order n, generated by G: k -> k*G is a bijection from [0, n) to the points, and n*P is the neutral element. *)
Theorem C56_cyclic : (forall P, on_curve P -> exists k, 0 <= k < n /\ P = smul k G /\ forall j, 0 <= j < n -> P = smul j G -> j = k) /\
  (forall k, 0 <= k -> on_curve (smul k G)) /\ (forall P, on_curve P -> smul n P = Inf) /\ G <> Inf.
Proof. exact C56_cyclic_pf. Qed.
Print Assumptions C56_cyclic.

Example C56_cyclic_example : on_curve G /\ smul 1 G = G /\ smul 2 G <> G /\ padd G G <> Inf.
Proof. exact C56_cyclic_example_pf. Qed.

(** Multiplication by integers is a module action modulo n. *)
Theorem C56_scalar_action : forall P a b, on_curve P -> 0 <= a -> 0 <= b ->
  smul (a + b) P = padd (smul a P) (smul b P) /\ smul (a * b) P = smul a (smul b P) /\ smul (a mod n) P = smul a P /\
  (P <> Inf -> (smul a P = smul b P <-> a mod n = b mod n)).
Proof. exact C56_scalar_action_pf. Qed.
Print Assumptions C56_scalar_action.

Example C56_scalar_action_example : on_curve G /\ G <> Inf /\ smul 0 G = Inf.
Proof. exact C56_scalar_action_example_pf. Qed.

(** * C49 *)
Theorem C49_double : forall dbg j P, jac_at j P -> exists r, j_double dbg j = Some r /\ jac_at r (padd P P).
Proof. exact C49_double_pf. Qed.
Print Assumptions C49_double.

Example C49_double_example : (exists j, jac_at j G) /\ jac_at j_set_infinity Inf.
Proof. exact C49_double_example_pf. Qed.

Theorem C49_add : forall dbg a b P Q, jac_at a P -> jac_at b Q -> exists r, j_add dbg a b = Some r /\ jac_at r (padd P Q).
Proof. exact C49_add_pf. Qed.
Print Assumptions C49_add.

(** The hypotheses cover every special case: equal points, opposite points, infinity. *)
Example C49_add_example : (exists a b, jac_at a G /\ jac_at b G /\ padd G G <> Inf) /\ (exists a b, jac_at a G /\ jac_at b (pneg G) /\ padd G (pneg G) = Inf) /\
  (exists a b, jac_at a Inf /\ jac_at b G).
Proof. exact C49_add_example_pf. Qed.

Theorem C49_add_ge_var : forall dbg a b P Q, jac_at a P -> key_at b Q -> exists r, j_add_ge_v dbg a b = Some r /\ jac_at r (padd P Q).
Proof. exact C49_add_ge_var_pf. Qed.
Print Assumptions C49_add_ge_var.

Example C49_add_ge_var_example : exists a b, jac_at a G /\ key_at b G.
Proof. exact C49_add_ge_var_example_pf. Qed.

(** The branch-free addition: complete except that the affine operand must not be infinity. *)
Theorem C49_add_ge : forall dbg a b P Q, jac_at a P -> key_at b Q -> Q <> Inf -> exists r, j_add_ge dbg a b = Some r /\ jac_at r (padd P Q).
Proof. exact C49_add_ge_pf. Qed.
Print Assumptions C49_add_ge.

Example C49_add_ge_example : exists a b, jac_at a (pneg G) /\ key_at b G /\ G <> Inf.
Proof. exact C49_add_ge_example_pf. Qed.

Theorem C49_add_ge_infinity_refuted : exists a b, jac_at a G /\ key_at b Inf /\ j_add_ge true a b = None /\ exists r, j_add_ge false a b = Some r /\ ~ jac_at r (padd G Inf).
Proof. exact C49_add_ge_infinity_refuted_pf. Qed.
Print Assumptions C49_add_ge_infinity_refuted.

(** Adding an affine point given the inverse of its (virtual) z coordinate. *)
Theorem C49_add_zinv_var : forall dbg a b zinv P Q, fok 6 zinv -> fv zinv mod p <> 0 -> jac_scaled (fv zinv) a P -> key_at b Q ->
  exists r, j_add_zinv_var dbg a b zinv = Some r /\ jac_scaled (fv zinv) r (padd P Q).
Proof. exact C49_add_zinv_var_pf. Qed.
Print Assumptions C49_add_zinv_var.

Example C49_add_zinv_var_example : exists a b zinv, fok 6 zinv /\ fv zinv mod p <> 0 /\ jac_scaled (fv zinv) a G /\ key_at b G.
Proof. exact C49_add_zinv_var_example_pf. Qed.

(** * C50 *)
Theorem C50_set_gej : forall dbg j P, jac_at j P -> exists a, af_set_gej dbg j = Some a /\ aff_at 1 a P.
Proof. exact C50_set_gej_pf. Qed.
Print Assumptions C50_set_gej.

Example C50_set_gej_example : (exists j, jac_at j G) /\ jac_at j_set_infinity Inf.
Proof. exact C50_set_gej_example_pf. Qed.

Theorem C50_set_gej_var : forall dbg s j P, jac_at j P -> fok 6 (af_x s) -> fok 6 (af_y s) -> exists a, af_set_gej_var dbg s j = Some a /\ key_at a P.
Proof. exact C50_set_gej_var_pf. Qed.
Print Assumptions C50_set_gej_var.

Example C50_set_gej_var_example : (exists j, jac_at j G) /\ fok 6 (af_x af_default) /\ fok 6 (af_y af_default).
Proof. exact C50_set_gej_var_example_pf. Qed.

Theorem C50_set_gej_zinv : forall dbg j zi P, jac_at j P -> fok 6 zi -> fv zi mod p <> 0 -> (P <> Inf -> (fv (j_z j) * fv zi) mod p = 1) ->
  exists a, af_set_gej_zinv dbg j zi = Some a /\ aff_at 1 a P.
Proof. exact C50_set_gej_zinv_pf. Qed.
Print Assumptions C50_set_gej_zinv.

Example C50_set_gej_zinv_example : exists j zi, jac_at j G /\ fok 6 zi /\ fv zi mod p <> 0 /\ (fv (j_z j) * fv zi) mod p = 1.
Proof. exact C50_set_gej_zinv_example_pf. Qed.

(** Batch conversion, any length, any mixture of finite points and infinity. *)
Theorem C50_set_all_gej_var : forall dbg js Ps, Forall2 jac_at js Ps -> exists r, set_all_gej_var dbg js = Some r /\ Forall2 (aff_at 1) r Ps.
Proof. exact C50_set_all_gej_var_pf. Qed.
Print Assumptions C50_set_all_gej_var.

Example C50_set_all_gej_var_example : exists j, Forall2 jac_at [j; j_set_infinity; j] [G; Inf; G].
Proof. exact C50_set_all_gej_var_example_pf. Qed.

(** Batch inversion, any length. *)
Theorem C50_inv_all_var : forall dbg fs, Forall (fun f => fok 6 f /\ fv f mod p <> 0) fs ->
  exists r, inv_all_var dbg fs = Some r /\ Forall2 (fun g f => fok 1 g /\ (fv g * fv f) mod p = 1) r fs.
Proof. exact C50_inv_all_var_pf. Qed.
Print Assumptions C50_inv_all_var.

Example C50_inv_all_var_example : Forall (fun f => fok 6 f /\ fv f mod p <> 0) [FE1; FE1].
Proof. exact C50_inv_all_var_example_pf. Qed.

Theorem C50_set_table_gej_var : forall dbg js zr Ps, Forall2 jac_at js Ps -> Forall (fun P => P <> Inf) Ps -> z_ratios js zr ->
  exists t, set_table_gej_var dbg js zr = Some t /\ Forall2 key_at t Ps.
Proof. exact C50_set_table_gej_var_pf. Qed.
Print Assumptions C50_set_table_gej_var.

(** Conversion to a common z: entry i and the returned z are Jacobian coordinates of point i. *)
Theorem C50_globalz_set_table_gej : forall dbg js zr Ps, js <> [] -> Forall2 jac_at js Ps -> Forall (fun P => P <> Inf) Ps -> z_ratios js zr ->
  exists t z, globalz_set_table_gej dbg js zr = Some (t, z) /\ Forall2 (fun a P => af_inf a = false /\ jac_at (Ja (af_x a) (af_y a) z false) P) t Ps.
Proof. exact C50_globalz_set_table_gej_pf. Qed.
Print Assumptions C50_globalz_set_table_gej.

Example C50_set_table_gej_var_example : exists js zr, js <> [] /\ Forall2 jac_at js [G; G] /\ Forall (fun P => P <> Inf) [G; G] /\ z_ratios js zr.
Proof. exact C50_set_table_gej_var_example_pf. Qed.

Example C50_globalz_set_table_gej_example : exists js zr, js <> [] /\ Forall2 jac_at js [G; G] /\ Forall (fun P => P <> Inf) [G; G] /\ z_ratios js zr.
Proof. exact C50_globalz_set_table_gej_example_pf. Qed.

(** na*P + ng*G for all scalars and every finite point. *)
Theorem C51_ecmult : forall dbg ctx j P na ng, verify_ctx ctx -> jac_at j P -> P <> Inf -> 0 <= na < n -> 0 <= ng < n ->
  exists r, ecmult dbg ctx j (scalar_of na) (scalar_of ng) = Some r /\ jac_at r (padd (smul na P) (smul ng G)).
Proof. exact C51_ecmult_pf. Qed.
Print Assumptions C51_ecmult.

Example C51_ecmult_example : (exists ctx, ecmult_context_new true = Some ctx /\ verify_ctx ctx) /\ (exists j, jac_at j G) /\ 0 <= 0 < n /\ 0 <= n - 1 < n.
Proof. exact C51_ecmult_example_pf. Qed.

(** k*P for all scalars k (0, 1, n-1 included) and every finite point. *)
Theorem C52_ecmult_const : forall dbg a P k, key_at a P -> P <> Inf -> 0 <= k < n -> exists r, ecmult_const dbg a (scalar_of k) = Some r /\ jac_at r (smul k P).
Proof. exact C52_ecmult_const_pf. Qed.
Print Assumptions C52_ecmult_const.

Example C52_ecmult_const_example : key_at AFFINE_G G /\ G <> Inf /\ 0 <= 0 < n /\ 0 <= n - 1 < n.
Proof. exact C52_ecmult_const_example_pf. Qed.

(** k*G, whatever the blinding and the row offsets of the context. *)
Theorem C53_ecmult_gen : forall dbg ctx k, gen_ctx ctx -> 0 <= k < n -> exists r, ecmult_gen dbg ctx (scalar_of k) = Some r /\ jac_at r (smul k G).
Proof. exact C53_ecmult_gen_pf. Qed.
Print Assumptions C53_ecmult_gen.

Example C53_ecmult_gen_example : exists ctx, ecmult_gen_context_new true = Some ctx /\ gen_ctx ctx.
Proof. exact C53_ecmult_gen_example_pf. Qed.

(** Re-blinding: changing the blinding scalar from b to b' and the initial point I to I + (b - b')*G gives another correct context. *)
Theorem C53_reblind : forall prec ini ini' b b' P, gen_ctx (GCtx prec (scalar_of b) ini) -> 0 <= b < n -> 0 <= b' < n ->
  jac_loose ini P -> jac_at ini' (padd P (smul ((b - b') mod n) G)) -> gen_ctx (GCtx prec (scalar_of b') ini').
Proof. exact C53_reblind_pf. Qed.
Print Assumptions C53_reblind.

Example C53_reblind_example : exists prec b ini ini' P, gen_ctx (GCtx prec (scalar_of b) ini) /\ 0 <= b < n /\ 0 <= 1 < n /\ jac_loose ini P /\
  jac_at ini' (padd P (smul ((b - 1) mod n) G)).
Proof. exact C53_reblind_example_pf. Qed.

(** Both contexts can be built, without a panic, in both build modes, and hold the right points. *)
Theorem C54_contexts : forall dbg, (exists c, ecmult_context_new dbg = Some c /\ verify_ctx c) /\ (exists c, ecmult_gen_context_new dbg = Some c /\ gen_ctx c).
Proof. exact C54_contexts_pf. Qed.
Print Assumptions C54_contexts.

Theorem C54_gen_initial : exists b, GEN_BLIND = scalar_of b /\ 0 <= b < n /\ jac_loose GEN_INITIAL (pneg (smul b G)).
Proof. exact C54_gen_initial_pf. Qed.
Print Assumptions C54_gen_initial.

(** The table of odd multiples of any finite point, of any size. *)
Theorem C54_odd_multiples : forall dbg k j P, jac_at j P -> P <> Inf -> 2 * Z.of_nat k < n - 2 -> k <> 0%nat ->
  exists t, odd_multiples_table_storage_var dbg k j = Some t /\ length t = k /\ forall i s, nth_error t i = Some s -> stored_at s (smul (2 * Z.of_nat i + 1) P).
Proof. exact C54_odd_multiples_pf. Qed.
Print Assumptions C54_odd_multiples.

Example C54_odd_multiples_example : (exists j, jac_at j G) /\ G <> Inf /\ 2 * Z.of_nat 8 < n - 2.
Proof. exact C54_odd_multiples_example_pf. Qed.

(** Width 2 to 30 in every build, width 31 in release builds: digits zero or odd, of absolute value below 2^(w-1), at least w positions apart,
    none at or above the returned length, and representing the scalar modulo n. *)
Theorem C55_wnaf : forall dbg a w, 0 <= a < n -> 2 <= w <= 31 -> (w = 31 -> dbg = false) ->
  exists l bits, ecmult_wnaf dbg 256 (scalar_of a) w = Some (l, bits) /\ length l = 256%nat /\ 0 <= bits <= 256 /\
    digits_val 2 l mod n = a /\ (forall i, bits <= Z.of_nat i -> nth i l 0 = 0) /\
    (forall i, nth i l 0 = 0 \/ (nth i l 0 mod 2 = 1 /\ Z.abs (nth i l 0) < 2 ^ (w - 1))) /\
    (forall i j, (i < j)%nat -> nth i l 0 <> 0 -> nth j l 0 <> 0 -> Z.of_nat i + w <= Z.of_nat j).
Proof. exact C55_wnaf_pf. Qed.
Print Assumptions C55_wnaf.

Example C55_wnaf_example : 0 <= n - 1 < n /\ 2 <= 5 <= 31 /\ (5 = 31 -> true = false).
Proof. exact C55_wnaf_example_pf. Qed.

(** Width 31 passes the entry assertion but overflows an i32 in debug builds. *)
Theorem C55_wnaf_31_refuted : exists a, 0 <= a < n /\ ecmult_wnaf true 256 (scalar_of a) 31 = None.
Proof. exact C55_wnaf_31_refuted_pf. Qed.
Print Assumptions C55_wnaf_31_refuted.

(** The constant-time recoding: 65 odd digits of absolute value at most 15 in base 16, representing scalar + skew modulo n. *)
Theorem C55_wnaf_const : forall dbg a, 0 <= a < n -> exists l skew, ecmult_wnaf_const dbg 65 (scalar_of a) 4 = Some (l, skew) /\ length l = 65%nat /\
  (skew = 1 \/ skew = 2) /\ Forall (fun d => d mod 2 = 1 /\ -15 <= d <= 15) l /\ digits_val 16 l mod n = (a + skew) mod n.
Proof. exact C55_wnaf_const_pf. Qed.
Print Assumptions C55_wnaf_const.

Example C55_wnaf_const_example : 0 <= 0 < n /\ 0 <= (n - 1) / 2 < n.
Proof. exact C55_wnaf_const_example_pf. Qed.
