(** Property theorems proved in ApiPointOps.v (written by tools/gen_props.py). *)
From Coq Require Import Znumtheory Field.
From Verif Require Import Word MField MScalar MGroup MEcmult MEcdsa MDer MApi MOps MPointOps Mono WP FieldMul FieldNorm Spec Fp Bits FieldOps FieldCodec FieldStore ScalarMul ScalarOps Denote Curve Group Chain Order Jac JacOps Table Wnaf WnafC Ecmult Lift Gen Key Ctx Ecdsa ApiScalar ApiDer ApiPub ApiArith ApiGroup ApiMore ApiEcdsa ApiKeys ApiLaws ApiPointOps.

(** A program on points in any representations runs to its end in every build, as long as finite points are given where the documentation asks for them, and every
    variable then denotes the point the program says: equal, opposite and infinite operands included. *)
Theorem C97_point_programs : forall dbg ctx gen q j a J A J' A', verify_ctx ctx -> gen_ctx gen -> (forall i, jac_at (j i) (J i)) -> (forall i, key_at (a i) (A i)) -> Forall ptyped q ->
  psays (J, A) q = Some (J', A') -> exists j' a', prun dbg ctx gen (j, a) q = Some (j', a') /\ (forall i, jac_at (j' i) (J' i)) /\ forall i, key_at (a' i) (A' i).
Proof. exact C97_point_programs_pf. Qed.
Print Assumptions C97_point_programs.

Example C97_point_programs_example : (exists ctx gen, verify_ctx ctx /\ gen_ctx gen) /\ jac_at JG G /\ key_at AFFINE_G G /\ Forall ptyped tour /\
  exists J' A', psays ((fun _ => G), (fun _ => G)) tour = Some (J', A') /\ J' 3%nat = Inf /\ A' 4%nat = G.
Proof. exact C97_point_programs_example_pf. Qed.

Theorem C97_unconditional : forall dbg ctx gen q j a J A, verify_ctx ctx -> gen_ctx gen -> (forall i, jac_at (j i) (J i)) -> (forall i, key_at (a i) (A i)) -> Forall ptyped q -> Forall plain q ->
  exists J' A' j' a', psays (J, A) q = Some (J', A') /\ prun dbg ctx gen (j, a) q = Some (j', a') /\ (forall i, jac_at (j' i) (J' i)) /\ forall i, key_at (a' i) (A' i).
Proof. exact C97_unconditional_pf. Qed.
Print Assumptions C97_unconditional.

Example C97_unconditional_example : Forall plain [PDouble 1 0; PNeg 2 1; PAdd 3 2 1; PStore 1 3; PAddA 4 3 1] /\ jac_at j_set_infinity Inf.
Proof. exact C97_unconditional_example_pf. Qed.

(** If the variables start at known multiples of G, the program can be followed on the multipliers, modulo n, and the result denotes the computed multiple. *)
Theorem C97_multipliers : forall dbg ctx gen q j a e f e' f', verify_ctx ctx -> gen_ctx gen -> (forall i, 0 <= e i < n /\ jac_at (j i) (smul (e i) G)) -> (forall i, 0 <= f i < n /\ key_at (a i) (smul (f i) G)) -> Forall ptyped q ->
  lsays (e, f) q = Some (e', f') -> exists j' a', prun dbg ctx gen (j, a) q = Some (j', a') /\ (forall i, 0 <= e' i < n /\ jac_at (j' i) (smul (e' i) G)) /\ forall i, 0 <= f' i < n /\ key_at (a' i) (smul (f' i) G).
Proof. exact C97_multipliers_pf. Qed.
Print Assumptions C97_multipliers.

Example C97_multipliers_example : smul 1 G = G /\ match lsays ((fun _ => 1), (fun _ => 1)) tour with Some (e', f') => map e' [1; 2; 3; 4; 5]%nat = [2; n - 1; 0; 7; 5] /\ map f' [1; 2; 3; 4]%nat = [5; 0; n - 5; 1] | None => False end.
Proof. exact C97_multipliers_example_pf. Qed.

(** A debug build stops exactly at the first statement given the point at infinity against the documentation; a program it runs to its end leaves a release build in the
    same state. *)
Theorem C97_debug_exact : forall ctx gen q j a J A, verify_ctx ctx -> gen_ctx gen -> (forall i, jac_at (j i) (J i)) -> (forall i, key_at (a i) (A i)) -> Forall ptyped q ->
  (prun true ctx gen (j, a) q = None <-> psays (J, A) q = None) /\ forall st, prun true ctx gen (j, a) q = Some st -> prun false ctx gen (j, a) q = Some st.
Proof. exact C97_debug_exact_pf. Qed.
Print Assumptions C97_debug_exact.

Example C97_debug_exact_example : psays ((fun _ => G), (fun _ => G)) [PAddC 1 0 0] <> None /\ psays ((fun _ => G), (fun _ => G)) [PInf 1; PStore 1 1; PAddC 2 0 1; PDouble 3 0] = None /\
  psays ((fun _ => G), (fun _ => G)) [PNeg 1 0; PAdd 1 1 0; PMulAdd 2 1 (scalar_of 3) (scalar_of 4)] = None.
Proof. exact C97_debug_exact_example_pf. Qed.

(** A release build has no such check. *)
Theorem C97_release_silent_refuted : exists i j a J A, (forall i, jac_at (j i) (J i)) /\ (forall i, key_at (a i) (A i)) /\ ptyped i /\ psay (J, A) i = None /\
  forall ctx gen, pstep true ctx gen (j, a) i = None /\ exists st, pstep false ctx gen (j, a) i = Some st /\ ~ jac_at (fst st 0%nat) (padd (J 0%nat) (A 0%nat)).
Proof. exact C97_release_silent_refuted_pf. Qed.
Print Assumptions C97_release_silent_refuted.

(** Two programs, in any builds and with any correct contexts, that compute the same multiplier other than 0 leave keys that serialize to the same bytes and compare equal. *)
Theorem C97_same_bytes : forall dbg dbg' ctx ctx' gen gen' q q' j a j0 a0 e f e0 f0 e1 f1 e2 f2 d d', verify_ctx ctx -> gen_ctx gen -> verify_ctx ctx' -> gen_ctx gen' ->
  (forall i, 0 <= e i < n /\ jac_at (j i) (smul (e i) G)) -> (forall i, 0 <= f i < n /\ key_at (a i) (smul (f i) G)) -> Forall ptyped q -> lsays (e, f) q = Some (e1, f1) ->
  (forall i, 0 <= e0 i < n /\ jac_at (j0 i) (smul (e0 i) G)) -> (forall i, 0 <= f0 i < n /\ key_at (a0 i) (smul (f0 i) G)) -> Forall ptyped q' -> lsays (e0, f0) q' = Some (e2, f2) ->
  f1 d = f2 d' -> f1 d <> 0 ->
  exists j1 a1 j2 a2 b, prun dbg ctx gen (j, a) q = Some (j1, a1) /\ prun dbg' ctx' gen' (j0, a0) q' = Some (j2, a2) /\ pk_eq dbg (a1 d) (a2 d') = Some true /\
    pk_serialize dbg (a1 d) = Some b /\ pk_serialize dbg' (a2 d') = Some b.
Proof. exact C97_same_bytes_pf. Qed.
Print Assumptions C97_same_bytes.

Example C97_same_bytes_example : match lsays ((fun _ => 1), (fun _ => 1)) [PDouble 0 0; PAddA 0 0 0; PStore 1 0], lsays ((fun _ => 1), (fun _ => n - 1)) [PMul 0 3 (scalar_of (n - 3)); PStoreVar 2 0] with
  | Some (_, f1), Some (_, f2) => f1 1%nat = 3 /\ f2 2%nat = 3 | _, _ => False end.
Proof. exact C97_same_bytes_example_pf. Qed.

(** Deriving a key, adding and multiplying a tweak and combining keys (any number of them), written with the core crate instead of the functions of the main crate: the
    same key, and the point at infinity where the main crate returns an error. *)
Theorem C97_own_code : forall dbg ctx gen j a J A, verify_ctx ctx -> gen_ctx gen -> (forall i, jac_at (j i) (J i)) -> (forall i, key_at (a i) (A i)) ->
  (forall d, 1 <= d < n -> exists k st, pk_from_secret_key dbg gen (scalar_of d) = Some k /\ prun dbg ctx gen (j, a) (own_derive d) = Some st /\ agrees dbg (Ok k) (snd st 1%nat)) /\
  (forall t, A 0%nat <> Inf -> 0 <= t < n -> exists k r st, pk_tweak_add_assign dbg ctx (a 0%nat) (scalar_of t) = Some (k, r) /\ prun dbg ctx gen (j, a) (own_tweak_add t) = Some st /\
     agrees dbg (match r with Ok _ => Ok k | Err e => Err e end) (snd st 1%nat)) /\
  (forall t, A 0%nat <> Inf -> 0 <= t < n -> exists k r st, pk_tweak_mul_assign dbg ctx (a 0%nat) (scalar_of t) = Some (k, r) /\ prun dbg ctx gen (j, a) (own_tweak_mul t) = Some st /\
     agrees dbg (match r with Ok _ => Ok k | Err e => Err e end) (snd st 1%nat)) /\
  (forall l, Forall (fun i => A i <> Inf) l -> exists r st, pk_combine dbg (map a l) = Some r /\ prun dbg ctx gen (j, a) (own_combine l) = Some st /\ agrees dbg r (snd st 1%nat)).
Proof. exact C97_own_code_pf. Qed.
Print Assumptions C97_own_code.

Example C97_own_code_example : key_at AFFINE_G G /\ jac_at JG G /\ G <> Inf /\ Forall (fun i => (fun _ : nat => G) i <> Inf) [3; 4; 3]%nat /\ 1 <= 5 < n.
Proof. exact C97_own_code_example_pf. Qed.
