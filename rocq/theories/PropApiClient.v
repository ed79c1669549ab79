(** Property theorems proved in ApiClient.v (written by tools/gen_props.py). *)
From Verif Require Import Word MField MScalar MGroup MEcmult MEcdsa MDer MApi MEq MMachine MClient MDrbg WP FieldNorm Spec Fp Bits FieldOps Denote Curve Group Chain Order Jac JacOps Lift Key Ctx ApiScalar ApiDer ApiGrammar ApiPub ApiGroup ApiEcdsa ApiKeys ApiMore ApiBase64 ApiEq ApiWire ApiDrbg Zero ApiClear ApiMachine ApiClient.

(** Every program with [clear] and the conversions, in every build: it does what the abstract machine does, or it is still in a loop whose blocks were all unusable, or it is a debug build that panics where the machine says, or it is a release build that has combined a key at (0, 0) with a point. *)
Theorem C85_simulation : forall dbg gctx vctx D drbg fuel p, gen_ctx gctx -> verify_ctx vctx -> (forall b, small (D b)) -> (forall s s', stream (drbg s s')) -> Forall call_ok p ->
  let o := run_calls dbg gctx vctx D drbg fuel [] p in
  (exists st bst, o = Done st /\ bruns D drbg [] p bst /\ Forall2 (brep dbg) st bst) \/
  (o = Running /\ exists p1 c p2 bst, p = p1 ++ c :: p2 /\ bruns D drbg [] p1 bst /\ bwaits drbg fuel bst c) \/
  (o = Panic /\ dbg = true /\ exists p1 c p2 bst, p = p1 ++ c :: p2 /\ bruns D drbg [] p1 bst /\ bfaults drbg bst c) \/
  (dbg = false /\ exists p1 c p2 bst, p = p1 ++ c :: p2 /\ bruns D drbg [] p1 bst /\ mixes bst c).
Proof. exact C85_simulation_pf. Qed.
Print Assumptions C85_simulation.

Theorem C85_determined : forall D drbg p bst bst', (forall b, small (D b)) -> (forall s s', stream (drbg s s')) -> Forall call_ok p -> bruns D drbg [] p bst -> bruns D drbg [] p bst' -> bst = bst'.
Proof. exact C85_determined_pf. Qed.
Print Assumptions C85_determined.

(** What the abstract machine does a release build does when it waits long enough. *)
Theorem C85_complete : forall gctx vctx D drbg p bst, gen_ctx gctx -> verify_ctx vctx -> (forall b, small (D b)) -> (forall s s', stream (drbg s s')) -> Forall call_ok p -> bruns D drbg [] p bst ->
  exists f0, forall fuel, (f0 <= fuel)%nat -> exists st, run_calls false gctx vctx D drbg fuel [] p = Done st /\ Forall2 (brep false) st bst.
Proof. exact C85_complete_pf. Qed.
Print Assumptions C85_complete.

(** A debug build that finishes shows what every release build that finishes shows. *)
Theorem C85_same_observations : forall dbg gctx gctx' vctx vctx' D drbg fuel fuel' p st st', gen_ctx gctx -> gen_ctx gctx' -> verify_ctx vctx -> verify_ctx vctx' -> (forall b, small (D b)) -> (forall s s', stream (drbg s s')) -> Forall call_ok p ->
  run_calls true gctx vctx D drbg fuel [] p = Done st -> run_calls dbg gctx' vctx' D drbg fuel' [] p = Done st' -> map seen st = map seen st'.
Proof. exact C85_same_observations_pf. Qed.
Print Assumptions C85_same_observations.

(** The debug build panics at every such place. *)
Theorem C85_debug : forall gctx vctx D drbg fuel p st p1 c p2 bst, gen_ctx gctx -> verify_ctx vctx -> (forall b, small (D b)) -> (forall s s', stream (drbg s s')) -> Forall call_ok p ->
  run_calls true gctx vctx D drbg fuel [] p = Done st -> p = p1 ++ c :: p2 -> bruns D drbg [] p1 bst -> ~ bfaults drbg bst c.
Proof. exact C85_debug_pf. Qed.
Print Assumptions C85_debug.

(** Without [clear], all values stay good: no release build panics, and a debug build panics only in signing. *)
Theorem C85_without_clear : forall dbg gctx vctx D drbg fuel p, gen_ctx gctx -> verify_ctx vctx -> (forall b, small (D b)) -> (forall s s', stream (drbg s s')) -> Forall call_ok p -> (forall i, ~ In (SkClear i) p) ->
  let o := run_calls dbg gctx vctx D drbg fuel [] p in
  (exists st ast, o = Done st /\ bruns D drbg [] p (map Good ast) /\ Forall2 rep st ast) \/
  (o = Running /\ exists p1 c p2 bst, p = p1 ++ c :: p2 /\ bruns D drbg [] p1 bst /\ bwaits drbg fuel bst c) \/
  (o = Panic /\ dbg = true /\ exists p1 i j p2 bst, p = p1 ++ Do (Sign i j) :: p2 /\ bruns D drbg [] p1 bst /\ bfaults drbg bst (Do (Sign i j))).
Proof. exact C85_without_clear_pf. Qed.
Print Assumptions C85_without_clear.

(** [clear] forgets the key: what follows is the same whatever the key was. *)
Theorem C85_forgets : forall dbg gctx vctx D drbg fuel p st i k k', nth_error st i = Some (CSec k) ->
  run_calls dbg gctx vctx D drbg fuel st (SkClear i :: p) = run_calls dbg gctx vctx D drbg fuel (upd st i (CSec k')) (SkClear i :: p).
Proof. exact C85_forgets_pf. Qed.
Print Assumptions C85_forgets.

(** The library as it is shipped. *)
Theorem C85_library : forall dbg fuel p, Forall call_ok p ->
  exists gctx vctx, ecmult_gen_context_new dbg = Some gctx /\ ecmult_context_new dbg = Some vctx /\
    let D := sha256 in let drbg := sign_drbg (hmac sha256) in let o := run_calls dbg gctx vctx D drbg fuel [] p in
    (exists st bst, o = Done st /\ bruns D drbg [] p bst /\ Forall2 (brep dbg) st bst) \/
    (o = Running /\ exists p1 c p2 bst, p = p1 ++ c :: p2 /\ bruns D drbg [] p1 bst /\ bwaits drbg fuel bst c) \/
    (o = Panic /\ dbg = true /\ exists p1 c p2 bst, p = p1 ++ c :: p2 /\ bruns D drbg [] p1 bst /\ bfaults drbg bst c) \/
    (dbg = false /\ exists p1 c p2 bst, p = p1 ++ c :: p2 /\ bruns D drbg [] p1 bst /\ mixes bst c).
Proof. exact C85_library_pf. Qed.
Print Assumptions C85_library.

Example C85_simulation_example : (exists gctx, gen_ctx gctx) /\ (exists vctx, verify_ctx vctx) /\ (forall b : list Z, small ((fun _ => repeat 7 32) b)) /\ (forall s s' : list Z, stream ((fun _ _ _ => repeat 7 32) s s')) /\ Forall call_ok clearing /\
  forall D drbg, bruns D drbg [] clearing clearing_end.
Proof. exact C85_simulation_example_pf. Qed.

Example C85_same_observations_example : forall dbg gctx vctx, gen_ctx gctx -> verify_ctx vctx -> exists st, run_calls dbg gctx vctx (fun _ => repeat 7 32) (fun _ _ _ => repeat 7 32) 0 [] clearing = Done st /\ Forall2 (brep dbg) st clearing_end.
Proof. exact C85_same_observations_example_pf. Qed.

(** Using the derived key is such a place, and combining it with the generator is the mixture. *)
Example C85_debug_example : forall drbg, bfaults drbg [Zero; Null true] (Do (PkSerialize 1)) /\ mixes [Good (APub gx gy); Null true] (Do (PkCombine [0%nat; 1%nat])).
Proof. exact C85_debug_example_pf. Qed.

Example C85_without_clear_example : Forall call_ok moving /\ (forall i, ~ In (SkClear i) moving) /\ forall D drbg, bruns D drbg [] moving (map Good [ASec 1; AMsg 1; ASec 1; ASig 1 1; AMsg 1; AMsg 1; ABool false]).
Proof. exact C85_without_clear_example_pf. Qed.

Example C85_forgets_example : nth_error [CSec (scalar_of 5)] 0 = Some (CSec (scalar_of 5)) /\ scalar_of 5 <> scalar_of 7.
Proof. exact C85_forgets_example_pf. Qed.

Example C85_library_example : Forall call_ok clearing /\ bruns sha256 (sign_drbg (hmac sha256)) [] clearing clearing_end.
Proof. exact C85_library_example_pf. Qed.
