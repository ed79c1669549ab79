(** Property theorems proved in ApiMachine.v (written by tools/gen_props.py). *)
From Verif Require Import Word MField MScalar MGroup MEcmult MEcdsa MDer MApi MEq MMachine MDrbg WP FieldNorm Spec Fp Bits Denote Curve Group Order Key Ctx ApiScalar ApiDer ApiGrammar ApiPub ApiGroup ApiEcdsa ApiKeys ApiMore ApiBase64 ApiEq ApiWire ApiDrbg ApiMachine.

(** Every program, in every build and with any correct contexts: it does what the abstract machine does, or it is still in a loop whose blocks were all unusable, or it is a debug build that met a nonce whose point has x >= n. *)
Theorem C78_simulation : forall dbg gctx vctx D drbg fuel p, gen_ctx gctx -> verify_ctx vctx -> (forall b, small (D b)) -> (forall s s', stream (drbg s s')) -> Forall cmd_ok p ->
  let o := run dbg gctx vctx D drbg fuel [] p in
  (exists st ast, o = Done st /\ aruns D drbg [] p ast /\ Forall2 rep st ast) \/
  (o = Running /\ exists p1 c p2 ast, p = p1 ++ c :: p2 /\ aruns D drbg [] p1 ast /\ waits drbg fuel ast c) \/
  (o = Panic /\ dbg = true /\ exists p1 c p2 ast, p = p1 ++ c :: p2 /\ aruns D drbg [] p1 ast /\ faults drbg ast c).
Proof. exact C78_simulation_pf. Qed.
Print Assumptions C78_simulation.

(** The abstract machine is deterministic. *)
Theorem C78_determined : forall D drbg p ast ast', (forall b, small (D b)) -> (forall s s', stream (drbg s s')) -> Forall cmd_ok p -> aruns D drbg [] p ast -> aruns D drbg [] p ast' -> ast = ast'.
Proof. exact C78_determined_pf. Qed.
Print Assumptions C78_determined.

(** What the abstract machine does a release build does, with any correct contexts, when it waits long enough. *)
Theorem C78_complete : forall gctx vctx D drbg p ast, gen_ctx gctx -> verify_ctx vctx -> (forall b, small (D b)) -> (forall s s', stream (drbg s s')) -> Forall cmd_ok p -> aruns D drbg [] p ast ->
  exists f0, forall fuel, (f0 <= fuel)%nat -> exists st, run false gctx vctx D drbg fuel [] p = Done st /\ Forall2 rep st ast.
Proof. exact C78_complete_pf. Qed.
Print Assumptions C78_complete.

(** Two runs that finish show the same bytes, errors and booleans, whatever the builds and contexts. *)
Theorem C78_same_observations : forall dbg dbg' gctx gctx' vctx vctx' D drbg fuel fuel' p st st', gen_ctx gctx -> gen_ctx gctx' -> verify_ctx vctx -> verify_ctx vctx' -> (forall b, small (D b)) -> (forall s s', stream (drbg s s')) -> Forall cmd_ok p ->
  run dbg gctx vctx D drbg fuel [] p = Done st -> run dbg' gctx' vctx' D drbg fuel' [] p = Done st' -> map seen st = map seen st'.
Proof. exact C78_same_observations_pf. Qed.
Print Assumptions C78_same_observations.

(** A debug build that finishes has met no such nonce. *)
Theorem C78_debug : forall gctx vctx D drbg fuel p st p1 c p2 ast, gen_ctx gctx -> verify_ctx vctx -> (forall b, small (D b)) -> (forall s s', stream (drbg s s')) -> Forall cmd_ok p ->
  run true gctx vctx D drbg fuel [] p = Done st -> p = p1 ++ c :: p2 -> aruns D drbg [] p1 ast -> ~ faults drbg ast c.
Proof. exact C78_debug_pf. Qed.
Print Assumptions C78_debug.

(** Deriving, verifying and an overflowing tweak, with one call on a value of another type. *)
Example C78_simulation_example : (exists gctx, gen_ctx gctx) /\ (exists vctx, verify_ctx vctx) /\ (forall b : list Z, small ((fun _ => repeat 7 32) b)) /\ (forall s s' : list Z, stream ((fun _ _ _ => repeat 7 32) s s')) /\ Forall cmd_ok sample /\
  forall D drbg, aruns D drbg [] sample sample_end.
Proof. exact C78_simulation_example_pf. Qed.

(** Nonces a debug build panics at exist. *)
Example C78_debug_example : exists drbg, (forall s s', stream (drbg s s')) /\ faults drbg [AMsg 0; ASec 1] (Sign 0 1).
Proof. exact C78_debug_example_pf. Qed.

(** That program finishes in both builds, in any correct contexts. *)
Example C78_same_observations_example : forall dbg gctx vctx, gen_ctx gctx -> verify_ctx vctx -> exists st, run dbg gctx vctx (fun _ => repeat 7 32) (fun _ _ _ => repeat 7 32) 0 [] sample = Done st /\ Forall2 rep st sample_end.
Proof. exact C78_same_observations_example_pf. Qed.

(** The library as it is shipped: contexts it built itself, SHA-256, the HMAC-DRBG; nothing is assumed but that the input is bytes. *)
Theorem C78_library : forall dbg fuel p, Forall cmd_ok p ->
  exists gctx vctx, ecmult_gen_context_new dbg = Some gctx /\ ecmult_context_new dbg = Some vctx /\
    let D := sha256 in let drbg := sign_drbg (hmac sha256) in let o := run dbg gctx vctx D drbg fuel [] p in
    (exists st ast, o = Done st /\ aruns D drbg [] p ast /\ Forall2 rep st ast) \/
    (o = Running /\ exists p1 c p2 ast, p = p1 ++ c :: p2 /\ aruns D drbg [] p1 ast /\ waits drbg fuel ast c) \/
    (o = Panic /\ dbg = true /\ exists p1 c p2 ast, p = p1 ++ c :: p2 /\ aruns D drbg [] p1 ast /\ faults drbg ast c).
Proof. exact C78_library_pf. Qed.
Print Assumptions C78_library.

Example C78_library_example : Forall cmd_ok sample /\ aruns sha256 (sign_drbg (hmac sha256)) [] sample sample_end.
Proof. exact C78_library_example_pf. Qed.
