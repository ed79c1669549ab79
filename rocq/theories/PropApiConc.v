(** Property theorems proved in ApiConc.v (written by tools/gen_props.py). *)
From Verif Require Import Word MField MScalar MGroup MEcmult MEcdsa MApi MConc WP Spec Denote Ctx ApiGroup ApiConc.

(** Under every schedule of any number of threads, what a thread has got so far is what the calls it has completed
    return when each is made alone in a process of its own. *)
Theorem C60_sequential : forall dbg programs schedule i prog, nth_error programs i = Some prog ->
  exists t completed, nth_error (threads (run dbg (start programs) schedule)) i = Some t /\
    prog = completed ++ todo t /\ got t = flat_map (alone dbg) completed.
Proof. exact C60_sequential_pf. Qed.
Print Assumptions C60_sequential.

Example C60_sequential_example : alone true (CVerify (scalar_of 1) (Sig (scalar_of 0) (scalar_of 1)) AFFINE_G) = [ABool (Some false)].
Proof. exact C60_sequential_example_pf. Qed.

(** A call alone in its process runs with the context the library builds, of the kind it needs: no call is without an answer. *)
Theorem C60_alone : forall dbg, exists e g, ecmult_context_new dbg = Some e /\ verify_ctx e /\ ecmult_gen_context_new dbg = Some g /\ gen_ctx g /\ forall c, alone dbg c = [match c with
  | CFromSecretKey sk => AKey (pk_from_secret_key dbg g sk)
  | CSign drbg fuel m sk => ASign (sign dbg drbg fuel g m sk)
  | CTweakAdd k t => ATweak (pk_tweak_add_assign dbg e k t)
  | CTweakMul k t => ATweak (pk_tweak_mul_assign dbg e k t)
  | CSharedSecret D k sk => ASecret (shared_secret_new dbg D k sk)
  | CVerify m s k => ABool (verify dbg e m s k)
  | CRecover m s rid => ARecover (recover dbg e m s rid) end].
Proof. exact C60_alone_pf. Qed.
Print Assumptions C60_alone.

Example C60_alone_example : alone true (CFromSecretKey (scalar_of 1)) <> [APoisoned] /\ alone true (CFromSecretKey (scalar_of 1)) <> [].
Proof. exact C60_alone_example_pf. Qed.

(** Each initialiser runs at most once, and a context that is ready is a valid context and is not replaced. *)
Theorem C60_once : forall dbg programs schedule w,
  (runs (run dbg (start programs) schedule) w <= 1)%nat /\
  forall v, cells (run dbg (start programs) schedule) w = Ready v ->
    match v with VEc c => w = true /\ ecmult_context_new dbg = Some c /\ verify_ctx c | VGen g => w = false /\ ecmult_gen_context_new dbg = Some g /\ gen_ctx g end /\
    forall later, cells (run dbg (start programs) (schedule ++ later)) w = Ready v.
Proof. exact C60_once_pf. Qed.
Print Assumptions C60_once.

Example C60_once_example : forall k, exists v, cells (run true (start [[CFromSecretKey k]; [CFromSecretKey k]]) [0; 1; 0; 1]%nat) false = Ready v /\
  cells (run true (start [[CFromSecretKey k]; [CFromSecretKey k]]) [0; 1]%nat) false = Busy.
Proof. exact C60_once_example_pf. Qed.

(** No schedule leads to a deadlock: from every state reached, all the threads can be run to completion. *)
Theorem C60_no_deadlock : forall dbg programs schedule, exists later, forall i prog, nth_error programs i = Some prog ->
  exists t, nth_error (threads (run dbg (start programs) (schedule ++ later))) i = Some t /\ todo t = [] /\ got t = flat_map (alone dbg) prog.
Proof. exact C60_no_deadlock_pf. Qed.
Print Assumptions C60_no_deadlock.

Example C60_no_deadlock_example : forall k, step true (run true (start [[CFromSecretKey k]; [CFromSecretKey k]]) [0]%nat) 1 = run true (start [[CFromSecretKey k]; [CFromSecretKey k]]) [0]%nat.
Proof. exact C60_no_deadlock_example_pf. Qed.
