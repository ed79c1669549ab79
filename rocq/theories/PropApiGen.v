(** Property theorems proved in ApiGen.v (written by tools/gen_props.py). *)
From Coq Require Import String Ascii.
From Verif Require Import Word MField MScalar MGroup MEcmult MGenSrc WP Spec FieldStore Ctx Ecmult Gen ApiGroup Mono ApiGen.

(** The verification context a [static-context] library is compiled with (from the text its build script writes) is
    the one built at run time, whichever build modes the build script and the library use; it is a valid context. *)
Theorem C67_static_verify_context : forall dbg dbg', exists txt c, const_rs dbg = Some txt /\ static_ecmult_context txt = Some c /\ ecmult_context_new dbg' = Some c /\ verify_ctx c.
Proof. exact C67_static_verify_context_pf. Qed.
Print Assumptions C67_static_verify_context.

(** The same for the signing context. *)
Theorem C67_static_gen_context : forall dbg dbg', exists txt c, const_gen_rs dbg = Some txt /\ static_ecmult_gen_context txt = Some c /\ ecmult_gen_context_new dbg' = Some c /\ gen_ctx c.
Proof. exact C67_static_gen_context_pf. Qed.
Print Assumptions C67_static_gen_context.

(** The emitted text means the table it was printed from, for every table of 32-bit limbs of the declared shape. *)
Theorem C67_text_round_trip : (forall t, Z.of_nat (length t) = 16384 -> (forall a, In a t -> entry_ok a) -> static_ecmult_context (emit_ecmult t) = Some (Ctx t)) /\
  (forall prec, length prec = 64%nat -> (forall r, In r prec -> length r = 16%nat /\ forall a, In a r -> entry_ok a) ->
     exists txt, emit_genmult prec = Some txt /\ static_ecmult_gen_context txt = Some (GCtx prec GEN_BLIND GEN_INITIAL)).
Proof. exact C67_text_round_trip_pf. Qed.
Print Assumptions C67_text_round_trip.

(** An entry with extreme limbs, as written and as read back. *)
Example C67_text_round_trip_example : entry_ok (As (Fs 0 1 2 3 4 5 6 4294967295) (Fs 10 0 0 0 0 0 0 0)) /\
  emit_ecmult [As (Fs 0 1 2 3 4 5 6 4294967295) (Fs 10 0 0 0 0 0 0 0)] =
    "[    crate::curve::AffineStorage::new(crate::curve::FieldStorage::new(4294967295, 6, 5, 4, 3, 2, 1, 0), crate::curve::FieldStorage::new(0, 0, 0, 0, 0, 0, 0, 10)),]"%string /\
  include_value "[ crate::curve::FieldStorage::new(0, 0, 0, 0, 0, 0, 0, 4294967296) ]" = None /\ include_value "[1 2]" = None.
Proof. exact C67_text_round_trip_example_pf. Qed.
