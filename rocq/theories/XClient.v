(** MClient.v once more, with two flags instead of one: [fst bd] says whether debug assertions are executed
    ([debug-assertions]), [snd bd] whether an arithmetic overflow panics ([overflow-checks]). Written by tools/gen_builds.py. *)
From Verif Require Import Word MField MScalar MGroup MEcmult MEcdsa MDer MApi MEq MMachine MClient XField XScalar XGroup XEcmult XEcdsa XDer XApi XMachine.

Section Build.
Variable bd : bool * bool.
Variable gctx : genctx.
Variable vctx : ecctx.
Variable D : list Z -> list Z.
Variable drbg : list Z -> list Z -> nat -> list Z.
Variable fuel : nat.

(** one call of the client; the functions called are those of the lines cited at [call] *)
Definition step_call_x (st : list cval) (c : call) : outcome (list cval) :=
  match c with
  | Do c => step_x bd gctx vctx D drbg fuel st c
  | SkClear i => match nth_error st i with Some (CSec k) => Done (upd st i (CSec (sk_clear k))) | _ => Done st end
  | SkIsZero i => match nth_error st i with Some (CSec k) => Done (st ++ [CBool (s_is_zero k)]) | _ => Done st end
  | MsgOfSk i => match nth_error st i with Some (CSec k) => Done (st ++ [CMsg k]) | _ => Done st end
  | SkOfMsg i => match nth_error st i with Some (CMsg m) => push st (of_res CSec (Some (sk_try_from m))) | _ => Done st end
  | SigOfMsgs i j => match nth_error st i, nth_error st j with Some (CMsg a), Some (CMsg b) => Done (st ++ [CSig (Sig a b)]) | _, _ => Done st end
  | MsgsOfSig i => match nth_error st i with Some (CSig g) => Done (st ++ [CMsg (sig_r g); CMsg (sig_s g)]) | _ => Done st end
  | PkRecheck i => match nth_error st i with Some (CPub k) => push st (of_res CPub (pk_try_from_x bd k)) | _ => Done st end
  end.

(** a whole program, any number of calls (src/lib.rs is entered at the lines cited at [call]) *)
Fixpoint run_calls_x (st : list cval) (p : list call) : outcome (list cval) :=
  match p with
  | [] => Done st
  | c :: t => match step_call_x st c with Done st' => run_calls_x st' t | Panic => Panic | Running => Running end
  end.

End Build.
