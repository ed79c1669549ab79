(** A client that also clears secret keys and uses the conversions and public fields.

    The language of MMachine.v with [clear] (a value the client goes on using), and with the
    moves of scalars between the types that expose them: the public field of [Message], the
    public fields of [Signature], [Into<Scalar>] and [TryFrom<Scalar>] of [SecretKey], and
    [Into<Affine>] followed by [TryFrom<Affine>] of [PublicKey].  A message stands for any scalar
    the client holds.  Not in the language: scalars and points the client computes with the
    core crate itself (C41, C42, C46-C61). *)
From Verif Require Import Word MField MScalar MGroup MEcmult MEcdsa MDer MApi MEq MMachine.

(** the calls, with the lines of src/lib.rs beside each *)
Inductive call :=
| Do (c : cmd)
| SkClear (i : nat)                (* SecretKey::clear, src/lib.rs:468-470: in place, no result *)
| SkIsZero (i : nat)               (* SecretKey::is_zero, 472-474 *)
| MsgOfSk (i : nat)                (* Message(key.into()), 83, 491-495 *)
| SkOfMsg (i : nat)                (* SecretKey::try_from(message.0), 83, 497-507 *)
| SigOfMsgs (i j : nat)            (* Signature { r: a.0, s: b.0 }, 72-75, 83 *)
| MsgsOfSig (i : nat)              (* Message(signature.r), Message(signature.s), 72-75, 83 *)
| PkRecheck (i : nat).             (* PublicKey::try_from(Affine::from(key)), 316-332 *)

Section Build.
Variable dbg : bool.
Variable gctx : genctx.
Variable vctx : ecctx.
Variable D : list Z -> list Z.
Variable drbg : list Z -> list Z -> nat -> list Z.
Variable fuel : nat.

(** one call of the client; the functions called are those of the lines cited at [call] *)
Definition step_call (st : list cval) (c : call) : outcome (list cval) :=
  match c with
  | Do c => step dbg gctx vctx D drbg fuel st c
  | SkClear i => match nth_error st i with Some (CSec k) => Done (upd st i (CSec (sk_clear k))) | _ => Done st end
  | SkIsZero i => match nth_error st i with Some (CSec k) => Done (st ++ [CBool (s_is_zero k)]) | _ => Done st end
  | MsgOfSk i => match nth_error st i with Some (CSec k) => Done (st ++ [CMsg k]) | _ => Done st end
  | SkOfMsg i => match nth_error st i with Some (CMsg m) => push st (of_res CSec (Some (sk_try_from m))) | _ => Done st end
  | SigOfMsgs i j => match nth_error st i, nth_error st j with Some (CMsg a), Some (CMsg b) => Done (st ++ [CSig (Sig a b)]) | _, _ => Done st end
  | MsgsOfSig i => match nth_error st i with Some (CSig g) => Done (st ++ [CMsg (sig_r g); CMsg (sig_s g)]) | _ => Done st end
  | PkRecheck i => match nth_error st i with Some (CPub k) => push st (of_res CPub (pk_try_from dbg k)) | _ => Done st end
  end.
(** a whole program, any number of calls (src/lib.rs is entered at the lines cited at [call]) *)
Fixpoint run_calls (st : list cval) (p : list call) : outcome (list cval) :=
  match p with
  | [] => Done st
  | c :: t => match step_call st c with Done st' => run_calls st' t | Panic => Panic | Running => Running end
  end.
End Build.
