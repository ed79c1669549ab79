(** A client of the library: any sequence of API calls on numbered results.

    The state is the list of results obtained so far; a command names its arguments by their
    position in it.  A call on a result of another type, or on an error, is skipped (client code
    cannot write the first and handles the second).  [tweak_*_assign] change their key in place,
    as the [&mut self] methods do, and add the [Result] they return.  Not in the language:
    [clear] (it makes a key that is no secret key; C30, C39, C68), the conversions from core types
    and the public fields of [Signature] (C41, C42, C68). *)
From Verif Require Import Word MField MScalar MGroup MEcmult MEcdsa MDer MApi MEq.

(** what a client holds: the public types of src/lib.rs:62-87, byte strings, booleans, errors *)
Inductive cval :=
| CPub (k : pubkey) | CSec (k : seckey) | CSig (g : signature) | CMsg (m : message) | CRid (i : recid)
| CBytes (b : list Z) | CByte (v : Z) | CBool (b : bool) | CErr (e : error) | CUnit.

(** the calls, with the lines of src/lib.rs beside each *)
Inductive cmd :=
| Input (b : list Z)                              (* bytes from outside *)
| PkParse (i : nat) (f : option pkformat)         (* PublicKey::parse_slice, src/lib.rs:123-156 *)
| PkFromSecret (i : nat)                          (* PublicKey::from_secret_key_with_context, 107-121 *)
| PkSerialize (i : nat)                           (* PublicKey::serialize, 216-231 *)
| PkSerializeCompressed (i : nat)                 (* PublicKey::serialize_compressed, 233-251 *)
| PkTweakAdd (i j : nat)                          (* PublicKey::tweak_add_assign_with_context, 253-274 *)
| PkTweakMul (i j : nat)                          (* PublicKey::tweak_mul_assign_with_context, 276-297 *)
| PkCombine (l : list nat)                        (* PublicKey::combine, 299-313 *)
| PkEqual (i j : nat)                             (* derived PartialEq, 62 *)
| SkParse (i : nat)                               (* SecretKey::parse_slice, 421-429 *)
| SkRandom (rng : nat -> list Z)                  (* SecretKey::random, 431-440 *)
| SkDefault                                       (* Default for SecretKey, 477-489 *)
| SkSerialize (i : nat)                           (* SecretKey::serialize, 442-444 *)
| SkTweakAdd (i j : nat)                          (* SecretKey::tweak_add_assign, 446-453 *)
| SkTweakMul (i j : nat)                          (* SecretKey::tweak_mul_assign, 455-462 *)
| SkInv (i : nat)                                 (* SecretKey::inv, 464-466 *)
| SkEqual (i j : nat)                             (* derived PartialEq, 66 *)
| SigParseStandard (i : nat)                      (* Signature::parse_standard_slice, 572-580 *)
| SigParseOverflowing (i : nat)                   (* Signature::parse_overflowing_slice, 561-569 *)
| SigParseDer (i : nat)                           (* Signature::parse_der, 583-601 *)
| SigParseDerLax (i : nat)                        (* Signature::parse_der_lax, 607-617 *)
| SigNormalize (i : nat)                          (* Signature::normalize_s, 636-640 *)
| SigSerialize (i : nat)                          (* Signature::serialize, 644-651 *)
| SigSerializeDer (i : nat)                       (* Signature::serialize_der, 653-686 *)
| SigEqual (i j : nat)                            (* derived PartialEq, 70 *)
| MsgParse (i : nat)                              (* Message::parse_slice, 701-709 *)
| MsgSerialize (i : nat)                          (* Message::serialize, 711-713 *)
| RidParse (v : Z)                                (* RecoveryId::parse, 718-724 *)
| RidParseRpc (v : Z)                             (* RecoveryId::parse_rpc, 727-733 *)
| RidSerialize (i : nat)                          (* RecoveryId::serialize, 735-737 *)
| Ecdh (i j : nat)                                (* SharedSecret::new, 752-770 *)
| Verify (i j l : nat)                            (* verify_with_context, 779-792 *)
| Recover (i j l : nat)                           (* recover_with_context, 795-814 *)
| Sign (i j : nat).                               (* sign_with_context, 818-850 *)

Section Build.
Variable dbg : bool.
Variable gctx : genctx.
Variable vctx : ecctx.
Variable D : list Z -> list Z.
Variable drbg : list Z -> list Z -> nat -> list Z.
(** iterations allowed to each unbounded loop *)
Variable fuel : nat.

(** no code of its own: the result of a call joins the state; a panic ends the program *)
Definition push (st : list cval) (o : option cval) : outcome (list cval) :=
  match o with None => Panic | Some v => Done (st ++ [v]) end.
(** no code of its own: [Ok] and [Err] results *)
Definition of_res {A} (f : A -> cval) (o : option (result A)) : option cval :=
  let* r := o in Some (match r with Ok a => f a | Err e => CErr e end).
(** no code of its own: results of infallible calls *)
Definition of_opt {A} (f : A -> cval) (o : option A) : option cval := let* a := o in Some (f a).
(** element [i] of the list replaced (no lines of its own) *)
Fixpoint upd {A} (st : list A) (i : nat) (v : A) : list A :=
  match st, i with
  | [], _ => []
  | _ :: t, O => v :: t
  | x :: t, S j => x :: upd t j v
  end.
(** an [&mut self] method: the receiver replaced, its [Result] joining the state (src/lib.rs:253-297, 446-462) *)
Definition assign {A} (f : A -> cval) (st : list cval) (i : nat) (o : option (A * result unit)) : outcome (list cval) :=
  match o with
  | None => Panic
  | Some (k, r) => Done (upd st i (f k) ++ [match r with Ok _ => CUnit | Err e => CErr e end])
  end.
(** the slice of keys handed to [PublicKey::combine], src/lib.rs:299 *)
Fixpoint pubs (st : list cval) (l : list nat) : option (list pubkey) :=
  match l with
  | [] => Some []
  | i :: t => match nth_error st i with Some (CPub k) => let* ks := pubs st t in Some (k :: ks) | _ => None end
  end.

(** one call of the client; the functions called are those of the lines cited at [cmd] *)
Definition step (st : list cval) (c : cmd) : outcome (list cval) :=
  match c with
  | Input b => Done (st ++ [CBytes b])
  | PkParse i f => match nth_error st i with Some (CBytes b) => push st (of_res CPub (pk_parse_slice dbg b f)) | _ => Done st end
  | PkFromSecret i => match nth_error st i with Some (CSec k) => push st (of_opt CPub (pk_from_secret_key dbg gctx k)) | _ => Done st end
  | PkSerialize i => match nth_error st i with Some (CPub k) => push st (of_opt CBytes (pk_serialize dbg k)) | _ => Done st end
  | PkSerializeCompressed i => match nth_error st i with Some (CPub k) => push st (of_opt CBytes (pk_serialize_compressed dbg k)) | _ => Done st end
  | PkTweakAdd i j => match nth_error st i, nth_error st j with Some (CPub k), Some (CSec t) => assign CPub st i (pk_tweak_add_assign dbg vctx k t) | _, _ => Done st end
  | PkTweakMul i j => match nth_error st i, nth_error st j with Some (CPub k), Some (CSec t) => assign CPub st i (pk_tweak_mul_assign dbg vctx k t) | _, _ => Done st end
  | PkCombine l => match pubs st l with Some ks => push st (of_res CPub (pk_combine dbg ks)) | None => Done st end
  | PkEqual i j => match nth_error st i, nth_error st j with Some (CPub k), Some (CPub k') => push st (of_opt CBool (pk_eq dbg k k')) | _, _ => Done st end
  | SkParse i => match nth_error st i with Some (CBytes b) => push st (of_res CSec (sk_parse_slice dbg b)) | _ => Done st end
  | SkRandom rng => match sk_random dbg fuel rng 0 with Done k => Done (st ++ [CSec k]) | Panic => Panic | Running => Running end
  | SkDefault => push st (of_opt CSec (sk_default dbg))
  | SkSerialize i => match nth_error st i with Some (CSec k) => Done (st ++ [CBytes (sk_serialize k)]) | _ => Done st end
  | SkTweakAdd i j => match nth_error st i, nth_error st j with Some (CSec k), Some (CSec t) => assign CSec st i (sk_tweak_add_assign dbg k t) | _, _ => Done st end
  | SkTweakMul i j => match nth_error st i, nth_error st j with Some (CSec k), Some (CSec t) => assign CSec st i (sk_tweak_mul_assign dbg k t) | _, _ => Done st end
  | SkInv i => match nth_error st i with Some (CSec k) => push st (of_opt CSec (sk_inv dbg k)) | _ => Done st end
  | SkEqual i j => match nth_error st i, nth_error st j with Some (CSec k), Some (CSec k') => Done (st ++ [CBool (sk_eqb k k')]) | _, _ => Done st end
  | SigParseStandard i => match nth_error st i with Some (CBytes b) => push st (of_res CSig (sig_parse_standard_slice dbg b)) | _ => Done st end
  | SigParseOverflowing i => match nth_error st i with Some (CBytes b) => push st (of_res CSig (sig_parse_overflowing_slice dbg b)) | _ => Done st end
  | SigParseDer i => match nth_error st i with Some (CBytes b) => push st (of_res CSig (sig_parse_der dbg b)) | _ => Done st end
  | SigParseDerLax i => match nth_error st i with Some (CBytes b) => push st (of_res CSig (sig_parse_der_lax dbg b)) | _ => Done st end
  | SigNormalize i => match nth_error st i with
      | Some (CSig g) => match sig_normalize_s dbg g with None => Panic | Some g' => Done (upd st i (CSig g')) end
      | _ => Done st end
  | SigSerialize i => match nth_error st i with Some (CSig g) => Done (st ++ [CBytes (sig_serialize g)]) | _ => Done st end
  | SigSerializeDer i => match nth_error st i with Some (CSig g) => Done (st ++ [CBytes (sig_serialize_der g)]) | _ => Done st end
  | SigEqual i j => match nth_error st i, nth_error st j with Some (CSig g), Some (CSig g') => Done (st ++ [CBool (sig_eqb g g')]) | _, _ => Done st end
  | MsgParse i => match nth_error st i with Some (CBytes b) => push st (of_res CMsg (msg_parse_slice dbg b)) | _ => Done st end
  | MsgSerialize i => match nth_error st i with Some (CMsg m) => Done (st ++ [CBytes (msg_serialize m)]) | _ => Done st end
  | RidParse v => push st (of_res CRid (Some (rid_parse v)))
  | RidParseRpc v => push st (of_res CRid (Some (rid_parse_rpc v)))
  | RidSerialize i => match nth_error st i with Some (CRid r) => Done (st ++ [CByte (rid_serialize r)]) | _ => Done st end
  | Ecdh i j => match nth_error st i, nth_error st j with Some (CPub q), Some (CSec k) => push st (of_res CBytes (shared_secret_new dbg D q k)) | _, _ => Done st end
  | Verify i j l => match nth_error st i, nth_error st j, nth_error st l with
      | Some (CMsg m), Some (CSig g), Some (CPub q) => push st (of_opt CBool (verify dbg vctx m g q))
      | _, _, _ => Done st end
  | Recover i j l => match nth_error st i, nth_error st j, nth_error st l with
      | Some (CMsg m), Some (CSig g), Some (CRid r) => push st (of_res CPub (recover dbg vctx m g r))
      | _, _, _ => Done st end
  | Sign i j => match nth_error st i, nth_error st j with
      | Some (CMsg m), Some (CSec k) =>
          match sign dbg drbg fuel gctx m k with Done (g, r) => Done (st ++ [CSig g; CRid r]) | Panic => Panic | Running => Running end
      | _, _ => Done st end
  end.
(** a whole program, any number of calls (src/lib.rs is entered at the lines cited at [cmd]) *)
Fixpoint run (st : list cval) (p : list cmd) : outcome (list cval) :=
  match p with
  | [] => Done st
  | c :: t => match step st c with Done st' => run st' t | Panic => Panic | Running => Running end
  end.
End Build.

(** what the outside sees of a result (bytes, booleans and errors; no lines of its own) *)
Definition seen (v : cval) : option cval :=
  match v with CBytes _ | CByte _ | CBool _ | CErr _ | CUnit => Some v | _ => None end.
