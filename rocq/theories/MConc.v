(** Threads sharing the two lazily initialised contexts (src/lib.rs:41-48).

    [ECMULT_CONTEXT] and [ECMULT_GEN_CONTEXT] are [lazy_static]s: the first thread that dereferences one runs its
    initialiser while the others that dereference it wait; afterwards everyone reads the value, which nothing writes again.
    (That is the contract of [lazy_static] and [std::sync::Once], external code; if an initialiser panics, every later
    dereference panics.)  The functions of the API without a context argument dereference one of them and run the
    [_with_context] function.  Simplifications: a call reads its context in one step and then runs without interruption, which
    is no restriction as the calls write to nothing shared; a call that panics is recorded as such and its thread goes on. *)
From Verif Require Import Word MField MScalar MGroup MEcmult MEcdsa MApi.

(** Calls that dereference a context: src/lib.rs:119-121, 272-274, 295-297, 765-769, 790-792, 808-814, 857-859 *)
Inductive call :=
| CFromSecretKey (sk : seckey)
| CSign (drbg : list Z -> list Z -> nat -> list Z) (fuel : nat) (m : message) (sk : seckey)
| CTweakAdd (k : pubkey) (t : seckey)
| CTweakMul (k : pubkey) (t : seckey)
| CSharedSecret (D : list Z -> list Z) (k : pubkey) (sk : seckey)
| CVerify (m : message) (g : signature) (k : pubkey)
| CRecover (m : message) (g : signature) (rid : recid).
(** what the calls above return, or a panic because the context is poisoned (src/lib.rs:41-48) *)
Inductive answer :=
| AKey (o : option pubkey)
| ASign (o : outcome (signature * recid))
| ATweak (o : option (pubkey * result unit))
| ASecret (o : option (result (list Z)))
| ABool (o : option bool)
| ARecover (o : option (result pubkey))
| APoisoned.
(** which of the two: [true] for [ECMULT_CONTEXT], [false] for [ECMULT_GEN_CONTEXT], src/lib.rs:44, 47 *)
Definition which (c : call) : bool :=
  match c with CFromSecretKey _ | CSign _ _ _ _ => false | _ => true end.
(** the contents of the two [lazy_static]s, src/lib.rs:44, 47 *)
Inductive value := VEc (c : ecctx) | VGen (c : genctx).
(** a [lazy_static], src/lib.rs:44, 47 *)
Inductive cell := Fresh | Busy | Ready (v : value) | Poisoned.
(** no code of its own: a thread, the calls (of src/lib.rs lines above) it has still to make, and their answers *)
Record thread := Th { todo : list call; initialising : bool; got : list answer }.
(** no code of its own: the two [lazy_static]s of src/lib.rs:41-48, how often each was initialised, and the threads *)
Record process := Pr { cells : bool -> cell; runs : bool -> nat; threads : list thread }.

Section Build.
Variable dbg : bool.
(** src/lib.rs:44, 47: the initialisers *)
Definition initialiser (w : bool) : option value :=
  if w then let* c := ecmult_context_new dbg in Some (VEc c) else let* c := ecmult_gen_context_new dbg in Some (VGen c).
(** the [_with_context] functions; a context of the wrong kind is a type error in the code (src/lib.rs:107-116, 253-269, 276-292, 753-764, 779-786, 795-804, 818-850) *)
Definition perform (c : call) (v : value) : answer :=
  match c, v with
  | CFromSecretKey sk, VGen g => AKey (pk_from_secret_key dbg g sk)
  | CSign drbg fuel m sk, VGen g => ASign (sign dbg drbg fuel g m sk)
  | CTweakAdd k t, VEc e => ATweak (pk_tweak_add_assign dbg e k t)
  | CTweakMul k t, VEc e => ATweak (pk_tweak_mul_assign dbg e k t)
  | CSharedSecret D k sk, VEc _ => ASecret (shared_secret_new dbg D k sk)
  | CVerify m g k, VEc e => ABool (verify dbg e m g k)
  | CRecover m g rid, VEc e => ARecover (recover dbg e m g rid)
  | _, _ => APoisoned
  end.
(** no code of its own: element [i] of a list replaced *)
Fixpoint replace {A} (l : list A) (i : nat) (a : A) : list A :=
  match l, i with
  | [], _ => []
  | _ :: t, O => a :: t
  | x :: t, S i' => x :: replace t i' a
  end.
(** no code of its own: a map from the two contexts, changed at one *)
Definition set {A} (f : bool -> A) (w : bool) (a : A) : bool -> A := fun w' => if Bool.eqb w w' then a else f w'.
(** one step of thread [i]; a thread that has to wait, or has nothing to do, does not change the state ([lazy_static] dereference, src/lib.rs:41-48) *)
Definition step (st : process) (i : nat) : process :=
  match nth_error (threads st) i with
  | None => st
  | Some t =>
      match todo t with
      | [] => st
      | c :: rest =>
          let w := which c in
          let put cell n t' := Pr (set (cells st) w cell) (set (runs st) w n) (replace (threads st) i t') in
          let n := runs st w in
          if initialising t then
            match initialiser w with
            | Some v => put (Ready v) (S n) (Th (todo t) false (got t))
            | None => put Poisoned (S n) (Th rest false (got t ++ [APoisoned]))
            end
          else
            match cells st w with
            | Fresh => put Busy n (Th (todo t) true (got t))
            | Busy => st
            | Ready v => put (Ready v) n (Th rest false (got t ++ [perform c v]))
            | Poisoned => put Poisoned n (Th rest false (got t ++ [APoisoned]))
            end
      end
  end.
(** a schedule: which thread runs next (environment of the code, no lines in /repo) *)
Definition run (st : process) (schedule : list nat) : process := fold_left step schedule st.
(** a process whose threads are to make the calls [programs] (no context initialised yet, src/lib.rs:41-48) *)
Definition start (programs : list (list call)) : process :=
  Pr (fun _ => Fresh) (fun _ => O) (map (fun p => Th p false []) programs).
End Build.
