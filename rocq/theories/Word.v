(** Machine words, panics and build modes.

    Rust semantics shared by every model file.  Nothing here models a particular
    line of the repository; it fixes the meaning of Rust's primitive operations.

    - [option A]: [None] is a panic, [Some a] a normal return.
    - [dbg : bool]: [true] = debug build (overflow checks and [debug_assert!] on),
      [false] = release build (wrap-around arithmetic, [debug_assert!] absent). *)
From Coq Require Export ZArith List Bool Lia.
Export ListNotations.
#[global] Open Scope Z_scope.

Definition bind {A B} (o : option A) (f : A -> option B) : option B :=
  match o with Some a => f a | None => None end.

(** [let* x := e in b]: run a possibly panicking computation. *)
Notation "'let*' x ':=' e 'in' b" := (bind e (fun x => b))
  (at level 200, x binder, e at level 100, b at level 200, right associativity).
(** [let! x := e in b]: name a pure value. *)
Notation "'let!' x ':=' e 'in' b" := (bind (Some e) (fun x => b))
  (at level 200, x binder, e at level 100, b at level 200, right associativity).
(** [e ;; b]: run [e] for its possible panic only. *)
Notation "e ;; b" := (bind e (fun _ : unit => b)) (at level 100, b at level 200, right associativity).

(** [debug_assert!(b)] *)
Definition dassert (dbg b : bool) : option unit :=
  if dbg then (if b then Some tt else None) else Some tt.
(** [assert!(b)] *)
Definition hassert (b : bool) : option unit := if b then Some tt else None.

(** Unsigned arithmetic at width [w]: panics on overflow in debug builds, wraps in release builds. *)
Definition uchk (w : Z) (dbg : bool) (v : Z) : option Z :=
  if (0 <=? v) && (v <? 2 ^ w) then Some v else if dbg then None else Some (v mod 2 ^ w).

Definition add32 (dbg : bool) (a b : Z) := uchk 32 dbg (a + b).
Definition sub32 (dbg : bool) (a b : Z) := uchk 32 dbg (a - b).
Definition mul32 (dbg : bool) (a b : Z) := uchk 32 dbg (a * b).
Definition add64 (dbg : bool) (a b : Z) := uchk 64 dbg (a + b).
Definition sub64 (dbg : bool) (a b : Z) := uchk 64 dbg (a - b).
Definition mul64 (dbg : bool) (a b : Z) := uchk 64 dbg (a * b).
Definition add8 (dbg : bool) (a b : Z) := uchk 8 dbg (a + b).
Definition sub8 (dbg : bool) (a b : Z) := uchk 8 dbg (a - b).

(** [i32] arithmetic: panics on overflow in debug builds, wraps (two's complement) in release builds. *)
Definition ichk (dbg : bool) (v : Z) : option Z :=
  if (- 2 ^ 31 <=? v) && (v <? 2 ^ 31) then Some v
  else if dbg then None else Some ((v + 2 ^ 31) mod 2 ^ 32 - 2 ^ 31).

(** [u32::wrapping_add], [u64::wrapping_add] *)
Definition wadd32 (a b : Z) : Z := (a + b) mod 2 ^ 32.
Definition wadd64 (a b : Z) : Z := (a + b) mod 2 ^ 64.

(** [a << k] on [u32] for [k < 32]: bits shifted out are dropped in both build modes. *)
Definition shl32 (a k : Z) : Z := (Z.shiftl a k) mod 2 ^ 32.
(** [a as u32], [a as u8] for unsigned [a] *)
Definition as_u32 (a : Z) : Z := a mod 2 ^ 32.
Definition as_u8 (a : Z) : Z := a mod 2 ^ 8.
Definition b2z (b : bool) : Z := if b then 1 else 0.

(** Slice indexing: out of range panics in both build modes. *)
Definition idx {A} (l : list A) (i : Z) : option A :=
  if i <? 0 then None else nth_error l (Z.to_nat i).
Fixpoint upd_nat {A} (l : list A) (i : nat) (a : A) : option (list A) :=
  match l, i with
  | nil, _ => None
  | _ :: t, O => Some (a :: t)
  | h :: t, S j => match upd_nat t j a with Some t' => Some (h :: t') | None => None end
  end.
(** [l[i] = a] *)
Definition upd {A} (l : list A) (i : Z) (a : A) : option (list A) :=
  if i <? 0 then None else upd_nat l (Z.to_nat i) a.

(** Bytes. *)
Definition byte := Z.
Definition is_byte (b : Z) : Prop := 0 <= b < 256.
Definition bytes_ok (l : list Z) : Prop := Forall is_byte l.

Inductive error :=
  | InvalidSignature | InvalidPublicKey | InvalidSecretKey | InvalidRecoveryId
  | InvalidMessage | InvalidInputLength | TweakOutOfRange | InvalidAffine.
(* core/src/error.rs:2-11 *)

Inductive result (A : Type) := Ok (a : A) | Err (e : error).
Arguments Ok {A} a.
Arguments Err {A} e.

(** Weakest precondition: the computation does not panic and its result satisfies [Q]. *)
Definition wp {A} (o : option A) (Q : A -> Prop) : Prop :=
  match o with Some a => Q a | None => False end.
