(** Straight-line programs of group operations on numbered Jacobian and affine variables, as client code of the core crate can write them.

    Not in the language: the operations with a ratio of z coordinates ([rzr]) and [add_zinv_var], comparisons, and building points from
    coordinates, which have claims of their own (C42, C43, C49, C62, C66).  The in-place forms ([*_in_place]) are the assigning forms of
    the same operations (core/src/group.rs:152-162, 304-317, 337-385, 389-453, 457-528, 536-599). *)
From Verif Require Import Word MField MScalar MGroup MEcmult MOps.

(** One statement: Jacobian variables J, affine variables A. *)
Inductive pins :=
| PInf (d : nat)                         (* J.set_infinity(); core/src/group.rs:270-275 *)
| PLoad (d a : nat)                      (* J = Jacobian::from_ge(&A), J.set_ge(&A); 279-290 *)
| PCopy (d a : nat)                      (* J = J'; 11 *)
| PDouble (d a : nat)                    (* J = J'.double_var(None); 381-385 *)
| PAdd (d a b : nat)                     (* J = J'.add_var(&J'', None); 449-453 *)
| PAddA (d a b : nat)                    (* J = J'.add_ge_var(&A, None); 595-599 *)
| PAddC (d a b : nat)                    (* J = J'.add_ge(&A); 457-528 *)
| PNeg (d a : nat)                       (* J = J'.neg(); 304-317 *)
| PRescale (d : nat) (s : field)         (* J.rescale(&s); 676-683 *)
| PMulG (d : nat) (k : scalar)           (* gen.ecmult_gen(&mut J, &k); core/src/ecmult.rs:560-582 *)
| PMul (d a : nat) (k : scalar)          (* ctx.ecmult_const(&mut J, &A, &k); core/src/ecmult.rs:491-557 *)
| PMulAdd (d a : nat) (k l : scalar)     (* ctx.ecmult(&mut J, &J', &k, &l); core/src/ecmult.rs:454-489 *)
| PStore (d a : nat)                     (* A = Affine::from_gej(&J), A.set_gej(&J); core/src/group.rs:166-183 *)
| PStoreVar (d a : nat)                  (* A.set_gej_var(&J); 185-199 *)
| PCopyA (d a : nat)                     (* A = A'; 3 *)
| PNegA (d a : nat)                      (* A = A'.neg(); 152-162 *)
| PPack (d a : nat).                     (* A = Affine::from(AffineStorage::from(A')); 686-699 *)

Section Build.
Variable dbg : bool.
Variable ctx : ecctx.
Variable gen : genctx.
(** the statement executed; the lines are those beside [pins] *)
Definition pstep (st : (nat -> jac) * (nat -> affine)) (i : pins) : option ((nat -> jac) * (nat -> affine)) :=
  let (j, a) := st in
  match i with
  | PInf d => Some (put j d j_set_infinity, a)
  | PLoad d b => let* x := j_set_ge dbg (a b) in Some (put j d x, a)
  | PCopy d b => Some (put j d (j b), a)
  | PDouble d b => let* x := j_double dbg (j b) in Some (put j d x, a)
  | PAdd d b c => let* x := j_add dbg (j b) (j c) in Some (put j d x, a)
  | PAddA d b c => let* x := j_add_ge_v dbg (j b) (a c) in Some (put j d x, a)
  | PAddC d b c => let* x := j_add_ge dbg (j b) (a c) in Some (put j d x, a)
  | PNeg d b => let* x := j_neg dbg (j b) in Some (put j d x, a)
  | PRescale d s => let* x := j_rescale dbg (j d) s in Some (put j d x, a)
  | PMulG d k => let* x := ecmult_gen dbg gen k in Some (put j d x, a)
  | PMul d b k => let* x := ecmult_const dbg (a b) k in Some (put j d x, a)
  | PMulAdd d b k l => let* x := ecmult dbg ctx (j b) k l in Some (put j d x, a)
  | PStore d b => let* x := af_set_gej dbg (j b) in Some (j, put a d x)
  | PStoreVar d b => let* x := af_set_gej_var dbg (a d) (j b) in Some (j, put a d x)
  | PCopyA d b => Some (j, put a d (a b))
  | PNegA d b => let* x := af_neg dbg (a b) in Some (j, put a d x)
  | PPack d b => let* x := af_to_storage dbg (a b) in Some (j, put a d (af_from_storage x))
  end.
(** a program of such statements; [None]: it panics (the lines beside [pins]) *)
Fixpoint prun (st : (nat -> jac) * (nat -> affine)) (q : list pins) : option ((nat -> jac) * (nat -> affine)) :=
  match q with [] => Some st | i :: t => let* st := pstep st i in prun st t end.
End Build.
