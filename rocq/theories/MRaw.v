(** Contexts made from a table given by the caller, and the tables of contexts: core/src/ecmult.rs. *)
From Verif Require Import Word MField MScalar MGroup MEcmult.

(** core/src/ecmult.rs:54-56 [ECMultContext::new_from_raw].  The array type fixes the length at 16384; here it is a hypothesis of the theorems. *)
Definition ecctx_new_from_raw (pre_g : list astorage) : ecctx := Ctx pre_g.
(** core/src/ecmult.rs:59-61 [ECMultContext::inspect_raw]: a reference to the table, here the table *)
Definition ecctx_inspect_raw (c : ecctx) : list astorage := let '(Ctx pre_g) := c in pre_g.
(** core/src/ecmult.rs:175-181 [ECMultGenContext::new_from_raw]: 64 rows of 16 entries by type *)
Definition genctx_new_from_raw (prec : list (list astorage)) : genctx := GCtx prec GEN_BLIND GEN_INITIAL.
(** core/src/ecmult.rs:184-186 [ECMultGenContext::inspect_raw] *)
Definition genctx_inspect_raw (c : genctx) : list (list astorage) := let '(GCtx prec _ _) := c in prec.
