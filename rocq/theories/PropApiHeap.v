(** Property theorems proved in ApiHeap.v (written by tools/gen_props.py). *)
From Verif Require Import Word MField MScalar MGroup MEcmult MHeap WP FieldMul FieldNorm Spec Fp Bits FieldOps FieldCodec FieldStore Denote Curve Group Chain Order Jac JacOps Table Wnaf WnafC Ecmult Lift Gen Key Ctx Heap ApiScalar ApiPub ApiGroup ApiHeap.

(** When the allocator returns a block, both constructors return a context all of whose cells were written, without reading a cell before it was
    written and without a panic; its table and blinding are the right ones. *)
Theorem C74_contexts : forall dbg, (exists c, h_ecmult_context_new dbg false = Val c /\ verify_ctx c) /\ (exists c, h_ecmult_gen_context_new dbg false = Val c /\ gen_ctx c).
Proof. exact C74_contexts_pf. Qed.
Print Assumptions C74_contexts.

(** The null pointer of a failed allocation is not checked: the constructors then have undefined behaviour. *)
Theorem C74_contexts_refuted : exists null, forall dbg, h_ecmult_context_new dbg null = Undef /\ h_ecmult_gen_context_new dbg null = Undef.
Proof. exact C74_contexts_refuted_pf. Qed.
Print Assumptions C74_contexts_refuted.

(** The table of odd multiples, into any initialised slice of any length: entry i is (2i+1)P, and all are written. *)
Theorem C74_odd_multiples : forall dbg pre j P, written pre -> jac_at j P -> P <> Inf -> 2 * Z.of_nat (length pre) < n - 2 -> pre <> [] ->
  exists t, i_odd_multiples_table_storage_var dbg pre j = Val t /\ written t /\ length t = length pre /\
  forall i s, nth_error t i = Some (Some s) -> stored_at s (smul (2 * Z.of_nat i + 1) P).
Proof. exact C74_odd_multiples_pf. Qed.
Print Assumptions C74_odd_multiples.

Example C74_odd_multiples_example : written (vec 8 as_default) /\ (exists j, jac_at j G) /\ G <> Inf /\ 2 * Z.of_nat (length (vec 8 as_default)) < n - 2.
Proof. exact C74_odd_multiples_example_pf. Qed.

(** A slice with a cell never written is undefined behaviour, so initialising the block first is necessary. *)
Theorem C74_uninitialised : forall dbg pre j, ~ written pre -> i_odd_multiples_table_storage_var dbg pre j = Undef.
Proof. exact C74_uninitialised_pf. Qed.
Print Assumptions C74_uninitialised.

Example C74_uninitialised_example : ~ written [Some as_default; None].
Proof. exact C74_uninitialised_example_pf. Qed.

(** Batch inversion and batch conversion index their vectors within bounds and write every element. *)
Theorem C74_batch : forall dbg,
  (forall fs, Forall (fun f => fok 6 f /\ fv f mod p <> 0) fs ->
    exists r, i_inv_all_var dbg (map Some fs) = Val (map Some r) /\ Forall2 (fun g f => fok 1 g /\ (fv g * fv f) mod p = 1) r fs) /\
  (forall js Ps, Forall2 jac_at js Ps -> exists r, i_set_all_gej_var dbg (map Some js) = Val (map Some r) /\ Forall2 (aff_at 1) r Ps).
Proof. exact C74_batch_pf. Qed.
Print Assumptions C74_batch.

Example C74_batch_example : Forall (fun f => fok 6 f /\ fv f mod p <> 0) [FE1; FE1] /\ exists j, Forall2 jac_at [j; j_set_infinity; j] [G; Inf; G].
Proof. exact C74_batch_example_pf. Qed.

(** The two in-place table conversions, into a non-empty slice of the right length whatever it held. *)
Theorem C74_tables : forall dbg r gz js zr Ps, length r = length js -> js <> [] -> Forall2 jac_at js Ps -> Forall (fun P => P <> Inf) Ps -> z_ratios js zr ->
  (exists t, i_set_table_gej_var dbg r (map Some js) (map Some zr) = Val (map Some t) /\ Forall2 key_at t Ps) /\
  (exists t z, i_globalz_set_table_gej dbg r gz (map Some js) (map Some zr) = Val (map Some t, z) /\
     Forall2 (fun a P => af_inf a = false /\ jac_at (Ja (af_x a) (af_y a) z false) P) t Ps).
Proof. exact C74_tables_pf. Qed.
Print Assumptions C74_tables.

Example C74_tables_example : exists js zr, js <> [] /\ Forall2 jac_at js [G; G] /\ Forall (fun P => P <> Inf) [G; G] /\ z_ratios js zr.
Proof. exact C74_tables_example_pf. Qed.

(** On empty slices the index of the last element underflows: a panic in debug builds only. *)
Theorem C74_empty_table_refuted : exists zr, i_set_table_gej_var true [] [] zr = Panic /\ i_set_table_gej_var false [] [] zr = Val [].
Proof. exact C74_empty_table_refuted_pf. Qed.
Print Assumptions C74_empty_table_refuted.
