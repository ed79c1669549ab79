(** The construction of the contexts in memory. *)
From Verif Require Import Word MField MScalar MGroup MEcmult MHeap WP FieldMul FieldNorm Spec Fp Bits FieldOps FieldCodec FieldStore Denote Curve Group Chain Order Jac JacOps Table Wnaf WnafC Ecmult Lift Gen Key Ctx Heap ApiScalar ApiPub ApiGroup.

(** every cell of the array was written *)
Definition written {A} (c : cells A) : Prop := ~ In None c.
Lemma written_some {A} (c : cells A) : written c -> exists l, c = map Some l.
Proof.
  induction c as [|[a|] c IH]; intros W; [exists []; reflexivity | | elim W; left; reflexivity].
  destruct IH as [l ->]; [intros I; apply W; right; exact I|]. exists (a :: l). reflexivity.
Qed.
Lemma some_written {A} (l : list A) : written (map Some l).
Proof. intros I. apply in_map_iff in I. destruct I as (a & H & _). discriminate H. Qed.

(** * C74 *)
(** When the allocator returns a block, both constructors return a context all of whose cells were written, without reading a cell before it was
    written and without a panic; its table and blinding are the right ones. *)
Lemma C74_contexts_pf : forall dbg, (exists c, h_ecmult_context_new dbg false = Val c /\ verify_ctx c) /\ (exists c, h_ecmult_gen_context_new dbg false = Val c /\ gen_ctx c).
Proof.
  intros dbg. destruct (C54_contexts_pf dbg) as [(c & E & V) (g & EG & VG)]. rewrite h_context_ok, h_gen_context_ok, E, EG. split; [exists c | exists g]; auto.
Qed.
(** The null pointer of a failed allocation is not checked: the constructors then have undefined behaviour. *)
Lemma C74_contexts_refuted_pf : exists null, forall dbg, h_ecmult_context_new dbg null = Undef /\ h_ecmult_gen_context_new dbg null = Undef.
Proof. exists true. intros dbg. split; reflexivity. Qed.
(** The table of odd multiples, into any initialised slice of any length: entry i is (2i+1)P, and all are written. *)
Lemma C74_odd_multiples_pf : forall dbg pre j P, written pre -> jac_at j P -> P <> Inf -> 2 * Z.of_nat (length pre) < n - 2 -> pre <> [] ->
  exists t, i_odd_multiples_table_storage_var dbg pre j = Val t /\ written t /\ length t = length pre /\
  forall i s, nth_error t i = Some (Some s) -> stored_at s (smul (2 * Z.of_nat i + 1) P).
Proof.
  intros dbg pre j P W J F L N. destruct (written_some pre W) as (l & ->). rewrite map_length in *.
  assert (NL : length l <> 0%nat) by (intros E; apply N; destruct l; [reflexivity | discriminate E]).
  destruct (C54_odd_multiples_pf dbg (length l) j P J F L NL) as (t & E & LT & H). rewrite (i_storage_ok dbg (length l)) by lia. rewrite E.
  exists (map Some t). split; [reflexivity|]. split; [apply some_written|]. rewrite map_length. split; [exact LT|].
  intros i s NS. apply H. rewrite nth_error_map in NS. destruct (nth_error t i); [|discriminate NS]. injection NS as ->. reflexivity.
Qed.
Lemma C74_odd_multiples_example_pf : written (vec 8 as_default) /\ (exists j, jac_at j G) /\ G <> Inf /\ 2 * Z.of_nat (length (vec 8 as_default)) < n - 2.
Proof. split; [rewrite vec_some; apply some_written|]. exact C54_odd_multiples_example_pf. Qed.
(** A slice with a cell never written is undefined behaviour, so initialising the block first is necessary. *)
Lemma C74_uninitialised_pf : forall dbg pre j, ~ written pre -> i_odd_multiples_table_storage_var dbg pre j = Undef.
Proof.
  intros dbg pre j W. unfold i_odd_multiples_table_storage_var. replace (freeze pre) with (@Undef (list astorage)); [reflexivity|]. symmetry.
  induction pre as [|[a|] pre IH]; [elim W; intros [] | | reflexivity]. cbn [freeze]. rewrite IH; [reflexivity|]. intros H. apply W. intros [I|I]; [discriminate I | exact (H I)].
Qed.
Lemma C74_uninitialised_example_pf : ~ written [Some as_default; None].
Proof. intros H. apply H. right. left. reflexivity. Qed.
(** Batch inversion and batch conversion index their vectors within bounds and write every element. *)
Lemma C74_batch_pf : forall dbg,
  (forall fs, Forall (fun f => fok 6 f /\ fv f mod p <> 0) fs ->
    exists r, i_inv_all_var dbg (map Some fs) = Val (map Some r) /\ Forall2 (fun g f => fok 1 g /\ (fv g * fv f) mod p = 1) r fs) /\
  (forall js Ps, Forall2 jac_at js Ps -> exists r, i_set_all_gej_var dbg (map Some js) = Val (map Some r) /\ Forall2 (aff_at 1) r Ps).
Proof.
  intros dbg. split.
  - intros fs F. destruct (C50_inv_all_var_pf dbg fs F) as (r & E & H). exists r. rewrite i_inv_all_ok, E. auto.
  - intros js Ps F. destruct (C50_set_all_gej_var_pf dbg js Ps F) as (r & E & H). exists r. rewrite i_set_all_ok, E. auto.
Qed.
Lemma C74_batch_example_pf : Forall (fun f => fok 6 f /\ fv f mod p <> 0) [FE1; FE1] /\ exists j, Forall2 jac_at [j; j_set_infinity; j] [G; Inf; G].
Proof. split; [exact C50_inv_all_var_example_pf | exact C50_set_all_gej_var_example_pf]. Qed.
(** The two in-place table conversions, into a non-empty slice of the right length whatever it held. *)
Lemma C74_tables_pf : forall dbg r gz js zr Ps, length r = length js -> js <> [] -> Forall2 jac_at js Ps -> Forall (fun P => P <> Inf) Ps -> z_ratios js zr ->
  (exists t, i_set_table_gej_var dbg r (map Some js) (map Some zr) = Val (map Some t) /\ Forall2 key_at t Ps) /\
  (exists t z, i_globalz_set_table_gej dbg r gz (map Some js) (map Some zr) = Val (map Some t, z) /\
     Forall2 (fun a P => af_inf a = false /\ jac_at (Ja (af_x a) (af_y a) z false) P) t Ps).
Proof.
  intros dbg r gz js zr Ps LR N J F Z. pose proof (proj1 Z) as LZ. assert (NL : (0 < length js)%nat) by (destruct js; [elim N; reflexivity | cbn [length]; lia]). split.
  - destruct (C50_set_table_gej_var_pf dbg js zr Ps J F Z) as (t & E & H). exists t. rewrite (i_set_table_ok dbg (length js)) by auto. rewrite E. auto.
  - destruct (C50_globalz_set_table_gej_pf dbg js zr Ps N J F Z) as (t & z & E & H). exists t, z. rewrite (i_globalz_ok dbg (length js)) by auto. rewrite E. auto.
Qed.
Lemma C74_tables_example_pf : exists js zr, js <> [] /\ Forall2 jac_at js [G; G] /\ Forall (fun P => P <> Inf) [G; G] /\ z_ratios js zr.
Proof. exact C50_set_table_gej_var_example_pf. Qed.
(** On empty slices the index of the last element underflows: a panic in debug builds only. *)
Lemma C74_empty_table_refuted_pf : exists zr, i_set_table_gej_var true [] [] zr = Panic /\ i_set_table_gej_var false [] [] zr = Val [].
Proof. exists []. split; reflexivity. Qed.
