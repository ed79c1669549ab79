(** Property theorems proved in ApiOps.v (written by tools/gen_props.py). *)
From Coq Require Import Znumtheory Zdiv.
From Verif Require Import Word MField MScalar MOps Mono WP FieldMul FieldNorm FieldZero FieldMag32 Spec Fp Bits FieldOps FieldCodec FieldStore ScalarMul ScalarOps ScalarMore ScalarBits Denote Curve Key ApiScalar ApiPub ApiArith ApiLimits ApiOps.

(** A program whose magnitudes, computed from its text alone, stay within the documented limits runs to its end in every build; every variable then holds the
    residue the program says, within the computed magnitude. *)
Theorem C96_field_programs : forall dbg q r m m', (forall i, contract (m i) (r i)) -> fmags m q = Some m' ->
  exists r', frun dbg r q = Some r' /\ forall i, contract (m' i) (r' i) /\ residues r' i = fsays (residues r) q i.
Proof. exact C96_field_programs_pf. Qed.
Print Assumptions C96_field_programs.

Example C96_field_programs_example : contract 1 pm1 /\ ends (fmags (fun _ => 1) demo) (fun m' => m' 2%nat = 3 /\ m' 4%nat = 1) /\
  fsays (residues (fun _ => pm1)) demo 0%nat = 2 /\
  ends (frun true (fun _ => pm1) demo) (fun r' => residues r' 0%nat = 2).
Proof. exact C96_field_programs_example_pf. Qed.

(** Whatever the program: if a debug build runs it to its end, its variables hold the residues the program says, within the contract, and a release build ends in
    the same state. *)
Theorem C96_debug_is_right : forall q r r', (forall i, contract 32 (r i)) -> Forall ftyped q -> frun true r q = Some r' ->
  frun false r q = Some r' /\ forall i, contract 32 (r' i) /\ residues r' i = fsays (residues r) q i.
Proof. exact C96_debug_is_right_pf. Qed.
Print Assumptions C96_debug_is_right.

Example C96_debug_is_right_example : contract 32 pm1 /\ Forall ftyped bold /\ fmags (fun _ => 1) bold = None /\ ends (frun true (fun _ => pm1) bold) (fun r' => residues r' 1%nat = p - 32).
Proof. exact C96_debug_is_right_example_pf. Qed.

Theorem C96_release_silent_refuted : exists q r r', (forall i, contract 1 (r i)) /\ Forall ftyped q /\ frun true r q = None /\ frun false r q = Some r' /\ residues r' 0%nat <> fsays (residues r) q 0%nat.
Proof. exact C96_release_silent_refuted_pf. Qed.
Print Assumptions C96_release_silent_refuted.

(** Two disciplined programs that say the same about a variable and normalize it last serialize it to the same bytes, those of the residue, in every build. *)
Theorem C96_same_bytes : forall dbg q q' r r0 m m' m1 m1' d, (forall i, contract (m i) (r i)) -> (forall i, contract (m' i) (r0 i)) ->
  fmags m (q ++ [FNorm d]) = Some m1 -> fmags m' (q' ++ [FNormVar d]) = Some m1' -> fsays (residues r) q d = fsays (residues r0) q' d ->
  exists e e', frun dbg r (q ++ [FNorm d]) = Some e /\ frun dbg r0 (q' ++ [FNormVar d]) = Some e' /\
    f_b32 dbg (e d) = Some (be_bytes 32 (fsays (residues r) q d)) /\ f_b32 dbg (e' d) = Some (be_bytes 32 (fsays (residues r) q d)).
Proof. exact C96_same_bytes_pf. Qed.
Print Assumptions C96_same_bytes.

Example C96_same_bytes_example : fmags (fun _ => 1) (way1 ++ [FNorm 2]) <> None /\ fmags (fun _ => 1) (way2 ++ [FNormVar 2]) <> None /\
  (forall v, fsays v way1 2%nat = fsays v way2 2%nat).
Proof. exact C96_same_bytes_example_pf. Qed.

(** A program on scalars needs no discipline: it runs to its end in every build and every variable holds the number the program says. *)
Theorem C96_scalar_programs : forall dbg q r v, (forall j, r j = scalar_of (v j) /\ 0 <= v j < n) -> Forall styped q ->
  exists r', srun dbg r q = Some r' /\ forall j, r' j = scalar_of (ssays v q j) /\ 0 <= ssays v q j < n.
Proof. exact C96_scalar_programs_pf. Qed.
Print Assumptions C96_scalar_programs.

Example C96_scalar_programs_example : Forall styped signlike /\ ssays (fun j => nth j [2; n - 1; 3; 5] 0) signlike 4%nat = 28 /\
  ends (srun true (fun j => scalar_of (nth j [2; n - 1; 3; 5] 0)) signlike) (fun r' => r' 4%nat = scalar_of 28).
Proof. exact C96_scalar_programs_example_pf. Qed.
