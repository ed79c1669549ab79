(** Property theorems proved in ApiInPlace.v (written by tools/gen_props.py). *)
From Coq Require Import Znumtheory Field.
From Verif Require Import Word MField MScalar MGroup MEcmult MInPlace WP FieldMul FieldNorm Spec Fp Bits FieldOps FieldCodec FieldStore Denote Curve Group Chain Order Jac JacOps Table Wnaf WnafC Ecmult Lift Gen Key Ctx ApiScalar ApiPub ApiGroup ApiInPlace.

(** What the receiver held matters in one case only: a doubled infinity. *)
Theorem C83_double : forall dbg self a rzr P, jac_at a P -> exists r z,
  j_double_var_in_place dbg self a rzr = Some (r, z) /\
  (P <> Inf -> jac_at r (padd P P) /\ ratio_at rzr z a r (padd P P) /\ forall self', j_double_var_in_place dbg self' a rzr = Some (r, z)) /\
  (P = Inf -> r = Ja (j_x self) (j_y self) (j_z self) true /\
     match rzr with None => z = None | Some _ => exists f, z = Some f /\ fv f = 1 end).
Proof. exact C83_double_pf. Qed.
Print Assumptions C83_double.

Example C83_double_example : jac_at JG G /\ G <> Inf /\ jac_at j_set_infinity Inf.
Proof. exact C83_double_example_pf. Qed.

Theorem C83_add_var : forall dbg self a b rzr P Q, jac_at a P -> jac_at b Q -> (rzr = None \/ P <> Inf) ->
  sum_into (fun s => j_add_var_into dbg s a b rzr) rzr self a P Q.
Proof. exact C83_add_var_pf. Qed.
Print Assumptions C83_add_var.

Example C83_add_var_example : exists b, jac_at JG G /\ jac_at b (pneg G) /\ G <> Inf /\ pneg G <> Inf /\ padd G (pneg G) = Inf.
Proof. exact C83_add_var_example_pf. Qed.

Theorem C83_add_ge_var : forall dbg self a b rzr P Q, jac_at a P -> key_at b Q -> (rzr = None \/ P <> Inf) ->
  sum_into (fun s => j_add_ge_var_into dbg s a b rzr) rzr self a P Q.
Proof. exact C83_add_ge_var_pf. Qed.
Print Assumptions C83_add_ge_var.

Example C83_add_ge_var_example : exists a, jac_at a (pneg G) /\ key_at AFFINE_G G /\ pneg G <> Inf /\ padd (pneg G) G = Inf.
Proof. exact C83_add_ge_var_example_pf. Qed.

Theorem C83_add_zinv_var : forall dbg self a b zinv P Q, fok 6 zinv -> fv zinv mod p <> 0 -> jac_scaled (fv zinv) a P -> key_at b Q ->
  exists r, j_add_zinv_var_into dbg self a b zinv = Some r /\
    (P <> Inf -> Q <> Inf -> padd P Q = Inf -> r = Ja (j_x self) (j_y self) (j_z self) true) /\
    (P = Inf \/ Q = Inf \/ padd P Q <> Inf -> jac_scaled (fv zinv) r (padd P Q) /\ forall self', j_add_zinv_var_into dbg self' a b zinv = Some r).
Proof. exact C83_add_zinv_var_pf. Qed.
Print Assumptions C83_add_zinv_var.

Example C83_add_zinv_var_example : exists a b zinv, fok 6 zinv /\ fv zinv mod p <> 0 /\ jac_scaled (fv zinv) a G /\ key_at b G.
Proof. exact C83_add_zinv_var_example_pf. Qed.

(** Coordinates of usual size: the receiver denotes the sum in every case. *)
Theorem C83_valid : forall dbg self a b P Q, jac_at a P -> jac_at b Q -> fok 6 (j_x self) -> fok 6 (j_y self) -> fok 6 (j_z self) ->
  (exists r, j_double_var_in_place dbg self a None = Some (r, None) /\ jac_at r (padd P P)) /\
  (exists r, j_add_var_into dbg self a b None = Some (r, None) /\ jac_at r (padd P Q)).
Proof. exact C83_valid_pf. Qed.
Print Assumptions C83_valid.

Example C83_valid_example : jac_at JG G /\ fok 6 (j_x JG) /\ fok 6 (j_y JG) /\ fok 6 (j_z JG).
Proof. exact C83_valid_example_pf. Qed.

(** A ratio asked for while the first operand is infinity: debug builds panic, release builds leave the caller's field as it was. *)
Theorem C83_ratio_infinite : forall self a b c f, j_inf a = true ->
  j_add_var_into true self a b (Some f) = None /\ j_add_ge_var_into true self a c (Some f) = None /\
  j_add_var_into false self a b (Some f) = Some (b, Some f).
Proof. exact C83_ratio_infinite_pf. Qed.
Print Assumptions C83_ratio_infinite.

Example C83_ratio_infinite_example : j_inf j_set_infinity = true.
Proof. exact C83_ratio_infinite_example_pf. Qed.

(** The doubling documented for nonzero points only checks the receiver, not its argument. *)
Theorem C83_double_nonzero : forall dbg self a rzr,
  (dbg = true -> j_inf self = true -> j_double_nonzero_into dbg self a rzr = None) /\
  (dbg = false \/ j_inf self = false -> j_double_nonzero_into dbg self a rzr = j_double_var_in_place dbg self a rzr).
Proof. exact C83_double_nonzero_pf. Qed.
Print Assumptions C83_double_nonzero.

Example C83_double_nonzero_example : j_inf j_set_infinity = true /\ j_inf JG = false.
Proof. exact C83_double_nonzero_example_pf. Qed.

(** So it is false that it panics exactly for an infinite argument: it accepts one, and refuses a finite one when the receiver is infinite. *)
Theorem C83_double_nonzero_refuted :
  (exists self a r, jac_at self G /\ jac_at a Inf /\ j_double_nonzero_into true self a None = Some (r, None) /\ jac_at r Inf) /\
  (exists self a, jac_at self Inf /\ jac_at a G /\ j_double_nonzero_into true self a None = None).
Proof. exact C83_double_nonzero_refuted_pf. Qed.
Print Assumptions C83_double_nonzero_refuted.
