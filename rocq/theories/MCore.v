(** Model of the remaining small public functions of the core crate: clearing, constructors from
    words, and the texts of the errors. *)
From Coq Require Import String.
From Verif Require Import Word MField MScalar MGroup.
Open Scope string_scope.
Open Scope Z_scope.

(** core/src/field.rs:521-525 [Field::clear]; every field of the old value is overwritten *)
Definition f_clear (f : field) : field :=
  match f with Fe _ _ _ _ _ _ _ _ _ _ _ _ => Fe 0 0 0 0 0 0 0 0 0 0 0 true end.

(** core/src/scalar.rs:30-34 [Scalar::clear] *)
Definition s_clear (s : scalar) : scalar :=
  match s with Sc _ _ _ _ _ _ _ _ => Sc 0 0 0 0 0 0 0 0 end.

(** core/src/group.rs:210-214 [Affine::clear] *)
Definition af_clear (a : affine) : affine :=
  match a with Af x y _ => Af (f_clear x) (f_clear y) false end.

(** core/src/group.rs:667-672 [Jacobian::clear] *)
Definition j_clear (a : jac) : jac :=
  match a with Ja x y z _ => Ja (f_clear x) (f_clear y) (f_clear z) false end.

(** core/src/field.rs:1782-1793 [FieldStorage::new]; the most significant word comes first *)
Definition fs_new (d7 d6 d5 d4 d3 d2 d1 d0 : Z) : fstorage := Fs d0 d1 d2 d3 d4 d5 d6 d7.

(** core/src/group.rs:85-91 [Affine::new] *)
Definition af_new (x y : field) : affine := Af x y false.

(** core/src/group.rs:260-267 [Jacobian::new] *)
Definition j_new (x y : field) : jac := Ja x y (f_new 0 0 0 0 0 0 0 1) false.

(** core/src/error.rs:16-29 [Display for Error] *)
Definition error_display (e : error) : string :=
  match e with
  | InvalidSignature => "Invalid signature"
  | InvalidPublicKey => "Invalid public key"
  | InvalidSecretKey => "Invalid secret key"
  | InvalidRecoveryId => "Invalid recovery ID"
  | InvalidMessage => "Invalid message"
  | InvalidInputLength => "Invalid input length"
  | TweakOutOfRange => "Tweak out of range"
  | InvalidAffine => "Invalid Affine"
  end.
