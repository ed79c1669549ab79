(** Model of the [Debug] implementations derived for the public types (the text written by [{:?}]).

    The derived code calls [debug_tuple]/[debug_struct] of the standard library: [Name(field, ...)],
    [Name { field: value, ... }]; an array or slice is written [[a, b, ...]] and integers in decimal.
    The alternate form [{:#?}] is in MPretty.v. *)
From Coq Require Import String Ascii.
From Verif Require Import Word MField MScalar MGroup MGenSrc MApi.
Open Scope string_scope.
Open Scope list_scope.
Open Scope Z_scope.

(** [Debug] of [[u32; k]], [[u8; k]] and of slices: the elements separated by a comma and a blank *)
Fixpoint dbg_elems (l : list Z) : string :=
  match l with
  | [] => ""
  | [v] => dec_u32 v
  | v :: t => (dec_u32 v ++ ", " ++ dbg_elems t)%string
  end.
(** the same with its brackets (standard library) *)
Definition dbg_array (l : list Z) : string := ("[" ++ dbg_elems l ++ "]")%string.
(** [Debug] of [bool] (standard library; core/src/field.rs:22, core/src/group.rs:8, 17) *)
Definition dbg_bool (b : bool) : string := if b then "true" else "false".

(** core/src/scalar.rs:24-26 [Scalar(pub [u32; 8])] *)
Definition s_debug (s : scalar) : string := ("Scalar(" ++ dbg_array (s_limbs s) ++ ")")%string.
(** core/src/field.rs:12-23 [Field { n, magnitude, normalized }] *)
Definition f_debug (f : field) : string :=
  match f with Fe n0 n1 n2 n3 n4 n5 n6 n7 n8 n9 mag nrm =>
    ("Field { n: " ++ dbg_array [n0; n1; n2; n3; n4; n5; n6; n7; n8; n9] ++ ", magnitude: " ++ dec_u32 mag ++
     ", normalized: " ++ dbg_bool nrm ++ " }")%string
  end.
(** core/src/field.rs:1771-1773 [FieldStorage(pub [u32; 8])] *)
Definition fs_debug (f : fstorage) : string :=
  match f with Fs d0 d1 d2 d3 d4 d5 d6 d7 => ("FieldStorage(" ++ dbg_array [d0; d1; d2; d3; d4; d5; d6; d7] ++ ")")%string end.
(** core/src/group.rs:3-9 [Affine { x, y, infinity }] *)
Definition af_debug (a : affine) : string :=
  ("Affine { x: " ++ f_debug (af_x a) ++ ", y: " ++ f_debug (af_y a) ++ ", infinity: " ++ dbg_bool (af_inf a) ++ " }")%string.
(** core/src/group.rs:11-18 [Jacobian { x, y, z, infinity }] *)
Definition j_debug (a : jac) : string :=
  ("Jacobian { x: " ++ f_debug (j_x a) ++ ", y: " ++ f_debug (j_y a) ++ ", z: " ++ f_debug (j_z a) ++
   ", infinity: " ++ dbg_bool (j_inf a) ++ " }")%string.
(** core/src/group.rs:20-25 [AffineStorage { x, y }] *)
Definition as_debug (a : astorage) : string :=
  match a with As x y => ("AffineStorage { x: " ++ fs_debug x ++ ", y: " ++ fs_debug y ++ " }")%string end.

(** src/lib.rs:62-64 [PublicKey(Affine)] *)
Definition pk_debug (k : pubkey) : string := ("PublicKey(" ++ af_debug k ++ ")")%string.
(** src/lib.rs:66-68 [SecretKey(Scalar)] *)
Definition sk_debug (k : seckey) : string := ("SecretKey(" ++ s_debug k ++ ")")%string.
(** src/lib.rs:70-75 [Signature { r, s }] *)
Definition sig_debug (g : signature) : string :=
  ("Signature { r: " ++ s_debug (sig_r g) ++ ", s: " ++ s_debug (sig_s g) ++ " }")%string.
(** src/lib.rs:77-79 [RecoveryId(u8)] *)
Definition rid_debug (r : recid) : string := ("RecoveryId(" ++ dec_u32 r ++ ")")%string.
(** src/lib.rs:81-83 [Message(pub Scalar)] *)
Definition msg_debug (m : message) : string := ("Message(" ++ s_debug m ++ ")")%string.
(** src/lib.rs:85-87 [SharedSecret<D>(GenericArray<u8, D::OutputSize>)]; [GenericArray] is written as its slice *)
Definition ss_debug (l : list Z) : string := ("SharedSecret(" ++ dbg_array l ++ ")")%string.
(** core/src/error.rs:1-11 [Error]: the name of the variant *)
Definition error_debug (e : error) : string :=
  match e with
  | InvalidSignature => "InvalidSignature"
  | InvalidPublicKey => "InvalidPublicKey"
  | InvalidSecretKey => "InvalidSecretKey"
  | InvalidRecoveryId => "InvalidRecoveryId"
  | InvalidMessage => "InvalidMessage"
  | InvalidInputLength => "InvalidInputLength"
  | TweakOutOfRange => "TweakOutOfRange"
  | InvalidAffine => "InvalidAffine"
  end.
