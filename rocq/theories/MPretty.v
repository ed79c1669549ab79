(** Model of the alternate [Debug] form [{:#?}] of the public types.

    Derived [Debug] code hands its fields to [debug_tuple]/[debug_struct] of the standard library, arrays and slices to
    [debug_list]; the two forms differ only in what these builders write. Here a value is first turned into the tree of
    builder calls its derived code makes, and the two forms are two ways to write a tree (library/core/src/fmt/builders.rs of the
    Rust standard library, which is outside /repo). *)
From Coq Require Import String Ascii.
From Verif Require Import Word MField MScalar MGroup MGenSrc MApi MDebug.
Open Scope string_scope.
Open Scope list_scope.
Open Scope Z_scope.

(** the builder calls of one value: integers, [bool]s and unit variants write a word; tuple structs, structs, arrays (derived at src/lib.rs:62-87, core/src/scalar.rs:24, core/src/field.rs:12, 1771, core/src/group.rs:3, 11, 20, core/src/error.rs:1) *)
Inductive dtree :=
| DNum (v : Z)
| DWord (s : string)
| DTuple (name : string) (fields : list dtree)
| DStruct (name : string) (fields : list (string * dtree))
| DList (elems : list dtree).

(** the newline character (standard library) *)
Definition nl : ascii := ascii_of_nat 10.
(** what [PadAdapter] makes of a text: four blanks in front of every line; [on_newline] at the start (standard library, outside /repo) *)
Fixpoint pad (on_newline : bool) (s : string) : string :=
  match s with
  | EmptyString => ""
  | String c t => ((if on_newline then "    " else "") ++ String c (pad (Ascii.eqb c nl) t))%string
  end.

(** texts separated by a comma and a blank (standard library) *)
Fixpoint commas (l : list string) : string :=
  match l with [] => "" | [x] => x | x :: t => (x ++ ", " ++ commas t)%string end.
(** every text indented, with a comma and a newline behind it (standard library) *)
Fixpoint rows (l : list string) : string :=
  match l with [] => "" | x :: t => (pad true (x ++ String "," (String nl "")) ++ rows t)%string end.

(** [{:?}] of a tree (standard library) *)
Fixpoint plain (t : dtree) : string :=
  match t with
  | DNum v => dec_u32 v
  | DWord s => s
  | DTuple name l => (name ++ match l with [] => "" | _ => "(" ++ commas (map plain l) ++ ")" end)%string
  | DStruct name l => (name ++ match l with [] => "" | _ => " { " ++ commas (map (fun x => fst x ++ ": " ++ plain (snd x)) l) ++ " }" end)%string
  | DList l => ("[" ++ commas (map plain l) ++ "]")%string
  end.
(** [{:#?}] of a tree (standard library) *)
Fixpoint pretty (t : dtree) : string :=
  match t with
  | DNum v => dec_u32 v
  | DWord s => s
  | DTuple name l => (name ++ match l with [] => "" | _ => "(" ++ String nl (rows (map pretty l)) ++ ")" end)%string
  | DStruct name l => (name ++ match l with [] => "" | _ => " {" ++ String nl (rows (map (fun x => fst x ++ ": " ++ pretty (snd x)) l)) ++ "}" end)%string
  | DList l => ("[" ++ match l with [] => "" | _ => String nl (rows (map pretty l)) end ++ "]")%string
  end.

(** core/src/scalar.rs:24-26 *)
Definition s_tree (s : scalar) : dtree := DTuple "Scalar" [DList (map DNum (s_limbs s))].
(** core/src/field.rs:12-23 *)
Definition f_tree (f : field) : dtree :=
  match f with Fe n0 n1 n2 n3 n4 n5 n6 n7 n8 n9 mag nrm =>
    DStruct "Field" [("n", DList (map DNum [n0; n1; n2; n3; n4; n5; n6; n7; n8; n9])); ("magnitude", DNum mag); ("normalized", DWord (dbg_bool nrm))] end.
(** core/src/field.rs:1771-1773 *)
Definition fs_tree (f : fstorage) : dtree :=
  match f with Fs d0 d1 d2 d3 d4 d5 d6 d7 => DTuple "FieldStorage" [DList (map DNum [d0; d1; d2; d3; d4; d5; d6; d7])] end.
(** core/src/group.rs:3-9 *)
Definition af_tree (a : affine) : dtree := DStruct "Affine" [("x", f_tree (af_x a)); ("y", f_tree (af_y a)); ("infinity", DWord (dbg_bool (af_inf a)))].
(** core/src/group.rs:11-18 *)
Definition j_tree (a : jac) : dtree :=
  DStruct "Jacobian" [("x", f_tree (j_x a)); ("y", f_tree (j_y a)); ("z", f_tree (j_z a)); ("infinity", DWord (dbg_bool (j_inf a)))].
(** core/src/group.rs:20-25 *)
Definition as_tree (a : astorage) : dtree := match a with As x y => DStruct "AffineStorage" [("x", fs_tree x); ("y", fs_tree y)] end.
(** src/lib.rs:62-64 *)
Definition pk_tree (k : pubkey) : dtree := DTuple "PublicKey" [af_tree k].
(** src/lib.rs:66-68 *)
Definition sk_tree (k : seckey) : dtree := DTuple "SecretKey" [s_tree k].
(** src/lib.rs:70-75 *)
Definition sig_tree (g : signature) : dtree := DStruct "Signature" [("r", s_tree (sig_r g)); ("s", s_tree (sig_s g))].
(** src/lib.rs:77-79 *)
Definition rid_tree (r : recid) : dtree := DTuple "RecoveryId" [DNum r].
(** src/lib.rs:81-83 *)
Definition msg_tree (m : message) : dtree := DTuple "Message" [s_tree m].
(** src/lib.rs:85-87 *)
Definition ss_tree (l : list Z) : dtree := DTuple "SharedSecret" [DList (map DNum l)].
(** core/src/error.rs:1-11 *)
Definition error_tree (e : error) : dtree := DWord (error_debug e).
