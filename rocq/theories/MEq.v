(** Model of the equality and order the library's types offer to its users ([==], [Ord]). *)
From Verif Require Import Word MField MScalar MGroup MDer MApi.

(** derived [PartialEq for SecretKey], src/lib.rs:66-68: the scalar *)
Definition sk_eqb (a b : seckey) : bool := s_eqb a b.
(** derived [PartialEq for Signature], src/lib.rs:70-76: [r], then [s] *)
Definition sig_eqb (a b : signature) : bool := s_eqb (sig_r a) (sig_r b) && s_eqb (sig_s a) (sig_s b).
(** derived [PartialEq for RecoveryId], src/lib.rs:77-79: the byte *)
Definition rid_eqb (a b : recid) : bool := a =? b.
(** derived [PartialEq for Message], src/lib.rs:81-83: the scalar *)
Definition msg_eqb (a b : message) : bool := s_eqb a b.
(** derived [PartialEq for SharedSecret], src/lib.rs:85-86: the bytes of the digest *)
Fixpoint ss_eqb (a b : list Z) : bool :=
  match a, b with
  | [], [] => true
  | x :: a', y :: b' => (x =? y) && ss_eqb a' b'
  | _, _ => false
  end.
(** [Ord::cmp] and [PartialOrd::partial_cmp] for [Field], core/src/field.rs:1759-1769 *)
Definition f_cmp (dbg : bool) (a b : field) : option comparison := f_cmp_var dbg a b.
(** core/src/field.rs:1765-1769 [PartialOrd::partial_cmp] *)
Definition f_partial_cmp (dbg : bool) (a b : field) : option (option comparison) :=
  let* c := f_cmp dbg a b in Some (Some c).
(** derived [PartialEq for FieldStorage], core/src/field.rs:1771-1773: the eight words in order *)
Definition fs_eqb (a b : fstorage) : bool :=
  match a, b with Fs a0 a1 a2 a3 a4 a5 a6 a7, Fs b0 b1 b2 b3 b4 b5 b6 b7 =>
    (a0 =? b0) && (a1 =? b1) && (a2 =? b2) && (a3 =? b3) &&
    (a4 =? b4) && (a5 =? b5) && (a6 =? b6) && (a7 =? b7) end.
(** derived [PartialEq for AffineStorage], core/src/group.rs:20-25: [x], then [y] *)
Definition as_eqb (a b : astorage) : bool := match a, b with As ax ay, As bx b_y => fs_eqb ax bx && fs_eqb ay b_y end.
