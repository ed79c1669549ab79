(** The arithmetic operators of [Field] and [Scalar] in every form in which client code of the core crate can write them,
    and straight-line programs of such operations on numbered variables.

    The forms differ in whether the operands are copied or borrowed and in where the result goes; the operands of a
    borrowing form are only read.  Variables hold [Copy] values (core/src/field.rs:12, core/src/scalar.rs:24).  Not in the
    language: [sqrt], byte codecs, comparisons and bit access, which have claims of their own (C45, C46, C48). *)
From Verif Require Import Word MField MScalar.

(** [r[d] = a] *)
Definition put {A} (r : nat -> A) (d : nat) (a : A) : nat -> A := fun i => if Nat.eqb i d then a else r i.

Section Build.
Variable dbg : bool.

(** core/src/field.rs:73-77 [Field::from_int]; every field of the default value is overwritten by [set_int] *)
Definition f_from_int (a : Z) : option field := f_set_int dbg a.
(** core/src/field.rs:1676-1680 [Add<Field> for Field] *)
Definition f_add_vv (self other : field) : option field := let! ret := self in let* ret := f_add dbg ret other in Some ret.
(** core/src/field.rs:1685-1689 [Add<&Field> for &Field] *)
Definition f_add_rr (self other : field) : option field := let! ret := self in let* ret := f_add dbg ret other in Some ret.
(** core/src/field.rs:1712-1714 [AddAssign<Field> for Field] *)
Definition f_add_assign_v (self other : field) : option field := f_add dbg self other.
(** core/src/field.rs:1719-1723 [Mul<Field> for Field] *)
Definition f_mul_vv (self other : field) : option field := let* ret := f_mul dbg self other in Some ret.
(** core/src/field.rs:1728-1732 [Mul<&Field> for &Field] *)
Definition f_mul_rr (self other : field) : option field := let* ret := f_mul dbg self other in Some ret.
(** core/src/field.rs:1736-1740 [MulAssign<&Field> for Field] *)
Definition f_mul_assign_r (self other : field) : option field := let* ret := f_mul dbg self other in Some ret.
(** core/src/field.rs:1744-1746 [MulAssign<Field> for Field] *)
Definition f_mul_assign_v (self other : field) : option field := f_mul_assign_r self other.

(** core/src/scalar.rs:937-940 [Add<Scalar> for Scalar] *)
Definition s_add_vv (self other : scalar) : option scalar := let* self := s_add dbg self other in Some self.
(** core/src/scalar.rs:945-949 [Add<&Scalar> for &Scalar] *)
Definition s_add_rr (self other : scalar) : option scalar := let! ret := self in let* ret := s_add dbg ret other in Some ret.
(** core/src/scalar.rs:970-972 [AddAssign<Scalar> for Scalar] *)
Definition s_add_assign_v (self other : scalar) : option scalar := s_add dbg self other.
(** core/src/scalar.rs:977-981 [Mul<Scalar> for Scalar] *)
Definition s_mul_vv (self other : scalar) : option scalar := let* ret := s_mul dbg self other in Some ret.
(** core/src/scalar.rs:986-990 [Mul<&Scalar> for &Scalar] *)
Definition s_mul_rr (self other : scalar) : option scalar := let* ret := s_mul dbg self other in Some ret.
(** core/src/scalar.rs:994-998 [MulAssign<&Scalar> for Scalar] *)
Definition s_mul_assign_r (self other : scalar) : option scalar := let* ret := s_mul dbg self other in Some ret.
(** core/src/scalar.rs:1002-1004 [MulAssign<Scalar> for Scalar] *)
Definition s_mul_assign_v (self other : scalar) : option scalar := s_mul_assign_r self other.
(** core/src/scalar.rs:1009-1012 [Neg for Scalar] *)
Definition s_neg_v (self : scalar) : option scalar := let* self := s_cond_neg dbg self true in Some self.
(** core/src/scalar.rs:1017-1020 [Neg for &Scalar] *)
Definition s_neg_r (self : scalar) : option scalar := let! value := self in s_neg_v value.

(** One statement on field variables; [br]: the operands are borrowed. *)
Inductive fins :=
| FCopy (d a : nat)                      (* x = a; core/src/field.rs:12 *)
| FInt (d : nat) (v : Z)                 (* x = Field::from_int(v); 73-77 *)
| FAdd (br : bool) (d a b : nat)         (* x = a + b, x = &a + &b; 1674-1690 *)
| FAddTo (br : bool) (d b : nat)         (* x += b, x += &b; 1692-1715 *)
| FMul (br : bool) (d a b : nat)         (* x = a * b, x = &a * &b; 1717-1733 *)
| FMulTo (br : bool) (d b : nat)         (* x *= b, x *= &b; 1735-1747 *)
| FSqr (d a : nat)                       (* x = a.sqr(); 1445-1458 *)
| FNeg (d a : nat) (m : Z)               (* x = a.neg(m); 633-659 *)
| FMulInt (d : nat) (k : Z)              (* x.mul_int(k); 663-678 *)
| FInv (d a : nat)                       (* x = a.inv(), x = a.inv_var(); 1546-1630 *)
| FNorm (d : nat)                        (* x.normalize(); 112-196 *)
| FNormVar (d : nat)                     (* x.normalize_var(); 244-330 *)
| FNormWeak (d : nat)                    (* x.normalize_weak(); 200-241 *)
| FCmov (d b : nat) (flag : bool).       (* x.cmov(&b, flag); 1640-1661 *)
(** the statement executed; the lines are those beside [fins] *)
Definition fstep (r : nat -> field) (i : fins) : option (nat -> field) :=
  match i with
  | FCopy d a => Some (put r d (r a))
  | FInt d v => let* x := f_from_int v in Some (put r d x)
  | FAdd br d a b => let* x := (if br then f_add_rr else f_add_vv) (r a) (r b) in Some (put r d x)
  | FAddTo br d b => let* x := (if br then f_add dbg else f_add_assign_v) (r d) (r b) in Some (put r d x)
  | FMul br d a b => let* x := (if br then f_mul_rr else f_mul_vv) (r a) (r b) in Some (put r d x)
  | FMulTo br d b => let* x := (if br then f_mul_assign_r else f_mul_assign_v) (r d) (r b) in Some (put r d x)
  | FSqr d a => let* x := f_sqr dbg (r a) in Some (put r d x)
  | FNeg d a m => let* x := f_neg dbg (r a) m in Some (put r d x)
  | FMulInt d k => let* x := f_mul_int dbg (r d) k in Some (put r d x)
  | FInv d a => let* x := f_inv dbg (r a) in Some (put r d x)
  | FNorm d => let* x := f_normalize dbg (r d) in Some (put r d x)
  | FNormVar d => let* x := f_normalize_var dbg (r d) in Some (put r d x)
  | FNormWeak d => let* x := f_normalize_weak dbg (r d) in Some (put r d x)
  | FCmov d b flag => Some (put r d (f_cmov (r d) (r b) flag))
  end.
(** a program of such statements; [None]: it panics (core/src/field.rs at the lines beside [fins]) *)
Fixpoint frun (r : nat -> field) (q : list fins) : option (nat -> field) :=
  match q with [] => Some r | i :: t => let* r := fstep r i in frun r t end.

(** One statement on scalar variables. *)
Inductive sins :=
| SCopy (d a : nat)                      (* x = a; core/src/scalar.rs:24 *)
| SInt (d : nat) (v : Z)                 (* x = Scalar::from_int(v); 42-46 *)
| SAdd (br : bool) (d a b : nat)         (* x = a + b, x = &a + &b; 935-950 *)
| SAddTo (br : bool) (d b : nat)         (* x += b, x += &b; 952-973 *)
| SMul (br : bool) (d a b : nat)         (* x = a * b, x = &a * &b; 975-991 *)
| SMulTo (br : bool) (d b : nat)         (* x *= b, x *= &b; 993-1005 *)
| SSqr (d a : nat)                       (* x = a.sqr(); 762-766 *)
| SNeg (br : bool) (d a : nat)           (* x = -a, x = -&a; 1007-1021 *)
| SCondNeg (d : nat) (flag : bool)       (* x.cond_neg_assign(flag.into()); 290-306 *)
| SInv (d a : nat).                      (* x = a.inv(), x = a.inv_var(); 768-922 *)
(** the statement executed; the lines are those beside [sins] *)
Definition sstep (r : nat -> scalar) (i : sins) : option (nat -> scalar) :=
  match i with
  | SCopy d a => Some (put r d (r a))
  | SInt d v => Some (put r d (s_from_int v))
  | SAdd br d a b => let* x := (if br then s_add_rr else s_add_vv) (r a) (r b) in Some (put r d x)
  | SAddTo br d b => let* x := (if br then s_add dbg else s_add_assign_v) (r d) (r b) in Some (put r d x)
  | SMul br d a b => let* x := (if br then s_mul_rr else s_mul_vv) (r a) (r b) in Some (put r d x)
  | SMulTo br d b => let* x := (if br then s_mul_assign_r else s_mul_assign_v) (r d) (r b) in Some (put r d x)
  | SSqr d a => let* x := s_sqr dbg (r a) in Some (put r d x)
  | SNeg br d a => let* x := (if br then s_neg_r else s_neg_v) (r a) in Some (put r d x)
  | SCondNeg d flag => let* x := s_cond_neg dbg (r d) flag in Some (put r d x)
  | SInv d a => let* x := s_inv dbg (r a) in Some (put r d x)
  end.
(** a program of such statements; [None]: it panics (core/src/scalar.rs at the lines beside [sins]) *)
Fixpoint srun (r : nat -> scalar) (q : list sins) : option (nat -> scalar) :=
  match q with [] => Some r | i :: t => let* r := sstep r i in srun r t end.
End Build.
