(** Model of the in-place point operations of core/src/group.rs for an arbitrary old value of the
    receiver.  [MGroup] has them with the receiver [Jacobian::default()], as every call in the
    crate makes them; here the old [self] is a parameter and the assignments to its fields are
    followed one by one.  Conventions as in [MGroup]. *)
From Verif Require Import Word MField MGroup.

Section Build.
Variable dbg : bool.
Notation "a * b" := (f_mul dbg a b).
Notation "a + b" := (f_add dbg a b).
Local Notation sqr := (f_sqr dbg).
Local Notation neg := (f_neg dbg).

(** core/src/group.rs:337-340 [double_nonzero_in_place] with its [rzr] argument *)
Definition j_double_nonzero_into (self a : jac) (rzr : option field) : option (jac * option field) :=
  dassert dbg (negb (j_inf self)) ;;
  j_double_var_in_place dbg self a rzr.

(** core/src/group.rs:416-426, 563-573, 632-639: the branch "same x".  When [i] is not zero
    only [self.infinity] is assigned, so the coordinates of the old [self] stay. *)
Definition j_add_same_x_into (self a : jac) (i : field) (rzr : option field) : option (jac * option field) :=
  let* iz := f_normalizes_to_zero_var dbg i in
  if iz then j_double_var_in_place dbg self a rzr
  else
    let* rzr := (match rzr with Some _ => let* f := f_set_int dbg 0 in Some (Some f) | None => Some None end) in
    Some (Ja (j_x self) (j_y self) (j_z self) true, rzr).

(** core/src/group.rs:389-447 [add_var_in_place].  [self.infinity = false] (402) is overwritten
    in the branch "same x" and is part of the result of [j_add_tail] otherwise. *)
Definition j_add_var_into (self a b : jac) (rzr : option field) : option (jac * option field) :=
  if j_inf a then
    dassert dbg (match rzr with None => true | Some _ => false end) ;;
    Some (b, rzr)
  else if j_inf b then
    let* rzr := (match rzr with Some _ => let* f := f_set_int dbg 1 in Some (Some f) | None => Some None end) in
    Some (a, rzr)
  else
    let! self := Ja (j_x self) (j_y self) (j_z self) false in
    let* z22 := sqr (j_z b) in
    let* z12 := sqr (j_z a) in
    let* u1 := j_x a * z22 in
    let* u2 := j_x b * z12 in
    let* s1 := j_y a * z22 in
    let* s1 := s1 * j_z b in
    let* s2 := j_y b * z12 in
    let* s2 := s2 * j_z a in
    let* h := neg u1 1 in
    let* h := h + u2 in
    let* i := neg s1 1 in
    let* i := i + s2 in
    let* hz := f_normalizes_to_zero_var dbg h in
    if hz then j_add_same_x_into self a i rzr
    else
      let* i2 := sqr i in
      let* h2 := sqr h in
      let* h3 := h * h2 in
      let* h := h * j_z b in
      let! rzr := match rzr with Some _ => Some h | None => None end in
      let* z := j_z a * h in
      let* r := j_add_tail dbg u1 s1 i i2 h2 h3 z in
      Some (r, rzr).

(** core/src/group.rs:536-593 [add_ge_var_in_place] *)
Definition j_add_ge_var_into (self a : jac) (b : affine) (rzr : option field) : option (jac * option field) :=
  if j_inf a then
    dassert dbg (match rzr with None => true | Some _ => false end) ;;
    let* r := j_set_ge dbg b in Some (r, rzr)
  else if af_inf b then
    let* rzr := (match rzr with Some _ => let* f := f_set_int dbg 1 in Some (Some f) | None => Some None end) in
    Some (a, rzr)
  else
    let! self := Ja (j_x self) (j_y self) (j_z self) false in
    let* z12 := sqr (j_z a) in
    let* u1 := f_normalize_weak dbg (j_x a) in
    let* u2 := af_x b * z12 in
    let* s1 := f_normalize_weak dbg (j_y a) in
    let* s2 := af_y b * z12 in
    let* s2 := s2 * j_z a in
    let* h := neg u1 1 in
    let* h := h + u2 in
    let* i := neg s1 1 in
    let* i := i + s2 in
    let* hz := f_normalizes_to_zero_var dbg h in
    if hz then j_add_same_x_into self a i rzr
    else
      let* i2 := sqr i in
      let* h2 := sqr h in
      let* h3 := h * h2 in
      let! rzr := match rzr with Some _ => Some h | None => None end in
      let* z := j_z a * h in
      let* r := j_add_tail dbg u1 s1 i i2 h2 h3 z in
      Some (r, rzr).

(** core/src/group.rs:603-657 [add_zinv_var_in_place] *)
Definition j_add_zinv_var_into (self a : jac) (b : affine) (bzinv : field) : option jac :=
  if af_inf b then Some a
  else if j_inf a then
    let* bzinv2 := sqr bzinv in
    let* bzinv3 := bzinv2 * bzinv in
    let* x := af_x b * bzinv2 in
    let* y := af_y b * bzinv3 in
    let* z := f_set_int dbg 1 in
    Some (Ja x y z (af_inf b))
  else
    let! self := Ja (j_x self) (j_y self) (j_z self) false in
    let* az := j_z a * bzinv in
    let* z12 := sqr az in
    let* u1 := f_normalize_weak dbg (j_x a) in
    let* u2 := af_x b * z12 in
    let* s1 := f_normalize_weak dbg (j_y a) in
    let* s2 := af_y b * z12 in
    let* s2 := s2 * az in
    let* h := neg u1 1 in
    let* h := h + u2 in
    let* i := neg s1 1 in
    let* i := i + s2 in
    let* hz := f_normalizes_to_zero_var dbg h in
    if hz then let* '(r, _) := j_add_same_x_into self a i None in Some r
    else
      let* i2 := sqr i in
      let* h2 := sqr h in
      let* h3 := h * h2 in
      let* z := j_z a * h in
      j_add_tail dbg u1 s1 i i2 h2 h3 z.
End Build.
