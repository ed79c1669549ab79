(** MGroup.v once more, with two flags instead of one: [fst bd] says whether debug assertions are executed
    ([debug-assertions]), [snd bd] whether an arithmetic overflow panics ([overflow-checks]). Written by tools/gen_builds.py. *)
From Verif Require Import Word MField MGroup XField.

Section Build.
Variable bd : bool * bool.

Notation "a * b" := (f_mul_x bd a b).

Notation "a + b" := (f_add_x bd a b).

Local Notation sqr := (f_sqr_x bd).

Local Notation mul_int := (f_mul_int_x bd).

Local Notation neg := (f_neg_x bd).

(** core/src/group.rs:105-116 [set_xquad] *)
Definition af_set_xquad_x (x : field) : option (affine * bool) :=
  let* x2 := sqr x in
  let* x3 := x * x2 in
  let* c := f_set_int_x bd CURVE_B in
  let* c := c + x3 in
  let* '(v, ret) := f_sqrt_x bd c in
  Some (Af x v false, ret).

(** core/src/group.rs:121-130 [set_xo_var] *)
Definition af_set_xo_var_x (x : field) (odd : bool) : option (affine * bool) :=
  let* '(a, ok) := af_set_xquad_x x in
  if negb ok then Some (a, false)
  else
    let* y := f_normalize_var_x bd (af_y a) in
    let* o := f_is_odd_x bd y in
    let* y := (if Bool.eqb o odd then Some y else neg y 1) in
    Some (Af (af_x a) y (af_inf a), true).

(** core/src/group.rs:138-150 [is_valid_var] *)
Definition af_is_valid_var_x (a : affine) : option bool :=
  if af_inf a then Some false
  else
    let* y2 := sqr (af_y a) in
    let* x3 := sqr (af_x a) in
    let* x3 := x3 * af_x a in
    let* c := f_set_int_x bd CURVE_B in
    let* x3 := x3 + c in
    let* x3 := f_normalize_weak_x bd x3 in
    f_eq_var_x bd y2 x3.

(** core/src/group.rs:152-162 [Affine::neg_in_place], [Affine::neg] *)
Definition af_neg_x (a : affine) : option affine :=
  let* y := f_normalize_weak_x bd (af_y a) in
  let* y := neg y 1 in
  Some (Af (af_x a) y (af_inf a)).

(** derived [PartialEq for Affine], core/src/group.rs:3: x, y, infinity in order, short-circuiting *)
Definition af_eq_x (a b : affine) : option bool :=
  let* ex := f_eq_x bd (af_x a) (af_x b) in
  if negb ex then Some false else
  let* ey := f_eq_x bd (af_y a) (af_y b) in
  if negb ey then Some false else
  Some (Bool.eqb (af_inf a) (af_inf b)).

(** core/src/group.rs:166-183 [set_gej], [from_gej] *)
Definition af_set_gej_x (a : jac) : option affine :=
  let* zi := f_inv_x bd (j_z a) in
  let* z2 := sqr zi in
  let* z3 := zi * z2 in
  let* x := j_x a * z2 in
  let* y := j_y a * z3 in
  let* _ := f_set_int_x bd 1 in
  Some (Af x y (j_inf a)).

(** core/src/group.rs:185-199 [set_gej_var] *)
Definition af_set_gej_var_x (self : affine) (a : jac) : option affine :=
  if j_inf a then Some (Af (af_x self) (af_y self) true)
  else
    let* zi := f_inv_x bd (j_z a) in
    let* z2 := sqr zi in
    let* z3 := zi * z2 in
    let* x := j_x a * z2 in
    let* y := j_y a * z3 in
    let* _ := f_set_int_x bd 1 in
    Some (Af x y (j_inf a)).

(** core/src/group.rs:201-207 [set_gej_zinv] *)
Definition af_set_gej_zinv_x (a : jac) (zi : field) : option affine :=
  let* zi2 := sqr zi in
  let* zi3 := zi2 * zi in
  let* x := j_x a * zi2 in
  let* y := j_y a * zi3 in
  Some (Af x y (j_inf a)).

(** core/src/group.rs:217-233 [set_table_gej_var].  The loop runs from the last index down, so
    the lists are traversed reversed: [ra], [rzr] are the reversed inputs;
    each step first multiplies by [zr[i]] of the entry just processed.  Returns index order. *)
Fixpoint set_table_loop_x (ra : list jac) (rzr : list field) (zi : field) (acc : list affine) : option (list affine) :=
  match ra, rzr with
  | a :: ra', zr_next :: rzr' =>
      let* zi := zi * zr_next in
      let* r := af_set_gej_zinv_x a zi in
      set_table_loop_x ra' rzr' zi (r :: acc)
  | [], _ => Some acc
  | _, _ => None
  end.

(** core/src/group.rs:217-233 [set_table_gej_var], in index order *)
Definition set_table_gej_var_x (a : list jac) (zr : list field) : option (list affine) :=
  match rev a, rev zr with
  | al :: ra, rzr =>
      let* zi := f_inv_x bd (j_z al) in
      let* r := af_set_gej_zinv_x al zi in
      set_table_loop_x ra rzr zi [r]
  | [], _ => Some []
  end.

(** core/src/group.rs:235-256 [globalz_set_table_gej]: table in index order and the global z.
    The first step down uses [zs = zr[last]] without a multiplication. *)
Definition globalz_set_table_gej_x (a : list jac) (zr : list field) : option (list affine * field) :=
  dassert (fst bd) (Nat.eqb (length a) (length zr)) ;;
  match rev a, rev zr with
  | al :: ra, zl :: rzr =>
      let! r := Af (j_x al) (j_y al) false in
      match ra with
      | [] => Some ([r], j_z al)
      | a1 :: ra' =>
          let* r1 := af_set_gej_zinv_x a1 zl in
          let* t := set_table_loop_x ra' rzr zl [r1; r] in
          Some (t, j_z al)
      end
  | _, _ => None
  end.

(** core/src/group.rs:279-290 [set_ge], [from_ge] *)
Definition j_set_ge_x (a : affine) : option jac :=
  let* z := f_set_int_x bd 1 in
  Some (Ja (af_x a) (af_y a) z (af_inf a)).

(** core/src/group.rs:293-300 [eq_x_var] *)
Definition j_eq_x_var_x (a : jac) (x : field) : option bool :=
  dassert (fst bd) (negb (j_inf a)) ;;
  let* r := sqr (j_z a) in
  let* r := r * x in
  let* r2 := f_normalize_weak_x bd (j_x a) in
  f_eq_var_x bd r r2.

(** core/src/group.rs:304-317 [Jacobian::neg_in_place], [neg] *)
Definition j_neg_x (a : jac) : option jac :=
  let* y := f_normalize_weak_x bd (j_y a) in
  let* y := neg y 1 in
  Some (Ja (j_x a) y (j_z a) (j_inf a)).

(** core/src/group.rs:325-332 [has_quad_y_var] *)
Definition j_has_quad_y_var_x (a : jac) : option bool :=
  if j_inf a then Some false
  else let* yz := j_y a * j_z a in f_is_quad_var_x bd yz.

(** core/src/group.rs:344-379 [double_var_in_place] *)
Definition j_double_var_in_place_x (self a : jac) (rzr : option field) : option (jac * option field) :=
  if j_inf a then
    let* rzr := (match rzr with Some _ => let* f := f_set_int_x bd 1 in Some (Some f) | None => Some None end) in
    Some (Ja (j_x self) (j_y self) (j_z self) true, rzr)
  else
    let* rzr := (match rzr with
                 | Some _ => let* f := f_normalize_weak_x bd (j_y a) in
                             let* f := mul_int f 2 in Some (Some f)
                 | None => Some None end) in
    let* z := j_z a * j_y a in
    let* z := mul_int z 2 in
    let* t1 := sqr (j_x a) in
    let* t1 := mul_int t1 3 in
    let* t2 := sqr t1 in
    let* t3 := sqr (j_y a) in
    let* t3 := mul_int t3 2 in
    let* t4 := sqr t3 in
    let* t4 := mul_int t4 2 in
    let* t3 := t3 * j_x a in
    let* x := mul_int t3 4 in
    let* x := neg x 4 in
    let* x := x + t2 in
    let* t2 := neg t2 1 in
    let* t3 := mul_int t3 6 in
    let* t3 := t3 + t2 in
    let* y := t1 * t3 in
    let* t2 := neg t4 2 in
    let* y := y + t2 in
    Some (Ja x y z false, rzr).

(** core/src/group.rs:381-385 [double_var] *)
Definition j_double_var_x (a : jac) (rzr : option field) : option (jac * option field) :=
  j_double_var_in_place_x j_default a rzr.

(** [double_var(None)], core/src/group.rs:381-385 *)
Definition j_double_x (a : jac) : option jac :=
  let* '(r, _) := j_double_var_x a None in Some r.

(** core/src/group.rs:337-340 [double_nonzero_in_place] with [rzr = None] *)
Definition j_double_nonzero_in_place_x (self a : jac) : option jac :=
  dassert (fst bd) (negb (j_inf self)) ;;
  let* '(r, _) := j_double_var_in_place_x self a None in Some r.

(** tail shared, statement for statement, by [add_var] 427-446, [add_ge_var] 573-592 and
    [add_zinv_var] 641-656 once [u1], [s1], [h], [i], [h2], [h3], [i2] and the new z are known *)
Definition j_add_tail_x (u1 s1 i i2 h2 h3 z : field) : option jac :=
  let* t := u1 * h2 in
  let* x := mul_int t 2 in
  let* x := x + h3 in
  let* x := neg x 3 in
  let* x := x + i2 in
  let* y := neg x 5 in
  let* y := y + t in
  let* y := y * i in
  let* h3 := h3 * s1 in
  let* h3 := neg h3 1 in
  let* y := y + h3 in
  Some (Ja x y z false).

(** the branch "same x": core/src/group.rs:417-427, 563-573, 629-636.  [self] is
    [Jacobian::default()] at every call in this crate ([add_var], [add_ge_var], [add_zinv_var]) *)
Definition j_add_same_x_x (a : jac) (i : field) (rzr : option field) : option (jac * option field) :=
  let* iz := f_normalizes_to_zero_var_x bd i in
  if iz then j_double_var_in_place_x j_default a rzr
  else
    let* rzr := (match rzr with Some _ => let* f := f_set_int_x bd 0 in Some (Some f) | None => Some None end) in
    Some (Ja f_default f_default f_default true, rzr).

(** core/src/group.rs:389-453 [add_var_in_place], [add_var] *)
Definition j_add_var_x (a b : jac) (rzr : option field) : option (jac * option field) :=
  if j_inf a then
    dassert (fst bd) (match rzr with None => true | Some _ => false end) ;;
    Some (b, rzr)
  else if j_inf b then
    let* rzr := (match rzr with Some _ => let* f := f_set_int_x bd 1 in Some (Some f) | None => Some None end) in
    Some (a, rzr)
  else
    let* z22 := sqr (j_z b) in
    let* z12 := sqr (j_z a) in
    let* u1 := j_x a * z22 in
    let* u2 := j_x b * z12 in
    let* s1 := j_y a * z22 in
    let* s1 := s1 * j_z b in
    let* s2 := j_y b * z12 in
    let* s2 := s2 * j_z a in
    let* h := neg u1 1 in
    let* h := h + u2 in
    let* i := neg s1 1 in
    let* i := i + s2 in
    let* hz := f_normalizes_to_zero_var_x bd h in
    if hz then j_add_same_x_x a i rzr
    else
      let* i2 := sqr i in
      let* h2 := sqr h in
      let* h3 := h * h2 in
      let* h := h * j_z b in
      let! rzr := match rzr with Some _ => Some h | None => None end in
      let* z := j_z a * h in
      let* r := j_add_tail_x u1 s1 i i2 h2 h3 z in
      Some (r, rzr).

(** [a.add_var(b, None)], core/src/group.rs:449-453 *)
Definition j_add_x (a b : jac) : option jac :=
  let* '(r, _) := j_add_var_x a b None in Some r.

(** core/src/group.rs:457-528 [add_ge_in_place], [add_ge] (every field of [self] is overwritten) *)
Definition j_add_ge_x (a : jac) (b : affine) : option jac :=
  dassert (fst bd) (negb (af_inf b)) ;;
  let* zz := sqr (j_z a) in
  let* u1 := f_normalize_weak_x bd (j_x a) in
  let* u2 := af_x b * zz in
  let* s1 := f_normalize_weak_x bd (j_y a) in
  let* s2 := af_y b * zz in
  let* s2 := s2 * j_z a in
  let* t := u1 + u2 in
  let* m := s1 + s2 in
  let* rr := sqr t in
  let* m_alt := neg u2 1 in
  let* tt0 := u1 * m_alt in
  let* rr := rr + tt0 in
  let* mz := f_normalizes_to_zero_x bd m in
  let* degenerate := (if mz then f_normalizes_to_zero_x bd rr else Some false) in
  let* rr_alt := mul_int s1 2 in
  let* m_alt := m_alt + u1 in
  let! rr_alt := f_cmov rr_alt rr (negb degenerate) in
  let! m_alt := f_cmov m_alt m (negb degenerate) in
  let* n := sqr m_alt in
  let* q := n * t in
  let* n := sqr n in
  let! n := f_cmov n m degenerate in
  let* t := sqr rr_alt in
  let* z := j_z a * m_alt in
  let* zz0 := f_normalizes_to_zero_x bd z in
  let! infinity := zz0 && negb (j_inf a) in
  let* z := mul_int z 2 in
  let* q := neg q 1 in
  let* t := t + q in
  let* t := f_normalize_weak_x bd t in
  let! x := t in
  let* t := mul_int t 2 in
  let* t := t + q in
  let* t := t * rr_alt in
  let* t := t + n in
  let* y := neg t 3 in
  let* y := f_normalize_weak_x bd y in
  let* x := mul_int x 4 in
  let* y := mul_int y 4 in
  let! x := f_cmov x (af_x b) (j_inf a) in
  let! y := f_cmov y (af_y b) (j_inf a) in
  let! z := f_cmov z FE1 (j_inf a) in
  Some (Ja x y z infinity).

(** core/src/group.rs:536-599 [add_ge_var_in_place], [add_ge_var] *)
Definition j_add_ge_var_x (a : jac) (b : affine) (rzr : option field) : option (jac * option field) :=
  if j_inf a then
    dassert (fst bd) (match rzr with None => true | Some _ => false end) ;;
    let* r := j_set_ge_x b in Some (r, rzr)
  else if af_inf b then
    let* rzr := (match rzr with Some _ => let* f := f_set_int_x bd 1 in Some (Some f) | None => Some None end) in
    Some (a, rzr)
  else
    let* z12 := sqr (j_z a) in
    let* u1 := f_normalize_weak_x bd (j_x a) in
    let* u2 := af_x b * z12 in
    let* s1 := f_normalize_weak_x bd (j_y a) in
    let* s2 := af_y b * z12 in
    let* s2 := s2 * j_z a in
    let* h := neg u1 1 in
    let* h := h + u2 in
    let* i := neg s1 1 in
    let* i := i + s2 in
    let* hz := f_normalizes_to_zero_var_x bd h in
    if hz then j_add_same_x_x a i rzr
    else
      let* i2 := sqr i in
      let* h2 := sqr h in
      let* h3 := h * h2 in
      let! rzr := match rzr with Some _ => Some h | None => None end in
      let* z := j_z a * h in
      let* r := j_add_tail_x u1 s1 i i2 h2 h3 z in
      Some (r, rzr).

(** [a.add_ge_var(b, None)], core/src/group.rs:595-599 *)
Definition j_add_ge_v_x (a : jac) (b : affine) : option jac :=
  let* '(r, _) := j_add_ge_var_x a b None in Some r.

(** core/src/group.rs:603-663 [add_zinv_var_in_place], [add_zinv_var] *)
Definition j_add_zinv_var_x (a : jac) (b : affine) (bzinv : field) : option jac :=
  if af_inf b then Some a
  else if j_inf a then
    let* bzinv2 := sqr bzinv in
    let* bzinv3 := bzinv2 * bzinv in
    let* x := af_x b * bzinv2 in
    let* y := af_y b * bzinv3 in
    let* z := f_set_int_x bd 1 in
    Some (Ja x y z (af_inf b))
  else
    let* az := j_z a * bzinv in
    let* z12 := sqr az in
    let* u1 := f_normalize_weak_x bd (j_x a) in
    let* u2 := af_x b * z12 in
    let* s1 := f_normalize_weak_x bd (j_y a) in
    let* s2 := af_y b * z12 in
    let* s2 := s2 * az in
    let* h := neg u1 1 in
    let* h := h + u2 in
    let* i := neg s1 1 in
    let* i := i + s2 in
    let* hz := f_normalizes_to_zero_var_x bd h in
    if hz then let* '(r, _) := j_add_same_x_x a i None in Some r
    else
      let* i2 := sqr i in
      let* h2 := sqr h in
      let* h3 := h * h2 in
      let* z := j_z a * h in
      j_add_tail_x u1 s1 i i2 h2 h3 z.

(** core/src/group.rs:676-683 [rescale] *)
Definition j_rescale_x (a : jac) (s : field) : option jac :=
  (if fst bd then let* z := f_is_zero_x bd s in dassert (fst bd) (negb z) else Some tt) ;;
  let* zz := sqr s in
  let* x := j_x a * zz in
  let* y := j_y a * zz in
  let* y := y * s in
  let* z := j_z a * s in
  Some (Ja x y z (j_inf a)).

(** core/src/group.rs:692-699 [Into<AffineStorage> for Affine] *)
Definition af_to_storage_x (a : affine) : option astorage :=
  dassert (fst bd) (negb (af_inf a)) ;;
  let* x := f_normalize_x bd (af_x a) in
  let* y := f_normalize_x bd (af_y a) in
  let* sx := f_to_storage_x bd x in
  let* sy := f_to_storage_x bd y in
  Some (As sx sy).

End Build.
