(** MField.v once more, with two flags instead of one: [fst bd] says whether debug assertions are executed
    ([debug-assertions]), [snd bd] whether an arithmetic overflow panics ([overflow-checks]). Written by tools/gen_builds.py. *)
From Verif Require Import Word MField.

Section Build.
Variable bd : bool * bool.

(** core/src/field.rs:112-196 [Field::normalize] *)
Definition f_normalize_x (f : field) : option field :=
  let '(Fe t0 t1 t2 t3 t4 t5 t6 t7 t8 t9 _ _) := f in
  let! x := (Z.shiftr t9 22) in
  let! t9 := (Z.land t9 4194303) in
  let* q1 := mul32 (snd bd) x 977 in
  let* t0 := add32 (snd bd) t0 q1 in
  let* t1 := add32 (snd bd) t1 (shl32 x 6) in
  let* t1 := add32 (snd bd) t1 (Z.shiftr t0 26) in
  let! t0 := (Z.land t0 67108863) in
  let* t2 := add32 (snd bd) t2 (Z.shiftr t1 26) in
  let! t1 := (Z.land t1 67108863) in
  let* t3 := add32 (snd bd) t3 (Z.shiftr t2 26) in
  let! t2 := (Z.land t2 67108863) in
  let! m := t2 in
  let* t4 := add32 (snd bd) t4 (Z.shiftr t3 26) in
  let! t3 := (Z.land t3 67108863) in
  let! m := (Z.land m t3) in
  let* t5 := add32 (snd bd) t5 (Z.shiftr t4 26) in
  let! t4 := (Z.land t4 67108863) in
  let! m := (Z.land m t4) in
  let* t6 := add32 (snd bd) t6 (Z.shiftr t5 26) in
  let! t5 := (Z.land t5 67108863) in
  let! m := (Z.land m t5) in
  let* t7 := add32 (snd bd) t7 (Z.shiftr t6 26) in
  let! t6 := (Z.land t6 67108863) in
  let! m := (Z.land m t6) in
  let* t8 := add32 (snd bd) t8 (Z.shiftr t7 26) in
  let! t7 := (Z.land t7 67108863) in
  let! m := (Z.land m t7) in
  let* t9 := add32 (snd bd) t9 (Z.shiftr t8 26) in
  let! t8 := (Z.land t8 67108863) in
  let! m := (Z.land m t8) in
  dassert (fst bd) ((Z.shiftr t9 23) =? 0) ;;
  let* q1 := add32 (snd bd) t0 977 in
  let* q2 := add32 (snd bd) t1 64 in
  let* q3 := add32 (snd bd) q2 (Z.shiftr q1 26) in
  let! x := Z.lor (Z.shiftr t9 22)
              (b2z ((t9 =? 4194303) && (m =? 67108863) && (67108863 <? q3))) in
  let* q1 := mul32 (snd bd) x 977 in
  let* t0 := add32 (snd bd) t0 q1 in
  let* t1 := add32 (snd bd) t1 (shl32 x 6) in
  let* t1 := add32 (snd bd) t1 (Z.shiftr t0 26) in
  let! t0 := (Z.land t0 67108863) in
  let* t2 := add32 (snd bd) t2 (Z.shiftr t1 26) in
  let! t1 := (Z.land t1 67108863) in
  let* t3 := add32 (snd bd) t3 (Z.shiftr t2 26) in
  let! t2 := (Z.land t2 67108863) in
  let* t4 := add32 (snd bd) t4 (Z.shiftr t3 26) in
  let! t3 := (Z.land t3 67108863) in
  let* t5 := add32 (snd bd) t5 (Z.shiftr t4 26) in
  let! t4 := (Z.land t4 67108863) in
  let* t6 := add32 (snd bd) t6 (Z.shiftr t5 26) in
  let! t5 := (Z.land t5 67108863) in
  let* t7 := add32 (snd bd) t7 (Z.shiftr t6 26) in
  let! t6 := (Z.land t6 67108863) in
  let* t8 := add32 (snd bd) t8 (Z.shiftr t7 26) in
  let! t7 := (Z.land t7 67108863) in
  let* t9 := add32 (snd bd) t9 (Z.shiftr t8 26) in
  let! t8 := (Z.land t8 67108863) in
  dassert (fst bd) ((Z.shiftr t9 22) =? x) ;;
  let! t9 := (Z.land t9 4194303) in
  let! r := Fe t0 t1 t2 t3 t4 t5 t6 t7 t8 t9 1 true in
  dassert (fst bd) (f_verify r) ;;
  Some r.

(** core/src/field.rs:200-241 [Field::normalize_weak] (the [normalized] flag is kept) *)
Definition f_normalize_weak_x (f : field) : option field :=
  let '(Fe t0 t1 t2 t3 t4 t5 t6 t7 t8 t9 _ nrm) := f in
  let! x := (Z.shiftr t9 22) in
  let! t9 := (Z.land t9 4194303) in
  let* q1 := mul32 (snd bd) x 977 in
  let* t0 := add32 (snd bd) t0 q1 in
  let* t1 := add32 (snd bd) t1 (shl32 x 6) in
  let* t1 := add32 (snd bd) t1 (Z.shiftr t0 26) in
  let! t0 := (Z.land t0 67108863) in
  let* t2 := add32 (snd bd) t2 (Z.shiftr t1 26) in
  let! t1 := (Z.land t1 67108863) in
  let* t3 := add32 (snd bd) t3 (Z.shiftr t2 26) in
  let! t2 := (Z.land t2 67108863) in
  let* t4 := add32 (snd bd) t4 (Z.shiftr t3 26) in
  let! t3 := (Z.land t3 67108863) in
  let* t5 := add32 (snd bd) t5 (Z.shiftr t4 26) in
  let! t4 := (Z.land t4 67108863) in
  let* t6 := add32 (snd bd) t6 (Z.shiftr t5 26) in
  let! t5 := (Z.land t5 67108863) in
  let* t7 := add32 (snd bd) t7 (Z.shiftr t6 26) in
  let! t6 := (Z.land t6 67108863) in
  let* t8 := add32 (snd bd) t8 (Z.shiftr t7 26) in
  let! t7 := (Z.land t7 67108863) in
  let* t9 := add32 (snd bd) t9 (Z.shiftr t8 26) in
  let! t8 := (Z.land t8 67108863) in
  dassert (fst bd) ((Z.shiftr t9 23) =? 0) ;;
  let! r := Fe t0 t1 t2 t3 t4 t5 t6 t7 t8 t9 1 nrm in
  dassert (fst bd) (f_verify r) ;;
  Some r.

(** core/src/field.rs:244-330 [Field::normalize_var] *)
Definition f_normalize_var_x (f : field) : option field :=
  let '(Fe t0 t1 t2 t3 t4 t5 t6 t7 t8 t9 _ _) := f in
  let! x := (Z.shiftr t9 22) in
  let! t9 := (Z.land t9 4194303) in
  let* q1 := mul32 (snd bd) x 977 in
  let* t0 := add32 (snd bd) t0 q1 in
  let* t1 := add32 (snd bd) t1 (shl32 x 6) in
  let* t1 := add32 (snd bd) t1 (Z.shiftr t0 26) in
  let! t0 := (Z.land t0 67108863) in
  let* t2 := add32 (snd bd) t2 (Z.shiftr t1 26) in
  let! t1 := (Z.land t1 67108863) in
  let* t3 := add32 (snd bd) t3 (Z.shiftr t2 26) in
  let! t2 := (Z.land t2 67108863) in
  let! m := t2 in
  let* t4 := add32 (snd bd) t4 (Z.shiftr t3 26) in
  let! t3 := (Z.land t3 67108863) in
  let! m := (Z.land m t3) in
  let* t5 := add32 (snd bd) t5 (Z.shiftr t4 26) in
  let! t4 := (Z.land t4 67108863) in
  let! m := (Z.land m t4) in
  let* t6 := add32 (snd bd) t6 (Z.shiftr t5 26) in
  let! t5 := (Z.land t5 67108863) in
  let! m := (Z.land m t5) in
  let* t7 := add32 (snd bd) t7 (Z.shiftr t6 26) in
  let! t6 := (Z.land t6 67108863) in
  let! m := (Z.land m t6) in
  let* t8 := add32 (snd bd) t8 (Z.shiftr t7 26) in
  let! t7 := (Z.land t7 67108863) in
  let! m := (Z.land m t7) in
  let* t9 := add32 (snd bd) t9 (Z.shiftr t8 26) in
  let! t8 := (Z.land t8 67108863) in
  let! m := (Z.land m t8) in
  dassert (fst bd) ((Z.shiftr t9 23) =? 0) ;;
  let* q1 := add32 (snd bd) t0 977 in
  let* q2 := add32 (snd bd) t1 64 in
  let* q3 := add32 (snd bd) q2 (Z.shiftr q1 26) in
  let! x := Z.lor (Z.shiftr t9 22)
              (b2z ((t9 =? 4194303) && (m =? 67108863) && (67108863 <? q3))) in
  let* r := (if 0 <? x then
    let* t0 := add32 (snd bd) t0 977 in
    let* t1 := add32 (snd bd) t1 (shl32 x 6) in
    let* t1 := add32 (snd bd) t1 (Z.shiftr t0 26) in
    let! t0 := (Z.land t0 67108863) in
    let* t2 := add32 (snd bd) t2 (Z.shiftr t1 26) in
    let! t1 := (Z.land t1 67108863) in
    let* t3 := add32 (snd bd) t3 (Z.shiftr t2 26) in
    let! t2 := (Z.land t2 67108863) in
    let* t4 := add32 (snd bd) t4 (Z.shiftr t3 26) in
    let! t3 := (Z.land t3 67108863) in
    let* t5 := add32 (snd bd) t5 (Z.shiftr t4 26) in
    let! t4 := (Z.land t4 67108863) in
    let* t6 := add32 (snd bd) t6 (Z.shiftr t5 26) in
    let! t5 := (Z.land t5 67108863) in
    let* t7 := add32 (snd bd) t7 (Z.shiftr t6 26) in
    let! t6 := (Z.land t6 67108863) in
    let* t8 := add32 (snd bd) t8 (Z.shiftr t7 26) in
    let! t7 := (Z.land t7 67108863) in
    let* t9 := add32 (snd bd) t9 (Z.shiftr t8 26) in
    let! t8 := (Z.land t8 67108863) in
    dassert (fst bd) ((Z.shiftr t9 22) =? x) ;;
    let! t9 := (Z.land t9 4194303) in
    Some (Fe t0 t1 t2 t3 t4 t5 t6 t7 t8 t9 1 true)
  else Some (Fe t0 t1 t2 t3 t4 t5 t6 t7 t8 t9 1 true)) in
  dassert (fst bd) (f_verify r) ;;
  Some r.

(** core/src/field.rs:336-398 [Field::normalizes_to_zero] *)
Definition f_normalizes_to_zero_x (f : field) : option bool :=
  let '(Fe t0 t1 t2 t3 t4 t5 t6 t7 t8 t9 _ _) := f in
  let! x := (Z.shiftr t9 22) in
  let! t9 := (Z.land t9 4194303) in
  let* q1 := mul32 (snd bd) x 977 in
  let* t0 := add32 (snd bd) t0 q1 in
  let* t1 := add32 (snd bd) t1 (shl32 x 6) in
  let* t1 := add32 (snd bd) t1 (Z.shiftr t0 26) in
  let! t0 := (Z.land t0 67108863) in
  let! z0 := t0 in
  let! z1 := (Z.lxor t0 976) in
  let* t2 := add32 (snd bd) t2 (Z.shiftr t1 26) in
  let! t1 := (Z.land t1 67108863) in
  let! z0 := (Z.lor z0 t1) in
  let! z1 := (Z.land z1 (Z.lxor t1 64)) in
  let* t3 := add32 (snd bd) t3 (Z.shiftr t2 26) in
  let! t2 := (Z.land t2 67108863) in
  let! z0 := (Z.lor z0 t2) in
  let! z1 := (Z.land z1 t2) in
  let* t4 := add32 (snd bd) t4 (Z.shiftr t3 26) in
  let! t3 := (Z.land t3 67108863) in
  let! z0 := (Z.lor z0 t3) in
  let! z1 := (Z.land z1 t3) in
  let* t5 := add32 (snd bd) t5 (Z.shiftr t4 26) in
  let! t4 := (Z.land t4 67108863) in
  let! z0 := (Z.lor z0 t4) in
  let! z1 := (Z.land z1 t4) in
  let* t6 := add32 (snd bd) t6 (Z.shiftr t5 26) in
  let! t5 := (Z.land t5 67108863) in
  let! z0 := (Z.lor z0 t5) in
  let! z1 := (Z.land z1 t5) in
  let* t7 := add32 (snd bd) t7 (Z.shiftr t6 26) in
  let! t6 := (Z.land t6 67108863) in
  let! z0 := (Z.lor z0 t6) in
  let! z1 := (Z.land z1 t6) in
  let* t8 := add32 (snd bd) t8 (Z.shiftr t7 26) in
  let! t7 := (Z.land t7 67108863) in
  let! z0 := (Z.lor z0 t7) in
  let! z1 := (Z.land z1 t7) in
  let* t9 := add32 (snd bd) t9 (Z.shiftr t8 26) in
  let! t8 := (Z.land t8 67108863) in
  let! z0 := (Z.lor z0 t8) in
  let! z1 := (Z.land z1 t8) in
  let! z0 := (Z.lor z0 t9) in
  let! z1 := (Z.land z1 (Z.lxor t9 62914560)) in
  dassert (fst bd) ((Z.shiftr t9 23) =? 0) ;;
  Some ((z0 =? 0) || (z1 =? 67108863)).

(** core/src/field.rs:404-483 [Field::normalizes_to_zero_var] *)
Definition f_normalizes_to_zero_var_x (f : field) : option bool :=
  let '(Fe t0 t1 t2 t3 t4 t5 t6 t7 t8 t9 _ _) := f in
  let! x := (Z.shiftr t9 22) in
  let* q1 := mul32 (snd bd) x 977 in
  let* t0 := add32 (snd bd) t0 q1 in
  let! z0 := (Z.land t0 67108863) in
  let! z1 := (Z.lxor z0 976) in
  if negb (z0 =? 0) && negb (z1 =? 67108863) then Some false else
  let! t9 := (Z.land t9 4194303) in
  let* t1 := add32 (snd bd) t1 (shl32 x 6) in
  let* t1 := add32 (snd bd) t1 (Z.shiftr t0 26) in
  let* t2 := add32 (snd bd) t2 (Z.shiftr t1 26) in
  let! t1 := (Z.land t1 67108863) in
  let! z0 := (Z.lor z0 t1) in
  let! z1 := (Z.land z1 (Z.lxor t1 64)) in
  let* t3 := add32 (snd bd) t3 (Z.shiftr t2 26) in
  let! t2 := (Z.land t2 67108863) in
  let! z0 := (Z.lor z0 t2) in
  let! z1 := (Z.land z1 t2) in
  let* t4 := add32 (snd bd) t4 (Z.shiftr t3 26) in
  let! t3 := (Z.land t3 67108863) in
  let! z0 := (Z.lor z0 t3) in
  let! z1 := (Z.land z1 t3) in
  let* t5 := add32 (snd bd) t5 (Z.shiftr t4 26) in
  let! t4 := (Z.land t4 67108863) in
  let! z0 := (Z.lor z0 t4) in
  let! z1 := (Z.land z1 t4) in
  let* t6 := add32 (snd bd) t6 (Z.shiftr t5 26) in
  let! t5 := (Z.land t5 67108863) in
  let! z0 := (Z.lor z0 t5) in
  let! z1 := (Z.land z1 t5) in
  let* t7 := add32 (snd bd) t7 (Z.shiftr t6 26) in
  let! t6 := (Z.land t6 67108863) in
  let! z0 := (Z.lor z0 t6) in
  let! z1 := (Z.land z1 t6) in
  let* t8 := add32 (snd bd) t8 (Z.shiftr t7 26) in
  let! t7 := (Z.land t7 67108863) in
  let! z0 := (Z.lor z0 t7) in
  let! z1 := (Z.land z1 t7) in
  let* t9 := add32 (snd bd) t9 (Z.shiftr t8 26) in
  let! t8 := (Z.land t8 67108863) in
  let! z0 := (Z.lor z0 t8) in
  let! z1 := (Z.land z1 t8) in
  let! z0 := (Z.lor z0 t9) in
  let! z1 := (Z.land z1 (Z.lxor t9 62914560)) in
  dassert (fst bd) ((Z.shiftr t9 23) =? 0) ;;
  Some ((z0 =? 0) || (z1 =? 67108863)).

(** core/src/field.rs:487-492 [Field::set_int] *)
Definition f_set_int_x (a : Z) : option field :=
  let! r := Fe a 0 0 0 0 0 0 0 0 0 1 true in
  dassert (fst bd) (f_verify r) ;;
  Some r.

(** core/src/field.rs:496-510 [Field::is_zero] *)
Definition f_is_zero_x (f : field) : option bool :=
  dassert (fst bd) (f_norm f) ;;
  dassert (fst bd) (f_verify f) ;;
  match f with Fe n0 n1 n2 n3 n4 n5 n6 n7 n8 n9 _ _ =>
    Some (Z.lor (Z.lor (Z.lor (Z.lor (Z.lor (Z.lor (Z.lor (Z.lor (Z.lor n0 n1) n2) n3) n4) n5) n6) n7) n8) n9 =? 0)
  end.

(** core/src/field.rs:514-518 [Field::is_odd] *)
Definition f_is_odd_x (f : field) : option bool :=
  dassert (fst bd) (f_norm f) ;;
  dassert (fst bd) (f_verify f) ;;
  match f with Fe n0 _ _ _ _ _ _ _ _ _ _ _ => Some (negb (Z.land n0 1 =? 0)) end.

(** core/src/field.rs:530-582 [Field::set_b32].  The byte array is a function argument of
    length 32 (Rust type [[u8; 32]]); returns the new value of [self] and the success flag.
    On failure the limbs are overwritten but [magnitude]/[normalized] of the old value stay. *)
Definition f_set_b32_x (old : field) (a : list Z) : option (field * bool) :=
  match a with
  | [a0; a1; a2; a3; a4; a5; a6; a7; a8; a9; a10; a11; a12; a13; a14; a15;
     a16; a17; a18; a19; a20; a21; a22; a23; a24; a25; a26; a27; a28; a29; a30; a31] =>
  let! n0 := Z.lor (Z.lor (Z.lor a31 (shl32 a30 8)) (shl32 a29 16)) (shl32 (Z.land a28 3) 24) in
  let! n1 := Z.lor (Z.lor (Z.lor (Z.land (Z.shiftr a28 2) 63) (shl32 a27 6)) (shl32 a26 14)) (shl32 (Z.land a25 15) 22) in
  let! n2 := Z.lor (Z.lor (Z.lor (Z.land (Z.shiftr a25 4) 15) (shl32 a24 4)) (shl32 a23 12)) (shl32 (Z.land a22 63) 20) in
  let! n3 := Z.lor (Z.lor (Z.lor (Z.land (Z.shiftr a22 6) 3) (shl32 a21 2)) (shl32 a20 10)) (shl32 a19 18) in
  let! n4 := Z.lor (Z.lor (Z.lor a18 (shl32 a17 8)) (shl32 a16 16)) (shl32 (Z.land a15 3) 24) in
  let! n5 := Z.lor (Z.lor (Z.lor (Z.land (Z.shiftr a15 2) 63) (shl32 a14 6)) (shl32 a13 14)) (shl32 (Z.land a12 15) 22) in
  let! n6 := Z.lor (Z.lor (Z.lor (Z.land (Z.shiftr a12 4) 15) (shl32 a11 4)) (shl32 a10 12)) (shl32 (Z.land a9 63) 20) in
  let! n7 := Z.lor (Z.lor (Z.lor (Z.land (Z.shiftr a9 6) 3) (shl32 a8 2)) (shl32 a7 10)) (shl32 a6 18) in
  let! n8 := Z.lor (Z.lor (Z.lor a5 (shl32 a4 8)) (shl32 a3 16)) (shl32 (Z.land a2 3) 24) in
  let! n9 := Z.lor (Z.lor (Z.land (Z.shiftr a2 2) 63) (shl32 a1 6)) (shl32 a0 14) in
  let* over :=
    (if (n9 =? 4194303)
        && (Z.land (Z.land (Z.land (Z.land (Z.land (Z.land n8 n7) n6) n5) n4) n3) n2 =? 67108863)
     then let* q1 := add32 (snd bd) n1 64 in
          let* q2 := add32 (snd bd) n0 977 in
          let* q3 := add32 (snd bd) q1 (Z.shiftr q2 26) in
          Some (67108863 <? q3)
     else Some false) in
  if over then Some (Fe n0 n1 n2 n3 n4 n5 n6 n7 n8 n9 (f_mag old) (f_norm old), false)
  else
    let! r := Fe n0 n1 n2 n3 n4 n5 n6 n7 n8 n9 1 true in
    dassert (fst bd) (f_verify r) ;;
    Some (r, true)
  | _ => None
  end.

(** core/src/field.rs:584-628 [Field::fill_b32], [Field::b32] *)
Definition f_b32_x (f : field) : option (list Z) :=
  dassert (fst bd) (f_norm f) ;;
  dassert (fst bd) (f_verify f) ;;
  match f with Fe n0 n1 n2 n3 n4 n5 n6 n7 n8 n9 _ _ =>
  Some [ as_u8 (Z.land (Z.shiftr n9 14) 255);
         as_u8 (Z.land (Z.shiftr n9 6) 255);
         as_u8 (Z.lor (shl32 (Z.land n9 63) 2) (Z.land (Z.shiftr n8 24) 3));
         as_u8 (Z.land (Z.shiftr n8 16) 255);
         as_u8 (Z.land (Z.shiftr n8 8) 255);
         as_u8 (Z.land n8 255);
         as_u8 (Z.land (Z.shiftr n7 18) 255);
         as_u8 (Z.land (Z.shiftr n7 10) 255);
         as_u8 (Z.land (Z.shiftr n7 2) 255);
         as_u8 (Z.lor (shl32 (Z.land n7 3) 6) (Z.land (Z.shiftr n6 20) 63));
         as_u8 (Z.land (Z.shiftr n6 12) 255);
         as_u8 (Z.land (Z.shiftr n6 4) 255);
         as_u8 (Z.lor (shl32 (Z.land n6 15) 4) (Z.land (Z.shiftr n5 22) 15));
         as_u8 (Z.land (Z.shiftr n5 14) 255);
         as_u8 (Z.land (Z.shiftr n5 6) 255);
         as_u8 (Z.lor (shl32 (Z.land n5 63) 2) (Z.land (Z.shiftr n4 24) 3));
         as_u8 (Z.land (Z.shiftr n4 16) 255);
         as_u8 (Z.land (Z.shiftr n4 8) 255);
         as_u8 (Z.land n4 255);
         as_u8 (Z.land (Z.shiftr n3 18) 255);
         as_u8 (Z.land (Z.shiftr n3 10) 255);
         as_u8 (Z.land (Z.shiftr n3 2) 255);
         as_u8 (Z.lor (shl32 (Z.land n3 3) 6) (Z.land (Z.shiftr n2 20) 63));
         as_u8 (Z.land (Z.shiftr n2 12) 255);
         as_u8 (Z.land (Z.shiftr n2 4) 255);
         as_u8 (Z.lor (shl32 (Z.land n2 15) 4) (Z.land (Z.shiftr n1 22) 15));
         as_u8 (Z.land (Z.shiftr n1 14) 255);
         as_u8 (Z.land (Z.shiftr n1 6) 255);
         as_u8 (Z.lor (shl32 (Z.land n1 63) 2) (Z.land (Z.shiftr n0 24) 3));
         as_u8 (Z.land (Z.shiftr n0 16) 255);
         as_u8 (Z.land (Z.shiftr n0 8) 255);
         as_u8 (Z.land n0 255) ]
  end.

(** one line of core/src/field.rs:637-646: [k * 2 * (m + 1) - o] *)
Definition f_neg_limb_x (k m1 o : Z) : option Z :=
  let* q1 := mul32 (snd bd) k 2 in
  let* q2 := mul32 (snd bd) q1 m1 in
  sub32 (snd bd) q2 o.

(** core/src/field.rs:633-659 [Field::neg_in_place], [Field::neg] *)
Definition f_neg_x (other : field) (m : Z) : option field :=
  dassert (fst bd) (f_mag other <=? m) ;;
  dassert (fst bd) (f_verify other) ;;
  match other with Fe o0 o1 o2 o3 o4 o5 o6 o7 o8 o9 _ _ =>
  let* m1 := add32 (snd bd) m 1 in
  let* n0 := f_neg_limb_x 67107887 m1 o0 in
  let* n1 := f_neg_limb_x 67108799 m1 o1 in
  let* n2 := f_neg_limb_x 67108863 m1 o2 in
  let* n3 := f_neg_limb_x 67108863 m1 o3 in
  let* n4 := f_neg_limb_x 67108863 m1 o4 in
  let* n5 := f_neg_limb_x 67108863 m1 o5 in
  let* n6 := f_neg_limb_x 67108863 m1 o6 in
  let* n7 := f_neg_limb_x 67108863 m1 o7 in
  let* n8 := f_neg_limb_x 67108863 m1 o8 in
  let* n9 := f_neg_limb_x 4194303 m1 o9 in
  let! r := Fe n0 n1 n2 n3 n4 n5 n6 n7 n8 n9 m1 false in
  dassert (fst bd) (f_verify r) ;;
  Some r
  end.

(** core/src/field.rs:663-678 [Field::mul_int] *)
Definition f_mul_int_x (f : field) (a : Z) : option field :=
  match f with Fe n0 n1 n2 n3 n4 n5 n6 n7 n8 n9 mag _ =>
  let* n0 := mul32 (snd bd) n0 a in
  let* n1 := mul32 (snd bd) n1 a in
  let* n2 := mul32 (snd bd) n2 a in
  let* n3 := mul32 (snd bd) n3 a in
  let* n4 := mul32 (snd bd) n4 a in
  let* n5 := mul32 (snd bd) n5 a in
  let* n6 := mul32 (snd bd) n6 a in
  let* n7 := mul32 (snd bd) n7 a in
  let* n8 := mul32 (snd bd) n8 a in
  let* n9 := mul32 (snd bd) n9 a in
  let* mag := mul32 (snd bd) mag a in
  let! r := Fe n0 n1 n2 n3 n4 n5 n6 n7 n8 n9 mag false in
  dassert (fst bd) (f_verify r) ;;
  Some r
  end.

(** core/src/field.rs:1692-1709 [AddAssign for Field], also [Add] 1674-1690 *)
Definition f_add_x (a b : field) : option field :=
  match a, b with
  | Fe a0 a1 a2 a3 a4 a5 a6 a7 a8 a9 ma _, Fe b0 b1 b2 b3 b4 b5 b6 b7 b8 b9 mb _ =>
  let* n0 := add32 (snd bd) a0 b0 in
  let* n1 := add32 (snd bd) a1 b1 in
  let* n2 := add32 (snd bd) a2 b2 in
  let* n3 := add32 (snd bd) a3 b3 in
  let* n4 := add32 (snd bd) a4 b4 in
  let* n5 := add32 (snd bd) a5 b5 in
  let* n6 := add32 (snd bd) a6 b6 in
  let* n7 := add32 (snd bd) a7 b7 in
  let* n8 := add32 (snd bd) a8 b8 in
  let* n9 := add32 (snd bd) a9 b9 in
  let* mag := add32 (snd bd) ma mb in
  let! r := Fe n0 n1 n2 n3 n4 n5 n6 n7 n8 n9 mag false in
  dassert (fst bd) (f_verify r) ;;
  Some r
  end.

(** core/src/field.rs:682-698 [Field::cmp_var]; [Ord]/[PartialOrd] 1759-1769 call it.
    The limb lists are most significant first, the order of the reversed loop. *)
Definition f_cmp_var_x (a b : field) : option comparison :=
  dassert (fst bd) (f_norm a) ;;
  dassert (fst bd) (f_norm b) ;;
  dassert (fst bd) (f_verify a) ;;
  dassert (fst bd) (f_verify b) ;;
  match a, b with
  | Fe a0 a1 a2 a3 a4 a5 a6 a7 a8 a9 _ _, Fe b0 b1 b2 b3 b4 b5 b6 b7 b8 b9 _ _ =>
    Some (cmp_limbs [a9; a8; a7; a6; a5; a4; a3; a2; a1; a0] [b9; b8; b7; b6; b5; b4; b3; b2; b1; b0])
  end.

(** [a >= b] through [PartialOrd], core/src/field.rs:1765-1769 *)
Definition f_ge_x (a b : field) : option bool :=
  let* c := f_cmp_var_x a b in Some (match c with Lt => false | _ => true end).

(** core/src/field.rs:700-704 [Field::eq_var] *)
Definition f_eq_var_x (a b : field) : option bool :=
  let* na := f_neg_x a 1 in
  let* na := f_add_x na b in
  f_normalizes_to_zero_var_x na.

(** core/src/field.rs:1749-1755 [PartialEq for Field] *)
Definition f_eq_x (a b : field) : option bool :=
  let* na := f_neg_x a (f_mag a) in
  let* na := f_add_x na b in
  f_normalizes_to_zero_x na.

(** core/src/field.rs:706-1095 [Field::mul_inner] (limbs of the result; the caller sets the flags) *)
Definition f_mul_inner_x (a b : field) : option field :=
  let '(Fe a0 a1 a2 a3 a4 a5 a6 a7 a8 a9 _ _) := a in
  let '(Fe b0 b1 b2 b3 b4 b5 b6 b7 b8 b9 _ _) := b in
  dassert (fst bd) (Z.shiftr a0 30 =? 0) ;;
  dassert (fst bd) (Z.shiftr a1 30 =? 0) ;;
  dassert (fst bd) (Z.shiftr a2 30 =? 0) ;;
  dassert (fst bd) (Z.shiftr a3 30 =? 0) ;;
  dassert (fst bd) (Z.shiftr a4 30 =? 0) ;;
  dassert (fst bd) (Z.shiftr a5 30 =? 0) ;;
  dassert (fst bd) (Z.shiftr a6 30 =? 0) ;;
  dassert (fst bd) (Z.shiftr a7 30 =? 0) ;;
  dassert (fst bd) (Z.shiftr a8 30 =? 0) ;;
  dassert (fst bd) (Z.shiftr a9 26 =? 0) ;;
  dassert (fst bd) (Z.shiftr b0 30 =? 0) ;;
  dassert (fst bd) (Z.shiftr b1 30 =? 0) ;;
  dassert (fst bd) (Z.shiftr b2 30 =? 0) ;;
  dassert (fst bd) (Z.shiftr b3 30 =? 0) ;;
  dassert (fst bd) (Z.shiftr b4 30 =? 0) ;;
  dassert (fst bd) (Z.shiftr b5 30 =? 0) ;;
  dassert (fst bd) (Z.shiftr b6 30 =? 0) ;;
  dassert (fst bd) (Z.shiftr b7 30 =? 0) ;;
  dassert (fst bd) (Z.shiftr b8 30 =? 0) ;;
  dassert (fst bd) (Z.shiftr b9 26 =? 0) ;;
  let! d := (wadd64 (wadd64 (wadd64 (wadd64 (wadd64 (wadd64 (wadd64 (wadd64 (wadd64 (a0 * b9) (a1 * b8)) (a2 * b7)) (a3 * b6)) (a4 * b5)) (a5 * b4)) (a6 * b3)) (a7 * b2)) (a8 * b1)) (a9 * b0)) in
  let! t9 := (as_u32 (Z.land d 67108863)) in
  let! d := (Z.shiftr d 26) in
  dassert (fst bd) (Z.shiftr t9 26 =? 0) ;;
  dassert (fst bd) (Z.shiftr d 38 =? 0) ;;
  let! c := (a0 * b0) in
  dassert (fst bd) (Z.shiftr c 60 =? 0) ;;
  let! d := (wadd64 (wadd64 (wadd64 (wadd64 (wadd64 (wadd64 (wadd64 (wadd64 (wadd64 d (a1 * b9)) (a2 * b8)) (a3 * b7)) (a4 * b6)) (a5 * b5)) (a6 * b4)) (a7 * b3)) (a8 * b2)) (a9 * b1)) in
  dassert (fst bd) (Z.shiftr d 63 =? 0) ;;
  let! v0 := (Z.land d 67108863) in
  let! d := (Z.shiftr d 26) in
  let* q1 := mul64 (snd bd) v0 15632 in
  let* c := add64 (snd bd) c q1 in
  dassert (fst bd) (Z.shiftr v0 26 =? 0) ;;
  dassert (fst bd) (Z.shiftr d 37 =? 0) ;;
  dassert (fst bd) (Z.shiftr c 61 =? 0) ;;
  let! t0 := (as_u32 (Z.land c 67108863)) in
  let! c := (Z.shiftr c 26) in
  let* q3 := mul64 (snd bd) v0 1024 in
  let* c := add64 (snd bd) c q3 in
  dassert (fst bd) (Z.shiftr t0 26 =? 0) ;;
  dassert (fst bd) (Z.shiftr c 37 =? 0) ;;
  let! c := (wadd64 (wadd64 c (a0 * b1)) (a1 * b0)) in
  dassert (fst bd) (Z.shiftr c 62 =? 0) ;;
  let! d := (wadd64 (wadd64 (wadd64 (wadd64 (wadd64 (wadd64 (wadd64 (wadd64 d (a2 * b9)) (a3 * b8)) (a4 * b7)) (a5 * b6)) (a6 * b5)) (a7 * b4)) (a8 * b3)) (a9 * b2)) in
  dassert (fst bd) (Z.shiftr d 63 =? 0) ;;
  let! v1 := (Z.land d 67108863) in
  let! d := (Z.shiftr d 26) in
  let* q5 := mul64 (snd bd) v1 15632 in
  let* c := add64 (snd bd) c q5 in
  dassert (fst bd) (Z.shiftr v1 26 =? 0) ;;
  dassert (fst bd) (Z.shiftr d 37 =? 0) ;;
  dassert (fst bd) (Z.shiftr c 63 =? 0) ;;
  let! t1 := (as_u32 (Z.land c 67108863)) in
  let! c := (Z.shiftr c 26) in
  let* q7 := mul64 (snd bd) v1 1024 in
  let* c := add64 (snd bd) c q7 in
  dassert (fst bd) (Z.shiftr t1 26 =? 0) ;;
  dassert (fst bd) (Z.shiftr c 38 =? 0) ;;
  let! c := (wadd64 (wadd64 (wadd64 c (a0 * b2)) (a1 * b1)) (a2 * b0)) in
  dassert (fst bd) (Z.shiftr c 62 =? 0) ;;
  let! d := (wadd64 (wadd64 (wadd64 (wadd64 (wadd64 (wadd64 (wadd64 d (a3 * b9)) (a4 * b8)) (a5 * b7)) (a6 * b6)) (a7 * b5)) (a8 * b4)) (a9 * b3)) in
  dassert (fst bd) (Z.shiftr d 63 =? 0) ;;
  let! v2 := (Z.land d 67108863) in
  let! d := (Z.shiftr d 26) in
  let* q9 := mul64 (snd bd) v2 15632 in
  let* c := add64 (snd bd) c q9 in
  dassert (fst bd) (Z.shiftr v2 26 =? 0) ;;
  dassert (fst bd) (Z.shiftr d 37 =? 0) ;;
  dassert (fst bd) (Z.shiftr c 63 =? 0) ;;
  let! t2 := (as_u32 (Z.land c 67108863)) in
  let! c := (Z.shiftr c 26) in
  let* q11 := mul64 (snd bd) v2 1024 in
  let* c := add64 (snd bd) c q11 in
  dassert (fst bd) (Z.shiftr t2 26 =? 0) ;;
  dassert (fst bd) (Z.shiftr c 38 =? 0) ;;
  let! c := (wadd64 (wadd64 (wadd64 (wadd64 c (a0 * b3)) (a1 * b2)) (a2 * b1)) (a3 * b0)) in
  dassert (fst bd) (Z.shiftr c 63 =? 0) ;;
  let! d := (wadd64 (wadd64 (wadd64 (wadd64 (wadd64 (wadd64 d (a4 * b9)) (a5 * b8)) (a6 * b7)) (a7 * b6)) (a8 * b5)) (a9 * b4)) in
  dassert (fst bd) (Z.shiftr d 63 =? 0) ;;
  let! v3 := (Z.land d 67108863) in
  let! d := (Z.shiftr d 26) in
  let* q13 := mul64 (snd bd) v3 15632 in
  let* c := add64 (snd bd) c q13 in
  dassert (fst bd) (Z.shiftr v3 26 =? 0) ;;
  dassert (fst bd) (Z.shiftr d 37 =? 0) ;;
  let! t3 := (as_u32 (Z.land c 67108863)) in
  let! c := (Z.shiftr c 26) in
  let* q15 := mul64 (snd bd) v3 1024 in
  let* c := add64 (snd bd) c q15 in
  dassert (fst bd) (Z.shiftr t3 26 =? 0) ;;
  dassert (fst bd) (Z.shiftr c 39 =? 0) ;;
  let! c := (wadd64 (wadd64 (wadd64 (wadd64 (wadd64 c (a0 * b4)) (a1 * b3)) (a2 * b2)) (a3 * b1)) (a4 * b0)) in
  dassert (fst bd) (Z.shiftr c 63 =? 0) ;;
  let! d := (wadd64 (wadd64 (wadd64 (wadd64 (wadd64 d (a5 * b9)) (a6 * b8)) (a7 * b7)) (a8 * b6)) (a9 * b5)) in
  dassert (fst bd) (Z.shiftr d 62 =? 0) ;;
  let! v4 := (Z.land d 67108863) in
  let! d := (Z.shiftr d 26) in
  let* q17 := mul64 (snd bd) v4 15632 in
  let* c := add64 (snd bd) c q17 in
  dassert (fst bd) (Z.shiftr v4 26 =? 0) ;;
  dassert (fst bd) (Z.shiftr d 36 =? 0) ;;
  let! t4 := (as_u32 (Z.land c 67108863)) in
  let! c := (Z.shiftr c 26) in
  let* q19 := mul64 (snd bd) v4 1024 in
  let* c := add64 (snd bd) c q19 in
  dassert (fst bd) (Z.shiftr t4 26 =? 0) ;;
  dassert (fst bd) (Z.shiftr c 39 =? 0) ;;
  let! c := (wadd64 (wadd64 (wadd64 (wadd64 (wadd64 (wadd64 c (a0 * b5)) (a1 * b4)) (a2 * b3)) (a3 * b2)) (a4 * b1)) (a5 * b0)) in
  dassert (fst bd) (Z.shiftr c 63 =? 0) ;;
  let! d := (wadd64 (wadd64 (wadd64 (wadd64 d (a6 * b9)) (a7 * b8)) (a8 * b7)) (a9 * b6)) in
  dassert (fst bd) (Z.shiftr d 62 =? 0) ;;
  let! v5 := (Z.land d 67108863) in
  let! d := (Z.shiftr d 26) in
  let* q21 := mul64 (snd bd) v5 15632 in
  let* c := add64 (snd bd) c q21 in
  dassert (fst bd) (Z.shiftr v5 26 =? 0) ;;
  dassert (fst bd) (Z.shiftr d 36 =? 0) ;;
  let! t5 := (as_u32 (Z.land c 67108863)) in
  let! c := (Z.shiftr c 26) in
  let* q23 := mul64 (snd bd) v5 1024 in
  let* c := add64 (snd bd) c q23 in
  dassert (fst bd) (Z.shiftr t5 26 =? 0) ;;
  dassert (fst bd) (Z.shiftr c 39 =? 0) ;;
  let! c := (wadd64 (wadd64 (wadd64 (wadd64 (wadd64 (wadd64 (wadd64 c (a0 * b6)) (a1 * b5)) (a2 * b4)) (a3 * b3)) (a4 * b2)) (a5 * b1)) (a6 * b0)) in
  dassert (fst bd) (Z.shiftr c 63 =? 0) ;;
  let! d := (wadd64 (wadd64 (wadd64 d (a7 * b9)) (a8 * b8)) (a9 * b7)) in
  dassert (fst bd) (Z.shiftr d 61 =? 0) ;;
  let! v6 := (Z.land d 67108863) in
  let! d := (Z.shiftr d 26) in
  let* q25 := mul64 (snd bd) v6 15632 in
  let* c := add64 (snd bd) c q25 in
  dassert (fst bd) (Z.shiftr v6 26 =? 0) ;;
  dassert (fst bd) (Z.shiftr d 35 =? 0) ;;
  let! t6 := (as_u32 (Z.land c 67108863)) in
  let! c := (Z.shiftr c 26) in
  let* q27 := mul64 (snd bd) v6 1024 in
  let* c := add64 (snd bd) c q27 in
  dassert (fst bd) (Z.shiftr t6 26 =? 0) ;;
  dassert (fst bd) (Z.shiftr c 39 =? 0) ;;
  let! c := (wadd64 (wadd64 (wadd64 (wadd64 (wadd64 (wadd64 (wadd64 (wadd64 c (a0 * b7)) (a1 * b6)) (a2 * b5)) (a3 * b4)) (a4 * b3)) (a5 * b2)) (a6 * b1)) (a7 * b0)) in
  dassert (fst bd) (c <=? 9223372569430720519) ;;
  let! d := (wadd64 (wadd64 d (a8 * b9)) (a9 * b8)) in
  dassert (fst bd) (Z.shiftr d 58 =? 0) ;;
  let! v7 := (Z.land d 67108863) in
  let! d := (Z.shiftr d 26) in
  let* q29 := mul64 (snd bd) v7 15632 in
  let* c := add64 (snd bd) c q29 in
  dassert (fst bd) (Z.shiftr v7 26 =? 0) ;;
  dassert (fst bd) (Z.shiftr d 32 =? 0) ;;
  dassert (fst bd) (c <=? 9223373618476466935) ;;
  let! t7 := (as_u32 (Z.land c 67108863)) in
  let! c := (Z.shiftr c 26) in
  let* q31 := mul64 (snd bd) v7 1024 in
  let* c := add64 (snd bd) c q31 in
  dassert (fst bd) (Z.shiftr t7 26 =? 0) ;;
  dassert (fst bd) (Z.shiftr c 38 =? 0) ;;
  let! c := (wadd64 (wadd64 (wadd64 (wadd64 (wadd64 (wadd64 (wadd64 (wadd64 (wadd64 c (a0 * b8)) (a1 * b7)) (a2 * b6)) (a3 * b5)) (a4 * b4)) (a5 * b3)) (a6 * b2)) (a7 * b1)) (a8 * b0)) in
  dassert (fst bd) (c <=? 10376294071890083848) ;;
  let! d := (wadd64 d (a9 * b9)) in
  dassert (fst bd) (Z.shiftr d 57 =? 0) ;;
  let! v8 := (Z.land d 67108863) in
  let! d := (Z.shiftr d 26) in
  let* q33 := mul64 (snd bd) v8 15632 in
  let* c := add64 (snd bd) c q33 in
  dassert (fst bd) (Z.shiftr v8 26 =? 0) ;;
  dassert (fst bd) (Z.shiftr d 31 =? 0) ;;
  dassert (fst bd) (c <=? 10376295120935830264) ;;
  let! r3 := t3 in
  dassert (fst bd) (Z.shiftr r3 26 =? 0) ;;
  let! r4 := t4 in
  dassert (fst bd) (Z.shiftr r4 26 =? 0) ;;
  let! r5 := t5 in
  dassert (fst bd) (Z.shiftr r5 26 =? 0) ;;
  let! r6 := t6 in
  dassert (fst bd) (Z.shiftr r6 26 =? 0) ;;
  let! r7 := t7 in
  dassert (fst bd) (Z.shiftr r7 26 =? 0) ;;
  let! r8 := (as_u32 (Z.land c 67108863)) in
  let! c := (Z.shiftr c 26) in
  let* q35 := mul64 (snd bd) v8 1024 in
  let* c := add64 (snd bd) c q35 in
  dassert (fst bd) (Z.shiftr r8 26 =? 0) ;;
  dassert (fst bd) (Z.shiftr c 39 =? 0) ;;
  let* q37 := mul64 (snd bd) d 15632 in
  let* q38 := add64 (snd bd) q37 t9 in
  let* c := add64 (snd bd) c q38 in
  dassert (fst bd) (Z.shiftr c 45 =? 0) ;;
  let! r9 := (as_u32 (Z.land c (Z.shiftr 67108863 4))) in
  let! c := (Z.shiftr c 22) in
  let* q40 := mul64 (snd bd) d ((Z.shiftl 1024 4) mod 2 ^ 64) in
  let* c := add64 (snd bd) c q40 in
  dassert (fst bd) (Z.shiftr r9 22 =? 0) ;;
  dassert (fst bd) (Z.shiftr c 46 =? 0) ;;
  let* q42 := mul64 (snd bd) c (Z.shiftr 15632 4) in
  let* d := add64 (snd bd) q42 t0 in
  dassert (fst bd) (Z.shiftr d 56 =? 0) ;;
  let! r0 := (as_u32 (Z.land d 67108863)) in
  let! d := (Z.shiftr d 26) in
  dassert (fst bd) (Z.shiftr r0 26 =? 0) ;;
  dassert (fst bd) (Z.shiftr d 30 =? 0) ;;
  let* q44 := mul64 (snd bd) c (Z.shiftr 1024 4) in
  let* q45 := add64 (snd bd) q44 t1 in
  let* d := add64 (snd bd) d q45 in
  dassert (fst bd) (Z.shiftr d 53 =? 0) ;;
  dassert (fst bd) (d <=? 4503599694479295) ;;
  let! r1 := (as_u32 (Z.land d 67108863)) in
  let! d := (Z.shiftr d 26) in
  dassert (fst bd) (Z.shiftr r1 26 =? 0) ;;
  dassert (fst bd) (Z.shiftr d 27 =? 0) ;;
  dassert (fst bd) (d <=? 67108864) ;;
  let* d := add64 (snd bd) d t2 in
  dassert (fst bd) (Z.shiftr d 27 =? 0) ;;
  let! r2 := (as_u32 d) in
  dassert (fst bd) (Z.shiftr r2 27 =? 0) ;;
  Some (Fe r0 r1 r2 r3 r4 r5 r6 r7 r8 r9 1 false).

(** core/src/field.rs:1097-1426 [Field::sqr_inner] *)
Definition f_sqr_inner_x (a : field) : option field :=
  let '(Fe a0 a1 a2 a3 a4 a5 a6 a7 a8 a9 _ _) := a in
  dassert (fst bd) (Z.shiftr a0 30 =? 0) ;;
  dassert (fst bd) (Z.shiftr a1 30 =? 0) ;;
  dassert (fst bd) (Z.shiftr a2 30 =? 0) ;;
  dassert (fst bd) (Z.shiftr a3 30 =? 0) ;;
  dassert (fst bd) (Z.shiftr a4 30 =? 0) ;;
  dassert (fst bd) (Z.shiftr a5 30 =? 0) ;;
  dassert (fst bd) (Z.shiftr a6 30 =? 0) ;;
  dassert (fst bd) (Z.shiftr a7 30 =? 0) ;;
  dassert (fst bd) (Z.shiftr a8 30 =? 0) ;;
  dassert (fst bd) (Z.shiftr a9 26 =? 0) ;;
  let* q1 := mul32 (snd bd) a0 2 in
  let* q2 := mul32 (snd bd) a1 2 in
  let* q3 := mul32 (snd bd) a2 2 in
  let* q4 := mul32 (snd bd) a3 2 in
  let* q5 := mul32 (snd bd) a4 2 in
  let! d := (wadd64 (wadd64 (wadd64 (wadd64 (q1 * a9) (q2 * a8)) (q3 * a7)) (q4 * a6)) (q5 * a5)) in
  let! t9 := (as_u32 (Z.land d 67108863)) in
  let! d := (Z.shiftr d 26) in
  dassert (fst bd) (Z.shiftr t9 26 =? 0) ;;
  dassert (fst bd) (Z.shiftr d 38 =? 0) ;;
  let! c := (a0 * a0) in
  dassert (fst bd) (Z.shiftr c 60 =? 0) ;;
  let* q6 := mul32 (snd bd) a1 2 in
  let* q7 := mul32 (snd bd) a2 2 in
  let* q8 := mul32 (snd bd) a3 2 in
  let* q9 := mul32 (snd bd) a4 2 in
  let! d := (wadd64 (wadd64 (wadd64 (wadd64 (wadd64 d (q6 * a9)) (q7 * a8)) (q8 * a7)) (q9 * a6)) (a5 * a5)) in
  dassert (fst bd) (Z.shiftr d 63 =? 0) ;;
  let! v0 := (Z.land d 67108863) in
  let! d := (Z.shiftr d 26) in
  let* q10 := mul64 (snd bd) v0 15632 in
  let* c := add64 (snd bd) c q10 in
  dassert (fst bd) (Z.shiftr v0 26 =? 0) ;;
  dassert (fst bd) (Z.shiftr d 37 =? 0) ;;
  dassert (fst bd) (Z.shiftr c 61 =? 0) ;;
  let! t0 := (as_u32 (Z.land c 67108863)) in
  let! c := (Z.shiftr c 26) in
  let* q12 := mul64 (snd bd) v0 1024 in
  let* c := add64 (snd bd) c q12 in
  dassert (fst bd) (Z.shiftr t0 26 =? 0) ;;
  dassert (fst bd) (Z.shiftr c 37 =? 0) ;;
  let* q14 := mul32 (snd bd) a0 2 in
  let! c := (wadd64 c (q14 * a1)) in
  dassert (fst bd) (Z.shiftr c 62 =? 0) ;;
  let* q15 := mul32 (snd bd) a2 2 in
  let* q16 := mul32 (snd bd) a3 2 in
  let* q17 := mul32 (snd bd) a4 2 in
  let* q18 := mul32 (snd bd) a5 2 in
  let! d := (wadd64 (wadd64 (wadd64 (wadd64 d (q15 * a9)) (q16 * a8)) (q17 * a7)) (q18 * a6)) in
  dassert (fst bd) (Z.shiftr d 63 =? 0) ;;
  let! v1 := (Z.land d 67108863) in
  let! d := (Z.shiftr d 26) in
  let* q19 := mul64 (snd bd) v1 15632 in
  let* c := add64 (snd bd) c q19 in
  dassert (fst bd) (Z.shiftr v1 26 =? 0) ;;
  dassert (fst bd) (Z.shiftr d 37 =? 0) ;;
  dassert (fst bd) (Z.shiftr c 63 =? 0) ;;
  let! t1 := (as_u32 (Z.land c 67108863)) in
  let! c := (Z.shiftr c 26) in
  let* q21 := mul64 (snd bd) v1 1024 in
  let* c := add64 (snd bd) c q21 in
  dassert (fst bd) (Z.shiftr t1 26 =? 0) ;;
  dassert (fst bd) (Z.shiftr c 38 =? 0) ;;
  let* q23 := mul32 (snd bd) a0 2 in
  let! c := (wadd64 (wadd64 c (q23 * a2)) (a1 * a1)) in
  dassert (fst bd) (Z.shiftr c 62 =? 0) ;;
  let* q24 := mul32 (snd bd) a3 2 in
  let* q25 := mul32 (snd bd) a4 2 in
  let* q26 := mul32 (snd bd) a5 2 in
  let! d := (wadd64 (wadd64 (wadd64 (wadd64 d (q24 * a9)) (q25 * a8)) (q26 * a7)) (a6 * a6)) in
  dassert (fst bd) (Z.shiftr d 63 =? 0) ;;
  let! v2 := (Z.land d 67108863) in
  let! d := (Z.shiftr d 26) in
  let* q27 := mul64 (snd bd) v2 15632 in
  let* c := add64 (snd bd) c q27 in
  dassert (fst bd) (Z.shiftr v2 26 =? 0) ;;
  dassert (fst bd) (Z.shiftr d 37 =? 0) ;;
  dassert (fst bd) (Z.shiftr c 63 =? 0) ;;
  let! t2 := (as_u32 (Z.land c 67108863)) in
  let! c := (Z.shiftr c 26) in
  let* q29 := mul64 (snd bd) v2 1024 in
  let* c := add64 (snd bd) c q29 in
  dassert (fst bd) (Z.shiftr t2 26 =? 0) ;;
  dassert (fst bd) (Z.shiftr c 38 =? 0) ;;
  let* q31 := mul32 (snd bd) a0 2 in
  let* q32 := mul32 (snd bd) a1 2 in
  let! c := (wadd64 (wadd64 c (q31 * a3)) (q32 * a2)) in
  dassert (fst bd) (Z.shiftr c 63 =? 0) ;;
  let* q33 := mul32 (snd bd) a4 2 in
  let* q34 := mul32 (snd bd) a5 2 in
  let* q35 := mul32 (snd bd) a6 2 in
  let! d := (wadd64 (wadd64 (wadd64 d (q33 * a9)) (q34 * a8)) (q35 * a7)) in
  dassert (fst bd) (Z.shiftr d 63 =? 0) ;;
  let! v3 := (Z.land d 67108863) in
  let! d := (Z.shiftr d 26) in
  let* q36 := mul64 (snd bd) v3 15632 in
  let* c := add64 (snd bd) c q36 in
  dassert (fst bd) (Z.shiftr v3 26 =? 0) ;;
  dassert (fst bd) (Z.shiftr d 37 =? 0) ;;
  let! t3 := (as_u32 (Z.land c 67108863)) in
  let! c := (Z.shiftr c 26) in
  let* q38 := mul64 (snd bd) v3 1024 in
  let* c := add64 (snd bd) c q38 in
  dassert (fst bd) (Z.shiftr t3 26 =? 0) ;;
  dassert (fst bd) (Z.shiftr c 39 =? 0) ;;
  let* q40 := mul32 (snd bd) a0 2 in
  let* q41 := mul32 (snd bd) a1 2 in
  let! c := (wadd64 (wadd64 (wadd64 c (q40 * a4)) (q41 * a3)) (a2 * a2)) in
  dassert (fst bd) (Z.shiftr c 63 =? 0) ;;
  let* q42 := mul32 (snd bd) a5 2 in
  let* q43 := mul32 (snd bd) a6 2 in
  let! d := (wadd64 (wadd64 (wadd64 d (q42 * a9)) (q43 * a8)) (a7 * a7)) in
  dassert (fst bd) (Z.shiftr d 62 =? 0) ;;
  let! v4 := (Z.land d 67108863) in
  let! d := (Z.shiftr d 26) in
  let* q44 := mul64 (snd bd) v4 15632 in
  let* c := add64 (snd bd) c q44 in
  dassert (fst bd) (Z.shiftr v4 26 =? 0) ;;
  dassert (fst bd) (Z.shiftr d 36 =? 0) ;;
  let! t4 := (as_u32 (Z.land c 67108863)) in
  let! c := (Z.shiftr c 26) in
  let* q46 := mul64 (snd bd) v4 1024 in
  let* c := add64 (snd bd) c q46 in
  dassert (fst bd) (Z.shiftr t4 26 =? 0) ;;
  dassert (fst bd) (Z.shiftr c 39 =? 0) ;;
  let* q48 := mul32 (snd bd) a0 2 in
  let* q49 := mul32 (snd bd) a1 2 in
  let* q50 := mul32 (snd bd) a2 2 in
  let! c := (wadd64 (wadd64 (wadd64 c (q48 * a5)) (q49 * a4)) (q50 * a3)) in
  dassert (fst bd) (Z.shiftr c 63 =? 0) ;;
  let* q51 := mul32 (snd bd) a6 2 in
  let* q52 := mul32 (snd bd) a7 2 in
  let! d := (wadd64 (wadd64 d (q51 * a9)) (q52 * a8)) in
  dassert (fst bd) (Z.shiftr d 62 =? 0) ;;
  let! v5 := (Z.land d 67108863) in
  let! d := (Z.shiftr d 26) in
  let* q53 := mul64 (snd bd) v5 15632 in
  let* c := add64 (snd bd) c q53 in
  dassert (fst bd) (Z.shiftr v5 26 =? 0) ;;
  dassert (fst bd) (Z.shiftr d 36 =? 0) ;;
  let! t5 := (as_u32 (Z.land c 67108863)) in
  let! c := (Z.shiftr c 26) in
  let* q55 := mul64 (snd bd) v5 1024 in
  let* c := add64 (snd bd) c q55 in
  dassert (fst bd) (Z.shiftr t5 26 =? 0) ;;
  dassert (fst bd) (Z.shiftr c 39 =? 0) ;;
  let* q57 := mul32 (snd bd) a0 2 in
  let* q58 := mul32 (snd bd) a1 2 in
  let* q59 := mul32 (snd bd) a2 2 in
  let! c := (wadd64 (wadd64 (wadd64 (wadd64 c (q57 * a6)) (q58 * a5)) (q59 * a4)) (a3 * a3)) in
  dassert (fst bd) (Z.shiftr c 63 =? 0) ;;
  let* q60 := mul32 (snd bd) a7 2 in
  let! d := (wadd64 (wadd64 d (q60 * a9)) (a8 * a8)) in
  dassert (fst bd) (Z.shiftr d 61 =? 0) ;;
  let! v6 := (Z.land d 67108863) in
  let! d := (Z.shiftr d 26) in
  let* q61 := mul64 (snd bd) v6 15632 in
  let* c := add64 (snd bd) c q61 in
  dassert (fst bd) (Z.shiftr v6 26 =? 0) ;;
  dassert (fst bd) (Z.shiftr d 35 =? 0) ;;
  let! t6 := (as_u32 (Z.land c 67108863)) in
  let! c := (Z.shiftr c 26) in
  let* q63 := mul64 (snd bd) v6 1024 in
  let* c := add64 (snd bd) c q63 in
  dassert (fst bd) (Z.shiftr t6 26 =? 0) ;;
  dassert (fst bd) (Z.shiftr c 39 =? 0) ;;
  let* q65 := mul32 (snd bd) a0 2 in
  let* q66 := mul32 (snd bd) a1 2 in
  let* q67 := mul32 (snd bd) a2 2 in
  let* q68 := mul32 (snd bd) a3 2 in
  let! c := (wadd64 (wadd64 (wadd64 (wadd64 c (q65 * a7)) (q66 * a6)) (q67 * a5)) (q68 * a4)) in
  dassert (fst bd) (c <=? 9223372569430720519) ;;
  let* q69 := mul32 (snd bd) a8 2 in
  let! d := (wadd64 d (q69 * a9)) in
  dassert (fst bd) (Z.shiftr d 58 =? 0) ;;
  let! v7 := (Z.land d 67108863) in
  let! d := (Z.shiftr d 26) in
  let* q70 := mul64 (snd bd) v7 15632 in
  let* c := add64 (snd bd) c q70 in
  dassert (fst bd) (Z.shiftr v7 26 =? 0) ;;
  dassert (fst bd) (Z.shiftr d 32 =? 0) ;;
  dassert (fst bd) (c <=? 9223373618476466935) ;;
  let! t7 := (as_u32 (Z.land c 67108863)) in
  let! c := (Z.shiftr c 26) in
  let* q72 := mul64 (snd bd) v7 1024 in
  let* c := add64 (snd bd) c q72 in
  dassert (fst bd) (Z.shiftr t7 26 =? 0) ;;
  dassert (fst bd) (Z.shiftr c 38 =? 0) ;;
  let* q74 := mul32 (snd bd) a0 2 in
  let* q75 := mul32 (snd bd) a1 2 in
  let* q76 := mul32 (snd bd) a2 2 in
  let* q77 := mul32 (snd bd) a3 2 in
  let! c := (wadd64 (wadd64 (wadd64 (wadd64 (wadd64 c (q74 * a8)) (q75 * a7)) (q76 * a6)) (q77 * a5)) (a4 * a4)) in
  dassert (fst bd) (c <=? 10376294071890083848) ;;
  let! d := (wadd64 d (a9 * a9)) in
  dassert (fst bd) (Z.shiftr d 57 =? 0) ;;
  let! v8 := (Z.land d 67108863) in
  let! d := (Z.shiftr d 26) in
  let* q78 := mul64 (snd bd) v8 15632 in
  let* c := add64 (snd bd) c q78 in
  dassert (fst bd) (Z.shiftr v8 26 =? 0) ;;
  dassert (fst bd) (Z.shiftr d 31 =? 0) ;;
  dassert (fst bd) (c <=? 10376295120935830264) ;;
  let! r3 := t3 in
  dassert (fst bd) (Z.shiftr r3 26 =? 0) ;;
  let! r4 := t4 in
  dassert (fst bd) (Z.shiftr r4 26 =? 0) ;;
  let! r5 := t5 in
  dassert (fst bd) (Z.shiftr r5 26 =? 0) ;;
  let! r6 := t6 in
  dassert (fst bd) (Z.shiftr r6 26 =? 0) ;;
  let! r7 := t7 in
  dassert (fst bd) (Z.shiftr r7 26 =? 0) ;;
  let! r8 := (as_u32 (Z.land c 67108863)) in
  let! c := (Z.shiftr c 26) in
  let* q80 := mul64 (snd bd) v8 1024 in
  let* c := add64 (snd bd) c q80 in
  dassert (fst bd) (Z.shiftr r8 26 =? 0) ;;
  dassert (fst bd) (Z.shiftr c 39 =? 0) ;;
  let* q82 := mul64 (snd bd) d 15632 in
  let* q83 := add64 (snd bd) q82 t9 in
  let* c := add64 (snd bd) c q83 in
  dassert (fst bd) (Z.shiftr c 45 =? 0) ;;
  let! r9 := (as_u32 (Z.land c (Z.shiftr 67108863 4))) in
  let! c := (Z.shiftr c 22) in
  let* q85 := mul64 (snd bd) d ((Z.shiftl 1024 4) mod 2 ^ 64) in
  let* c := add64 (snd bd) c q85 in
  dassert (fst bd) (Z.shiftr r9 22 =? 0) ;;
  dassert (fst bd) (Z.shiftr c 46 =? 0) ;;
  let* q87 := mul64 (snd bd) c (Z.shiftr 15632 4) in
  let* d := add64 (snd bd) q87 t0 in
  dassert (fst bd) (Z.shiftr d 56 =? 0) ;;
  let! r0 := (as_u32 (Z.land d 67108863)) in
  let! d := (Z.shiftr d 26) in
  dassert (fst bd) (Z.shiftr r0 26 =? 0) ;;
  dassert (fst bd) (Z.shiftr d 30 =? 0) ;;
  let* q89 := mul64 (snd bd) c (Z.shiftr 1024 4) in
  let* q90 := add64 (snd bd) q89 t1 in
  let* d := add64 (snd bd) d q90 in
  dassert (fst bd) (Z.shiftr d 53 =? 0) ;;
  dassert (fst bd) (d <=? 4503599694479295) ;;
  let! r1 := (as_u32 (Z.land d 67108863)) in
  let! d := (Z.shiftr d 26) in
  dassert (fst bd) (Z.shiftr r1 26 =? 0) ;;
  dassert (fst bd) (Z.shiftr d 27 =? 0) ;;
  dassert (fst bd) (d <=? 67108864) ;;
  let* d := add64 (snd bd) d t2 in
  dassert (fst bd) (Z.shiftr d 27 =? 0) ;;
  let! r2 := (as_u32 d) in
  dassert (fst bd) (Z.shiftr r2 27 =? 0) ;;
  Some (Fe r0 r1 r2 r3 r4 r5 r6 r7 r8 r9 1 false).

(** core/src/field.rs:1431-1440 [Field::mul_in_place]; [Mul]/[MulAssign] 1717-1747 call it *)
Definition f_mul_x (a b : field) : option field :=
  dassert (fst bd) (f_mag a <=? 8) ;;
  dassert (fst bd) (f_mag b <=? 8) ;;
  dassert (fst bd) (f_verify a) ;;
  dassert (fst bd) (f_verify b) ;;
  let* r := f_mul_inner_x a b in
  dassert (fst bd) (f_verify r) ;;
  Some r.

(** core/src/field.rs:1445-1458 [Field::sqr_in_place], [Field::sqr]
    (the last assertion re-checks the input, as in the source) *)
Definition f_sqr_x (a : field) : option field :=
  dassert (fst bd) (f_mag a <=? 8) ;;
  dassert (fst bd) (f_verify a) ;;
  let* r := f_sqr_inner_x a in
  dassert (fst bd) (f_verify a) ;;
  Some r.

(** [for _ in 0..k { x = x.sqr(); }] *)
Fixpoint f_sqr_n_x (k : nat) (x : field) : option field :=
  match k with O => Some x | S j => let* y := f_sqr_x x in f_sqr_n_x j y end.

(** Common prefix of [inv] (1547-1605) and [sqrt] (1467-1525): returns x2, x3 (unused later), x22, x223. *)
Definition f_chain223_x (a : field) : option (field * field * field) :=
  let* x2 := f_sqr_x a in
  let* x2 := f_mul_x x2 a in
  let* x3 := f_sqr_x x2 in
  let* x3 := f_mul_x x3 a in
  let* x6 := f_sqr_n_x 3 x3 in
  let* x6 := f_mul_x x6 x3 in
  let* x9 := f_sqr_n_x 3 x6 in
  let* x9 := f_mul_x x9 x3 in
  let* x11 := f_sqr_n_x 2 x9 in
  let* x11 := f_mul_x x11 x2 in
  let* x22 := f_sqr_n_x 11 x11 in
  let* x22 := f_mul_x x22 x11 in
  let* x44 := f_sqr_n_x 22 x22 in
  let* x44 := f_mul_x x44 x22 in
  let* x88 := f_sqr_n_x 44 x44 in
  let* x88 := f_mul_x x88 x44 in
  let* x176 := f_sqr_n_x 88 x88 in
  let* x176 := f_mul_x x176 x88 in
  let* x220 := f_sqr_n_x 44 x176 in
  let* x220 := f_mul_x x220 x44 in
  let* x223 := f_sqr_n_x 3 x220 in
  let* x223 := f_mul_x x223 x3 in
  Some (x2, x22, x223).

(** core/src/field.rs:1466-1541 [Field::sqrt] *)
Definition f_sqrt_x (a : field) : option (field * bool) :=
  let* '(x2, x22, x223) := f_chain223_x a in
  let* t1 := f_sqr_n_x 23 x223 in
  let* t1 := f_mul_x t1 x22 in
  let* t1 := f_sqr_n_x 6 t1 in
  let* t1 := f_mul_x t1 x2 in
  let* t1 := f_sqr_x t1 in
  let* r := f_sqr_x t1 in
  let* t1 := f_sqr_x r in
  let* e := f_eq_x t1 a in
  Some (r, e).

(** core/src/field.rs:1546-1624 [Field::inv]; [inv_var] 1628-1630 is the same *)
Definition f_inv_x (a : field) : option field :=
  let* '(x2, x22, x223) := f_chain223_x a in
  let* t1 := f_sqr_n_x 23 x223 in
  let* t1 := f_mul_x t1 x22 in
  let* t1 := f_sqr_n_x 5 t1 in
  let* t1 := f_mul_x t1 a in
  let* t1 := f_sqr_n_x 3 t1 in
  let* t1 := f_mul_x t1 x2 in
  let* t1 := f_sqr_n_x 2 t1 in
  f_mul_x a t1.

(** core/src/field.rs:1633-1636 [Field::is_quad_var] *)
Definition f_is_quad_var_x (a : field) : option bool :=
  let* '(_, ret) := f_sqrt_x a in Some ret.

(** core/src/field.rs:1829-1845 [Into<FieldStorage> for Field] *)
Definition f_to_storage_x (f : field) : option fstorage :=
  dassert (fst bd) (f_norm f) ;;
  match f with Fe n0 n1 n2 n3 n4 n5 n6 n7 n8 n9 _ _ =>
  Some (Fs (Z.lor n0 (shl32 n1 26))
           (Z.lor (Z.shiftr n1 6) (shl32 n2 20))
           (Z.lor (Z.shiftr n2 12) (shl32 n3 14))
           (Z.lor (Z.shiftr n3 18) (shl32 n4 8))
           (Z.lor (Z.lor (Z.shiftr n4 24) (shl32 n5 2)) (shl32 n6 28))
           (Z.lor (Z.shiftr n6 4) (shl32 n7 22))
           (Z.lor (Z.shiftr n7 10) (shl32 n8 16))
           (Z.lor (Z.shiftr n8 16) (shl32 n9 10)))
  end.

End Build.
