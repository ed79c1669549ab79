(** Model of core/src/der.rs and of the DER functions of src/lib.rs once more, with the decoder as the
    code has it: an array and a position, [usize] arithmetic on positions, slice indexing that
    panics, and the position left behind also when a method returns [Err].  [SignatureArray] is the
    array of 72 bytes with a length, filled by the writes of [serialize_der].

    A method of [Decoder(arr, pos)] is a function from the position to [None] (panic) or to the
    returned [Result] and the new position; the array never changes. *)
From Verif Require Import Word MScalar MDer MApi.

(** core/src/der.rs:36 [Decoder(&[u8], usize)]: a method, from a position to a [Result] and a position *)
Definition dm (A : Type) := Z -> option (result A * Z).
(** the [?] operator, as in core/src/der.rs:85-257 *)
Definition dbind {A B} (m : dm A) (f : A -> dm B) : dm B := fun pos =>
  match m pos with
  | Some (Ok a, pos) => f a pos
  | Some (Err e, pos) => Some (Err e, pos)
  | None => None
  end.
Notation "'let>' x ':=' e 'in' b" := (dbind e (fun x => b))
  (at level 200, x binder, e at level 100, b at level 200, right associativity).
(** [Ok(a)], the position unchanged (as core/src/der.rs:87) *)
Definition dok {A} (a : A) : dm A := fun pos => Some (Ok a, pos).
(** [Err(Error::InvalidSignature)] (as core/src/der.rs:49) *)
Definition derror {A} : dm A := fun pos => Some (Err InvalidSignature, pos).
(** arithmetic that may panic (the [usize] operations of core/src/der.rs:44-256) *)
Definition dlift {A} (o : option A) : dm A := fun pos => match o with Some a => Some (Ok a, pos) | None => None end.

(** [&l[a..b]]: panics when a > b or b > len (core/src/der.rs:26, 32, 70, 177, 256) *)
Definition slice (l : list Z) (a b : Z) : option (list Z) :=
  if (b <? a) || (Z.of_nat (length l) <? b) then None else Some (firstn (Z.to_nat (b - a)) (skipn (Z.to_nat a) l)).

Section Build.
Variable dbg : bool.
Section Array.
(** the array [self.0] *)
Variable arr : list Z.

(** core/src/der.rs:43-45 [remaining_len] *)
Definition D_remaining_len : dm Z := fun pos =>
  match sub64 dbg (Z.of_nat (length arr)) pos with Some v => Some (Ok v, pos) | None => None end.

(** core/src/der.rs:47-55 [read] *)
Definition D_read : dm Z := fun pos =>
  if Z.of_nat (length arr) <=? pos then Some (Err InvalidSignature, pos)
  else
    let* v := idx arr pos in
    let* pos := add64 dbg pos 1 in
    Some (Ok v, pos).

(** core/src/der.rs:57-64 [peek] *)
Definition D_peek (forward : Z) : dm Z := fun pos =>
  let* q := add64 dbg pos forward in
  if Z.of_nat (length arr) <=? q then Some (Err InvalidSignature, pos)
  else let* v := idx arr q in Some (Ok v, pos).

(** core/src/der.rs:66-73 [peek_slice] *)
Definition D_peek_slice (len : Z) : dm (list Z) := fun pos =>
  if (len =? 0) && (Z.of_nat (length arr) <=? pos) then Some (Err InvalidSignature, pos)
  else
    let* q := add64 dbg pos len in
    if Z.of_nat (length arr) <? q then Some (Err InvalidSignature, pos)
    else let* v := slice arr pos q in Some (Ok v, pos).

(** core/src/der.rs:75-82 [skip] *)
Definition D_skip (len : Z) : dm unit := fun pos =>
  if (len =? 0) && (Z.of_nat (length arr) <=? pos) then Some (Err InvalidSignature, pos)
  else
    let* q := add64 dbg pos len in
    if Z.of_nat (length arr) <? q then Some (Err InvalidSignature, pos)
    else Some (Ok tt, q).

(** core/src/der.rs:84-91 [read_constructed_sequence] *)
Definition D_read_constructed_sequence : dm unit :=
  let> v := D_read in
  if v =? 48 then dok tt else derror.

(** core/src/der.rs:124-130: the loop of [read_len]; [fuel] is [lenleft], which only decreases *)
Fixpoint D_read_len_loop (fuel : nat) (ret : Z) : dm Z :=
  match fuel with
  | O => dok ret
  | S k =>
      let> b := D_read in
      let> ret := dok (Z.lor ((Z.shiftl ret 8) mod 2 ^ 64) b) in
      let> q := dlift (add64 dbg ret (Z.of_nat fuel)) in
      let> avail := D_remaining_len in
      if avail <? q then derror else D_read_len_loop k ret
  end.

(** core/src/der.rs:93-138 [read_len] *)
Definition D_read_len : dm Z :=
  let> b1 := D_read in
  if b1 =? 255 then derror
  else if Z.land b1 128 =? 0 then dok b1
  else if b1 =? 128 then derror
  else
    let> lenleft := dok (Z.land b1 127) in
    let> avail := D_remaining_len in
    if avail <? lenleft then derror
    else
      let> b := D_peek 0 in
      if b =? 0 then derror
      else if 8 <? lenleft then derror
      else
        let> ret := D_read_len_loop (Z.to_nat lenleft) 0 in
        if ret <? 128 then derror else dok ret.

(** core/src/der.rs:164-167: [while rlen > 0 && self.peek(0)? == 0 { rlen -= 1; self.read()?; }];
    [fuel] bounds the iterations, [rlen] decreases in each *)
Fixpoint D_skip_zeros (fuel : nat) (rlen : Z) : dm Z :=
  match fuel with
  | O => dok rlen
  | S k =>
      if 0 <? rlen then
        let> b := D_peek 0 in
        if b =? 0 then
          let> rlen := dlift (sub64 dbg rlen 1) in
          let> _ := D_read in
          D_skip_zeros k rlen
        else dok rlen
      else dok rlen
  end.

(** core/src/der.rs:175-185 and 254-264: [b32[32 - rlen..].copy_from_slice(self.peek_slice(rlen)?)],
    [skip], [set_b32]; an overflowing value becomes 0.  [copy_from_slice] panics when the lengths
    differ. *)
Definition D_read_scalar (rlen : Z) : dm scalar :=
  let> sl := D_peek_slice rlen in
  let> k := dlift (sub64 dbg 32 rlen) in
  let> room := dlift (slice (repeat 0 32) k 32) in
  let> _ := dlift (hassert (Nat.eqb (length room) (length sl))) in
  let> _ := D_skip rlen in
  let> '(int, over) := dlift (s_set_b32 dbg (repeat 0 (Z.to_nat k) ++ sl)) in
  dok (if over then s_default else int).

(** core/src/der.rs:140-188 [read_integer] *)
Definition D_read_integer : dm scalar :=
  let> tag := D_read in
  if negb (tag =? 2) then derror
  else
    let> rlen := D_read_len in
    let> avail := D_remaining_len in
    if (rlen =? 0) || (avail <? rlen) then derror
    else
      let> b0 := D_peek 0 in
      let> bad := (if (b0 =? 0) && (1 <? rlen) then
                     let> b1 := D_peek 1 in dok (Z.land b1 128 =? 0)
                   else dok false) in
      if bad then derror
      else
        let> b0 := D_peek 0 in
        let> bad := (if (b0 =? 255) && (1 <? rlen) then
                       let> b1 := D_peek 1 in dok (Z.land b1 128 =? 0)
                     else dok false) in
        if bad then derror
        else
          let> b0 := D_peek 0 in
          let> overflow := dok (Z.land b0 128 =? 128) in
          let> rlen := D_skip_zeros (Z.to_nat rlen) rlen in
          let> overflow := dok (overflow || (32 <? rlen)) in
          if negb overflow then D_read_scalar rlen else dok s_default.

(** core/src/der.rs:190-201 [read_seq_len_lax] *)
Definition D_read_seq_len_lax : dm Z :=
  let> len := D_read in
  if negb (Z.land len 128 =? 0) then
    let> len := dlift (sub8 dbg len 128) in
    let> avail := D_remaining_len in
    if avail <? len then derror
    else let> _ := D_skip len in dok len
  else dok len.

(** core/src/der.rs:211-214 and 241-244: the same loops with [self.skip(1)?] (in the first [len] is a [u8],
    in the second a [usize]; it is positive where it is decremented) *)
Fixpoint D_lax_skip_zeros (fuel : nat) (len : Z) : dm Z :=
  match fuel with
  | O => dok len
  | S k =>
      if 0 <? len then
        let> b := D_peek 0 in
        if b =? 0 then
          let> _ := D_skip 1 in
          let> len := dlift (sub64 dbg len 1) in
          D_lax_skip_zeros k len
        else dok len
      else dok len
  end.

(** core/src/der.rs:218-221 *)
Fixpoint D_lax_len_loop (fuel : nat) (ret : Z) : dm Z :=
  match fuel with
  | O => dok ret
  | S k =>
      let> b := D_read in
      let> ret := dlift (add64 dbg ((Z.shiftl ret 8) mod 2 ^ 64) b) in
      D_lax_len_loop k ret
  end.

(** core/src/der.rs:203-230 [read_len_lax] *)
Definition D_read_len_lax : dm Z :=
  let> len := D_read in
  let> ret :=
    (if negb (Z.land len 128 =? 0) then
       let> len := dlift (sub8 dbg len 128) in
       let> avail := D_remaining_len in
       if avail <? len then derror
       else
         let> len := D_lax_skip_zeros (Z.to_nat len) len in
         if 8 <=? len then derror else D_lax_len_loop (Z.to_nat len) 0
     else dok len) in
  let> avail := D_remaining_len in
  if avail <? ret then derror else dok ret.

(** core/src/der.rs:232-268 [read_integer_lax] *)
Definition D_read_integer_lax : dm scalar :=
  let> tag := D_read in
  if negb (tag =? 2) then derror
  else
    let> len := D_read_len_lax in
    let> len := D_lax_skip_zeros (Z.to_nat len) len in
    if 32 <? len then dok s_default else D_read_scalar len.

(** src/lib.rs:583-602 [parse_der] on a fresh decoder *)
Definition D_parse_der : dm signature :=
  let> _ := D_read_constructed_sequence in
  let> rlen := D_read_len in
  let> avail := D_remaining_len in
  if negb (rlen =? avail) then derror
  else
    let> r := D_read_integer in
    let> s := D_read_integer in
    let> avail := D_remaining_len in
    if negb (avail =? 0) then derror else dok (Sig r s).

(** src/lib.rs:607-617 [parse_der_lax] on a fresh decoder *)
Definition D_parse_der_lax : dm signature :=
  let> _ := D_read_constructed_sequence in
  let> _ := D_read_seq_len_lax in
  let> r := D_read_integer_lax in
  let> s := D_read_integer_lax in
  dok (Sig r s).
End Array.

(** ** SignatureArray *)
(** core/src/der.rs:8 [SignatureArray]: 72 bytes and the number of them in use *)
Inductive sigarray := SA (bytes : list Z) (used : Z).
(** core/src/der.rs:11-13 [new] *)
Definition sa_new (size : Z) : sigarray := SA (repeat 0 72) size.
(** core/src/der.rs:15-17 [len], 19-21 [is_empty] *)
Definition sa_len (a : sigarray) : Z := match a with SA _ k => k end.
(** core/src/der.rs:19-21 [is_empty] *)
Definition sa_is_empty (a : sigarray) : bool := sa_len a =? 0.
(** core/src/der.rs:24-28 [as_ref]: [&self.0[..self.1]] *)
Definition sa_as_ref (a : sigarray) : option (list Z) := match a with SA l k => slice l 0 k end.
(** core/src/der.rs:30-34 [as_mut]: run writes on the slice [&mut self.0[..self.1]] *)
Definition sa_as_mut (a : sigarray) (writes : list Z -> option (list Z)) : option sigarray :=
  match a with SA l k =>
    let* s := slice l 0 k in
    let* s' := writes s in
    Some (SA (s' ++ skipn (Z.to_nat k) l) k)
  end.
(** [l[a..b].copy_from_slice(src)]: panics on a bad range or different lengths (src/lib.rs:681, 684) *)
Definition copy_range (l : list Z) (a b : Z) (src : list Z) : option (list Z) :=
  let* d := slice l a b in
  hassert (Nat.eqb (length d) (length src)) ;;
  Some (firstn (Z.to_nat a) l ++ src ++ skipn (Z.to_nat b) l).

(** src/lib.rs:663-669 [integer_slice]: the loop on [len], from 33 down; [fuel] bounds it *)
Fixpoint integer_len (full : list Z) (fuel : nat) (len : Z) : option Z :=
  match fuel with
  | O => Some len
  | S k =>
      if 1 <? len then
        let* i := sub64 dbg (Z.of_nat (length full)) len in
        let* a := idx full i in
        if a =? 0 then
          let* j := add64 dbg i 1 in
          let* b := idx full j in
          if b <? 128 then let* len := sub64 dbg len 1 in integer_len full k len
          else Some len
        else Some len
      else Some len
  end.
(** src/lib.rs:663-669 [integer_slice]: the slice returned *)
Definition integer_slice_at (full : list Z) : option (list Z) :=
  let* len := integer_len full 33 33 in
  let* i := sub64 dbg (Z.of_nat (length full)) len in
  slice full i (Z.of_nat (length full)).

(** src/lib.rs:653-687 [serialize_der] *)
Definition sa_serialize_der (g : signature) : option sigarray :=
  let! r_full := 0 :: s_b32 (sig_r g) in
  let! s_full := 0 :: s_b32 (sig_s g) in
  let* r := integer_slice_at r_full in
  let* s := integer_slice_at s_full in
  let! rl := Z.of_nat (length r) in
  let! sl := Z.of_nat (length s) in
  let* size := add64 dbg 6 rl in
  let* size := add64 dbg size sl in
  sa_as_mut (sa_new size) (fun l =>
    let* l := upd l 0 48 in
    let* t := add8 dbg 4 (as_u8 rl) in
    let* t := add8 dbg t (as_u8 sl) in
    let* l := upd l 1 t in
    let* l := upd l 2 2 in
    let* l := upd l 3 (as_u8 rl) in
    let* e := add64 dbg 4 rl in
    let* l := copy_range l 4 e r in
    let* l := upd l e 2 in
    let* i := add64 dbg 5 rl in
    let* l := upd l i (as_u8 sl) in
    let* a := add64 dbg 6 rl in
    let* b := add64 dbg a sl in
    copy_range l a b s).

End Build.
