(** Model of core/src/der.rs: the DER decoder and the array returned by [serialize_der].

    Simplification: a [Decoder(arr, pos)] is represented by the unread suffix [arr[pos..]];
    every operation of the decoder depends on that suffix only ([remaining_len] is its length).
    The reads of [self.0] are guarded by the same length tests as in the source. *)
From Verif Require Import Word MScalar.

(** [let? x := e in b]: the [?] operator on a possibly panicking [Result] (core/src/der.rs:85-257, src/lib.rs:583-617) *)
Definition rbind {A B} (o : option (result A)) (f : A -> option (result B)) : option (result B) :=
  match o with
  | Some (Ok a) => f a
  | Some (Err e) => Some (Err e)
  | None => None
  end.
Notation "'let?' x ':=' e 'in' b" := (rbind e (fun x => b))
  (at level 200, x binder, e at level 100, b at level 200, right associativity).

(** core/src/der.rs:36 [Decoder], as the unread suffix *)
Definition decoder := list Z.
(** [Err(Error::InvalidSignature)] (as core/src/der.rs:49) *)
Definition derr {A} : option (result A) := Some (Err InvalidSignature).

(** core/src/der.rs:43-45 [remaining_len] *)
Definition remaining_len (d : decoder) : Z := Z.of_nat (length d).

(** core/src/der.rs:47-55 [read] *)
Definition d_read (d : decoder) : option (result (Z * decoder)) :=
  match d with
  | [] => derr
  | v :: t => Some (Ok (v, t))
  end.

(** core/src/der.rs:57-64 [peek] *)
Definition d_peek (d : decoder) (forward : nat) : option (result Z) :=
  match nth_error d forward with
  | None => derr
  | Some v => Some (Ok v)
  end.

(** the guard shared by [peek_slice] and [skip] (core/src/der.rs:67, 76) *)
Definition bad_span (d : decoder) (len : Z) : bool :=
  ((len =? 0) && (remaining_len d <=? 0)) || (remaining_len d <? len).

(** core/src/der.rs:66-73 [peek_slice] *)
Definition d_peek_slice (d : decoder) (len : Z) : option (result (list Z)) :=
  if bad_span d len then derr else Some (Ok (firstn (Z.to_nat len) d)).

(** core/src/der.rs:75-82 [skip] *)
Definition d_skip (d : decoder) (len : Z) : option (result decoder) :=
  if bad_span d len then derr else Some (Ok (skipn (Z.to_nat len) d)).

(** core/src/der.rs:84-91 [read_constructed_sequence] *)
Definition d_read_constructed_sequence (d : decoder) : option (result decoder) :=
  let? '(v, d) := d_read d in
  if v =? 48 then Some (Ok d) else derr.

Section Build.
Variable dbg : bool.

(** core/src/der.rs:124-130: the loop of [read_len]; [usize] is 64 bits wide *)
Fixpoint read_len_loop (lenleft : nat) (ret : Z) (d : decoder) : option (result (Z * decoder)) :=
  match lenleft with
  | O => Some (Ok (ret, d))
  | S k =>
      let? '(b, d) := d_read d in
      let! ret := Z.lor ((Z.shiftl ret 8) mod 2 ^ 64) b in
      let* q := add64 dbg ret (Z.of_nat lenleft) in
      if remaining_len d <? q then derr
      else read_len_loop k ret d
  end.

(** core/src/der.rs:93-138 [read_len] *)
Definition d_read_len (d : decoder) : option (result (Z * decoder)) :=
  let? '(b1, d) := d_read d in
  if b1 =? 255 then derr
  else if Z.land b1 128 =? 0 then Some (Ok (b1, d))
  else if b1 =? 128 then derr
  else
    let! lenleft := Z.land b1 127 in
    if remaining_len d <? lenleft then derr
    else
      let? b := d_peek d 0 in
      if b =? 0 then derr
      else if 8 <? lenleft then derr
      else
        let? '(ret, d) := read_len_loop (Z.to_nat lenleft) 0 d in
        if ret <? 128 then derr else Some (Ok (ret, d)).

(** core/src/der.rs:164-167 and 241-244: skip leading zero bytes *)
Fixpoint skip_zeros (d : decoder) (rlen : Z) : option (result (decoder * Z)) :=
  if 0 <? rlen then
    match d with
    | [] => derr
    | v :: t => if v =? 0 then skip_zeros t (rlen - 1) else Some (Ok (d, rlen))
    end
  else Some (Ok (d, rlen)).

(** core/src/der.rs:175-185 and 254-264: copy at most 32 content bytes into a zeroed array,
    skip them, convert; an overflowing value becomes 0 *)
Definition read_scalar (d : decoder) (rlen : Z) : option (result (scalar * decoder)) :=
  let? sl := d_peek_slice d rlen in
  let! b32 := repeat 0 (32 - Z.to_nat rlen) ++ sl in
  let? d := d_skip d rlen in
  let* '(int, over) := s_set_b32 dbg b32 in
  Some (Ok (if over then s_default else int, d)).

(** core/src/der.rs:140-188 [read_integer] *)
Definition d_read_integer (d : decoder) : option (result (scalar * decoder)) :=
  let? '(tag, d) := d_read d in
  if negb (tag =? 2) then derr
  else
    let? '(rlen, d) := d_read_len d in
    if (rlen =? 0) || (remaining_len d <? rlen) then derr
    else
      let? b0 := d_peek d 0 in
      let? neg0 := (if (b0 =? 0) && (1 <? rlen) then
                      let? b1 := d_peek d 1 in Some (Ok (Z.land b1 128 =? 0))
                    else Some (Ok false)) in
      if neg0 then derr
      else
        let? negf := (if (b0 =? 255) && (1 <? rlen) then
                        let? b1 := d_peek d 1 in Some (Ok (Z.land b1 128 =? 0))
                      else Some (Ok false)) in
        if negf then derr
        else
          let! overflow := Z.land b0 128 =? 128 in
          let? '(d, rlen) := skip_zeros d rlen in
          let! overflow := overflow || (32 <? rlen) in
          if negb overflow then read_scalar d rlen
          else Some (Ok (s_default, d)).

(** core/src/der.rs:190-201 [read_seq_len_lax] (the returned length is ignored by the caller) *)
Definition d_read_seq_len_lax (d : decoder) : option (result (Z * decoder)) :=
  let? '(len, d) := d_read d in
  if negb (Z.land len 128 =? 0) then
    let* len := sub8 dbg len 128 in
    if remaining_len d <? len then derr
    else let? d := d_skip d len in Some (Ok (len, d))
  else Some (Ok (len, d)).

(** core/src/der.rs:211-214: skip leading zero bytes of a long-form length *)
Fixpoint lax_skip_zeros (d : decoder) (len : Z) : option (result (decoder * Z)) :=
  if 0 <? len then
    match d with
    | [] => derr
    | v :: t => if v =? 0 then lax_skip_zeros t (len - 1) else Some (Ok (d, len))
    end
  else Some (Ok (d, len)).

(** core/src/der.rs:218-221: accumulate the length bytes *)
Fixpoint lax_len_loop (k : nat) (ret : Z) (d : decoder) : option (result (Z * decoder)) :=
  match k with
  | O => Some (Ok (ret, d))
  | S k' =>
      let? '(b, d) := d_read d in
      let* ret := add64 dbg ((Z.shiftl ret 8) mod 2 ^ 64) b in
      lax_len_loop k' ret d
  end.

(** core/src/der.rs:203-230 [read_len_lax] *)
Definition d_read_len_lax (d : decoder) : option (result (Z * decoder)) :=
  let? '(len, d) := d_read d in
  let? '(ret, d) :=
    (if negb (Z.land len 128 =? 0) then
       let* len := sub8 dbg len 128 in
       if remaining_len d <? len then derr
       else
         let? '(d, len) := lax_skip_zeros d len in
         if 8 <=? len then derr
         else lax_len_loop (Z.to_nat len) 0 d
     else Some (Ok (len, d))) in
  if remaining_len d <? ret then derr else Some (Ok (ret, d)).

(** core/src/der.rs:232-268 [read_integer_lax] *)
Definition d_read_integer_lax (d : decoder) : option (result (scalar * decoder)) :=
  let? '(tag, d) := d_read d in
  if negb (tag =? 2) then derr
  else
    let? '(len, d) := d_read_len_lax d in
    let? '(d, len) := skip_zeros d len in
    if 32 <? len then Some (Ok (s_default, d))
    else read_scalar d len.

End Build.
