(** The DER readers of core/src/der.rs for a [usize] of [w] bytes ([mem::size_of::<usize>()]): 8 on 64-bit targets, 4 on
    32-bit targets such as wasm32. MDer.v and MApi.v have the same functions for 8 bytes; everything in them that does not
    compute a length in [usize] is used as it is. Positions ([self.1 + forward], [self.1 + len]) stay below the length of
    the array plus 128, so they do not overflow in any width. *)
From Verif Require Import Word MScalar MEcdsa MDer MApi.

Section Build.
Variables (dbg : bool) (w : Z).

(** addition of two [usize] (core/src/der.rs:126, 219) *)
Definition add_usize (a b : Z) : option Z := uchk (8 * w) dbg (a + b).

(** core/src/der.rs:124-130: the loop of [read_len] *)
Fixpoint read_len_loop_w (lenleft : nat) (ret : Z) (d : decoder) : option (result (Z * decoder)) :=
  match lenleft with
  | O => Some (Ok (ret, d))
  | S k =>
      let? '(b, d) := d_read d in
      let! ret := Z.lor ((Z.shiftl ret 8) mod 2 ^ (8 * w)) b in
      let* q := add_usize ret (Z.of_nat lenleft) in
      if remaining_len d <? q then derr
      else read_len_loop_w k ret d
  end.

(** core/src/der.rs:93-138 [read_len] *)
Definition d_read_len_w (d : decoder) : option (result (Z * decoder)) :=
  let? '(b1, d) := d_read d in
  if b1 =? 255 then derr
  else if Z.land b1 128 =? 0 then Some (Ok (b1, d))
  else if b1 =? 128 then derr
  else
    let! lenleft := Z.land b1 127 in
    if remaining_len d <? lenleft then derr
    else
      let? b := d_peek d 0 in
      if b =? 0 then derr
      else if w <? lenleft then derr
      else
        let? '(ret, d) := read_len_loop_w (Z.to_nat lenleft) 0 d in
        if ret <? 128 then derr else Some (Ok (ret, d)).

(** core/src/der.rs:146-187: the rest of [read_integer] once the length is read *)
Definition d_integer_body (rlen : Z) (d : decoder) : option (result (scalar * decoder)) :=
  if (rlen =? 0) || (remaining_len d <? rlen) then derr
  else
    let? b0 := d_peek d 0 in
    let? neg0 := (if (b0 =? 0) && (1 <? rlen) then
                    let? b1 := d_peek d 1 in Some (Ok (Z.land b1 128 =? 0))
                  else Some (Ok false)) in
    if neg0 then derr
    else
      let? negf := (if (b0 =? 255) && (1 <? rlen) then
                      let? b1 := d_peek d 1 in Some (Ok (Z.land b1 128 =? 0))
                    else Some (Ok false)) in
      if negf then derr
      else
        let! overflow := Z.land b0 128 =? 128 in
        let? '(d, rlen) := skip_zeros d rlen in
        let! overflow := overflow || (32 <? rlen) in
        if negb overflow then read_scalar dbg d rlen
        else Some (Ok (s_default, d)).

(** core/src/der.rs:140-188 [read_integer] *)
Definition d_read_integer_w (d : decoder) : option (result (scalar * decoder)) :=
  let? '(tag, d) := d_read d in
  if negb (tag =? 2) then derr
  else let? '(rlen, d) := d_read_len_w d in d_integer_body rlen d.

(** src/lib.rs:583-601 [parse_der] *)
Definition sig_parse_der_w (p : list Z) : option (result signature) :=
  let? d := d_read_constructed_sequence p in
  let? '(rlen, d) := d_read_len_w d in
  if negb (rlen =? remaining_len d) then derr
  else
    let? '(r, d) := d_read_integer_w d in
    let? '(s, d) := d_read_integer_w d in
    if negb (remaining_len d =? 0) then derr
    else Some (Ok (Sig r s)).

(** core/src/der.rs:218-221: accumulate the length bytes *)
Fixpoint lax_len_loop_w (k : nat) (ret : Z) (d : decoder) : option (result (Z * decoder)) :=
  match k with
  | O => Some (Ok (ret, d))
  | S k' =>
      let? '(b, d) := d_read d in
      let* ret := add_usize ((Z.shiftl ret 8) mod 2 ^ (8 * w)) b in
      lax_len_loop_w k' ret d
  end.

(** core/src/der.rs:203-230 [read_len_lax] *)
Definition d_read_len_lax_w (d : decoder) : option (result (Z * decoder)) :=
  let? '(len, d) := d_read d in
  let? '(ret, d) :=
    (if negb (Z.land len 128 =? 0) then
       let* len := sub8 dbg len 128 in
       if remaining_len d <? len then derr
       else
         let? '(d, len) := lax_skip_zeros d len in
         if w <=? len then derr
         else lax_len_loop_w (Z.to_nat len) 0 d
     else Some (Ok (len, d))) in
  if remaining_len d <? ret then derr else Some (Ok (ret, d)).

(** core/src/der.rs:232-268 [read_integer_lax] *)
Definition d_read_integer_lax_w (d : decoder) : option (result (scalar * decoder)) :=
  let? '(tag, d) := d_read d in
  if negb (tag =? 2) then derr
  else
    let? '(len, d) := d_read_len_lax_w d in
    let? '(d, len) := skip_zeros d len in
    if 32 <? len then Some (Ok (s_default, d))
    else read_scalar dbg d len.

(** src/lib.rs:607-617 [parse_der_lax] *)
Definition sig_parse_der_lax_w (p : list Z) : option (result signature) :=
  let? d := d_read_constructed_sequence p in
  let? '(_, d) := d_read_seq_len_lax dbg d in
  let? '(r, d) := d_read_integer_lax_w d in
  let? '(s, d) := d_read_integer_lax_w d in
  Some (Ok (Sig r s)).

End Build.
