(** MDer.v once more, with two flags instead of one: [fst bd] says whether debug assertions are executed
    ([debug-assertions]), [snd bd] whether an arithmetic overflow panics ([overflow-checks]). Written by tools/gen_builds.py. *)
From Verif Require Import Word MScalar MDer XScalar.

Section Build.
Variable bd : bool * bool.

(** core/src/der.rs:124-130: the loop of [read_len]; [usize] is 64 bits wide *)
Fixpoint read_len_loop_x (lenleft : nat) (ret : Z) (d : decoder) : option (result (Z * decoder)) :=
  match lenleft with
  | O => Some (Ok (ret, d))
  | S k =>
      let? '(b, d) := d_read d in
      let! ret := Z.lor ((Z.shiftl ret 8) mod 2 ^ 64) b in
      let* q := add64 (snd bd) ret (Z.of_nat lenleft) in
      if remaining_len d <? q then derr
      else read_len_loop_x k ret d
  end.

(** core/src/der.rs:93-138 [read_len] *)
Definition d_read_len_x (d : decoder) : option (result (Z * decoder)) :=
  let? '(b1, d) := d_read d in
  if b1 =? 255 then derr
  else if Z.land b1 128 =? 0 then Some (Ok (b1, d))
  else if b1 =? 128 then derr
  else
    let! lenleft := Z.land b1 127 in
    if remaining_len d <? lenleft then derr
    else
      let? b := d_peek d 0 in
      if b =? 0 then derr
      else if 8 <? lenleft then derr
      else
        let? '(ret, d) := read_len_loop_x (Z.to_nat lenleft) 0 d in
        if ret <? 128 then derr else Some (Ok (ret, d)).

(** core/src/der.rs:175-185 and 254-264: copy at most 32 content bytes into a zeroed array,
    skip them, convert; an overflowing value becomes 0 *)
Definition read_scalar_x (d : decoder) (rlen : Z) : option (result (scalar * decoder)) :=
  let? sl := d_peek_slice d rlen in
  let! b32 := repeat 0 (32 - Z.to_nat rlen) ++ sl in
  let? d := d_skip d rlen in
  let* '(int, over) := s_set_b32_x bd b32 in
  Some (Ok (if over then s_default else int, d)).

(** core/src/der.rs:140-188 [read_integer] *)
Definition d_read_integer_x (d : decoder) : option (result (scalar * decoder)) :=
  let? '(tag, d) := d_read d in
  if negb (tag =? 2) then derr
  else
    let? '(rlen, d) := d_read_len_x d in
    if (rlen =? 0) || (remaining_len d <? rlen) then derr
    else
      let? b0 := d_peek d 0 in
      let? neg0 := (if (b0 =? 0) && (1 <? rlen) then
                      let? b1 := d_peek d 1 in Some (Ok (Z.land b1 128 =? 0))
                    else Some (Ok false)) in
      if neg0 then derr
      else
        let? negf := (if (b0 =? 255) && (1 <? rlen) then
                        let? b1 := d_peek d 1 in Some (Ok (Z.land b1 128 =? 0))
                      else Some (Ok false)) in
        if negf then derr
        else
          let! overflow := Z.land b0 128 =? 128 in
          let? '(d, rlen) := skip_zeros d rlen in
          let! overflow := overflow || (32 <? rlen) in
          if negb overflow then read_scalar_x d rlen
          else Some (Ok (s_default, d)).

(** core/src/der.rs:190-201 [read_seq_len_lax] (the returned length is ignored by the caller) *)
Definition d_read_seq_len_lax_x (d : decoder) : option (result (Z * decoder)) :=
  let? '(len, d) := d_read d in
  if negb (Z.land len 128 =? 0) then
    let* len := sub8 (snd bd) len 128 in
    if remaining_len d <? len then derr
    else let? d := d_skip d len in Some (Ok (len, d))
  else Some (Ok (len, d)).

(** core/src/der.rs:218-221: accumulate the length bytes *)
Fixpoint lax_len_loop_x (k : nat) (ret : Z) (d : decoder) : option (result (Z * decoder)) :=
  match k with
  | O => Some (Ok (ret, d))
  | S k' =>
      let? '(b, d) := d_read d in
      let* ret := add64 (snd bd) ((Z.shiftl ret 8) mod 2 ^ 64) b in
      lax_len_loop_x k' ret d
  end.

(** core/src/der.rs:203-230 [read_len_lax] *)
Definition d_read_len_lax_x (d : decoder) : option (result (Z * decoder)) :=
  let? '(len, d) := d_read d in
  let? '(ret, d) :=
    (if negb (Z.land len 128 =? 0) then
       let* len := sub8 (snd bd) len 128 in
       if remaining_len d <? len then derr
       else
         let? '(d, len) := lax_skip_zeros d len in
         if 8 <=? len then derr
         else lax_len_loop_x (Z.to_nat len) 0 d
     else Some (Ok (len, d))) in
  if remaining_len d <? ret then derr else Some (Ok (ret, d)).

(** core/src/der.rs:232-268 [read_integer_lax] *)
Definition d_read_integer_lax_x (d : decoder) : option (result (scalar * decoder)) :=
  let? '(tag, d) := d_read d in
  if negb (tag =? 2) then derr
  else
    let? '(len, d) := d_read_len_lax_x d in
    let? '(d, len) := skip_zeros d len in
    if 32 <? len then Some (Ok (s_default, d))
    else read_scalar_x d len.

End Build.
