(** Model of core/src/scalar.rs: 8x32-bit integers modulo the group order n.

    The straight-line accumulator code of [reduce_512], [mul_512], [sqr_512] and the addition
    chain of [inv_in_place] were produced mechanically, one line per Rust statement. *)
From Verif Require Import Word.

(** core/src/scalar.rs:26 [struct Scalar(pub [u32; 8])], least significant limb first *)
Inductive scalar := Sc (d0 d1 d2 d3 d4 d5 d6 d7 : Z).

(** core/src/scalar.rs:26 the array [self.0] *)
Definition s_limbs (s : scalar) : list Z :=
  match s with Sc d0 d1 d2 d3 d4 d5 d6 d7 => [d0; d1; d2; d3; d4; d5; d6; d7] end.

(** derived [PartialEq] of core/src/scalar.rs:26 *)
Definition s_eqb (a b : scalar) : bool :=
  match a, b with Sc a0 a1 a2 a3 a4 a5 a6 a7, Sc b0 b1 b2 b3 b4 b5 b6 b7 =>
    (a0 =? b0) && (a1 =? b1) && (a2 =? b2) && (a3 =? b3) &&
    (a4 =? b4) && (a5 =? b5) && (a6 =? b6) && (a7 =? b7) end.

(** core/src/scalar.rs:5-7 [SECP256K1_N] *)
Definition N_0 := 3493216577.  (* 0xD0364141 *)
Definition N_1 := 3218235020.  (* 0xBFD25E8C *)
Definition N_2 := 2940772411.  (* 0xAF48A03B *)
Definition N_3 := 3132021990.  (* 0xBAAEDCE6 *)
Definition N_4 := 4294967294.  (* 0xFFFFFFFE *)
Definition N_5 := 4294967295.
(** core/src/scalar.rs:6 [SECP256K1_N[6]] *)
Definition N_6 := 4294967295.
(** core/src/scalar.rs:6 [SECP256K1_N[7]] *)
Definition N_7 := 4294967295.

(** core/src/scalar.rs:9-13 [SECP256K1_N_C_*]: [!x] on u32 is [2^32 - 1 - x] *)
Definition N_C_0 := 4294967295 - N_0 + 1.
(** core/src/scalar.rs:10 *)
Definition N_C_1 := 4294967295 - N_1.
(** core/src/scalar.rs:11 *)
Definition N_C_2 := 4294967295 - N_2.
(** core/src/scalar.rs:12 *)
Definition N_C_3 := 4294967295 - N_3.
(** core/src/scalar.rs:13 *)
Definition N_C_4 := 1.

(** core/src/scalar.rs:15-22 [SECP256K1_N_H_*] *)
Definition N_H_0 := 1746608288. (* 0x681B20A0 *)
Definition N_H_1 := 3756601158. (* 0xDFE92F46 *)
Definition N_H_2 := 1470386205. (* 0x57A4501D *)
Definition N_H_3 := 1566010995. (* 0x5D576E73 *)
Definition N_H_4 := 4294967295.
(** core/src/scalar.rs:20 *)
Definition N_H_5 := 4294967295.
(** core/src/scalar.rs:21 *)
Definition N_H_6 := 4294967295.
(** core/src/scalar.rs:22 *)
Definition N_H_7 := 2147483647. (* 0x7FFFFFFF *)

(** core/src/scalar.rs:928-932 [Default for Scalar]; [clear] 30-34 writes the same value *)
Definition s_default : scalar := Sc 0 0 0 0 0 0 0 0.

(** core/src/scalar.rs:37-46 [set_int], [from_int] *)
Definition s_from_int (v : Z) : scalar := Sc v 0 0 0 0 0 0 0.

(** core/src/scalar.rs:70-87 [check_overflow]; [Choice] values are booleans here *)
Definition s_check_overflow (s : scalar) : bool :=
  match s with Sc d0 d1 d2 d3 d4 d5 d6 d7 =>
    let yes := false in
    let no := false in
    let no := no || (d7 <? N_7) in
    let no := no || (d6 <? N_6) in
    let no := no || (d5 <? N_5) in
    let no := no || (d4 <? N_4) in
    let yes := yes || ((N_4 <? d4) && negb no) in
    let no := no || ((d3 <? N_3) && negb yes) in
    let yes := yes || ((N_3 <? d3) && negb no) in
    let no := no || ((d2 <? N_2) && negb yes) in
    let yes := yes || ((N_2 <? d2) && negb no) in
    let no := no || ((d1 <? N_1) && negb yes) in
    let yes := yes || ((N_1 <? d1) && negb no) in
    yes || ((N_0 <=? d0) && negb no)
  end.

(** core/src/scalar.rs:244-253 [is_zero] *)
Definition s_is_zero (s : scalar) : bool :=
  match s with Sc d0 d1 d2 d3 d4 d5 d6 d7 =>
    Z.lor (Z.lor (Z.lor (Z.lor (Z.lor (Z.lor (Z.lor d0 d1) d2) d3) d4) d5) d6) d7 =? 0 end.

(** core/src/scalar.rs:257-267 [is_one] *)
Definition s_is_one (s : scalar) : bool :=
  match s with Sc d0 d1 d2 d3 d4 d5 d6 d7 =>
    Z.lor (Z.lor (Z.lor (Z.lor (Z.lor (Z.lor (Z.lor (Z.lxor d0 1) d1) d2) d3) d4) d5) d6) d7 =? 0 end.

(** core/src/scalar.rs:271-287 [is_high] *)
Definition s_is_high (s : scalar) : bool :=
  match s with Sc d0 d1 d2 d3 d4 d5 d6 d7 =>
    let yes := false in
    let no := false in
    let no := no || (d7 <? N_H_7) in
    let yes := yes || ((N_H_7 <? d7) && negb no) in
    let no := no || ((d6 <? N_H_6) && negb yes) in
    let no := no || ((d5 <? N_H_5) && negb yes) in
    let no := no || ((d4 <? N_H_4) && negb yes) in
    let no := no || ((d3 <? N_H_3) && negb yes) in
    let yes := yes || ((N_H_3 <? d3) && negb no) in
    let no := no || ((d2 <? N_H_2) && negb yes) in
    let yes := yes || ((N_H_2 <? d2) && negb no) in
    let no := no || ((d1 <? N_H_1) && negb yes) in
    let yes := yes || ((N_H_1 <? d1) && negb no) in
    yes || ((N_H_0 <=? d0) && negb no)
  end.

(** core/src/scalar.rs:924-926 [is_even] *)
Definition s_is_even (s : scalar) : bool :=
  match s with Sc d0 _ _ _ _ _ _ _ => Z.land d0 1 =? 0 end.

(** core/src/scalar.rs:201-241 [b32], [fill_b32] *)
Definition s_b32 (s : scalar) : list Z :=
  match s with Sc d0 d1 d2 d3 d4 d5 d6 d7 =>
  [ as_u8 (Z.shiftr d7 24); as_u8 (Z.shiftr d7 16); as_u8 (Z.shiftr d7 8); as_u8 d7;
    as_u8 (Z.shiftr d6 24); as_u8 (Z.shiftr d6 16); as_u8 (Z.shiftr d6 8); as_u8 d6;
    as_u8 (Z.shiftr d5 24); as_u8 (Z.shiftr d5 16); as_u8 (Z.shiftr d5 8); as_u8 d5;
    as_u8 (Z.shiftr d4 24); as_u8 (Z.shiftr d4 16); as_u8 (Z.shiftr d4 8); as_u8 d4;
    as_u8 (Z.shiftr d3 24); as_u8 (Z.shiftr d3 16); as_u8 (Z.shiftr d3 8); as_u8 d3;
    as_u8 (Z.shiftr d2 24); as_u8 (Z.shiftr d2 16); as_u8 (Z.shiftr d2 8); as_u8 d2;
    as_u8 (Z.shiftr d1 24); as_u8 (Z.shiftr d1 16); as_u8 (Z.shiftr d1 8); as_u8 d1;
    as_u8 (Z.shiftr d0 24); as_u8 (Z.shiftr d0 16); as_u8 (Z.shiftr d0 8); as_u8 d0 ]
  end.

(** [{:02x}] of one byte, as ASCII codes *)
Definition hex_digit (v : Z) : Z := if v <? 10 then 48 + v else 87 + v.
(** core/src/scalar.rs:1027 [{:02x}]: the two digits *)
Definition hex_byte (b : Z) : list Z := [hex_digit (b / 16); hex_digit (b mod 16)].
(** [u32::to_be_bytes] *)
Definition be_bytes32 (w : Z) : list Z :=
  [as_u8 (Z.shiftr w 24); as_u8 (Z.shiftr w 16); as_u8 (Z.shiftr w 8); as_u8 w].

(** core/src/scalar.rs:1023-1032 [LowerHex for Scalar]: the words in array order, each as
    four big-endian bytes; the result is the list of ASCII codes written *)
Definition s_lower_hex (s : scalar) : list Z :=
  flat_map (fun w => flat_map hex_byte (be_bytes32 w)) (s_limbs s).

(** [a << k], [a >> k] on u32 with a run-time amount: panics in debug builds when [k >= 32],
    uses [k mod 32] in release builds *)
Definition shlc32 (dbg : bool) (a k : Z) : option Z :=
  if k <? 32 then Some (shl32 a k) else if dbg then None else Some (shl32 a (k mod 32)).
(** [a >> k], the same *)
Definition shrc32 (dbg : bool) (a k : Z) : option Z :=
  if k <? 32 then Some (Z.shiftr a k) else if dbg then None else Some (Z.shiftr a (k mod 32)).

(** [subtle::Choice::from(u8)]: debug builds assert the argument is 0 or 1 *)
Definition choice_from (dbg : bool) (v : Z) : option Z :=
  dassert dbg ((v =? 0) || (v =? 1)) ;; Some v.

Section Build.
Variable dbg : bool.

(** core/src/scalar.rs:50-53 [bits]; [usize] is 64 bits wide *)
Definition s_bits (s : scalar) (offset count : Z) : option Z :=
  (if dbg then
     let* q1 := add64 dbg offset count in
     let* q2 := sub64 dbg q1 1 in
     dassert dbg (Z.shiftr q2 5 =? Z.shiftr offset 5)
   else Some tt) ;;
  let* w := idx (s_limbs s) (Z.shiftr offset 5) in
  let* q3 := shlc32 dbg 1 count in
  let* q4 := sub32 dbg q3 1 in
  Some (Z.land (Z.shiftr w (Z.land offset 31)) q4).

(** core/src/scalar.rs:56-67 [bits_var] *)
Definition s_bits_var (s : scalar) (offset count : Z) : option Z :=
  dassert dbg (count <? 32) ;;
  (if dbg then let* q := add64 dbg offset count in dassert dbg (q <=? 256) else Some tt) ;;
  let* q1 := add64 dbg offset count in
  let* q2 := sub64 dbg q1 1 in
  if Z.shiftr q2 5 =? Z.shiftr offset 5 then s_bits s offset count
  else
    (dassert dbg (Z.shiftr offset 5 + 1 <? 8)) ;;
    let* w0 := idx (s_limbs s) (Z.shiftr offset 5) in
    let* w1 := idx (s_limbs s) (Z.shiftr offset 5 + 1) in
    let* hi := shlc32 dbg w1 (32 - Z.land offset 31) in
    let* q3 := shlc32 dbg 1 count in
    let* q4 := sub32 dbg q3 1 in
    Some (Z.land (Z.lor (Z.shiftr w0 (Z.land offset 31)) hi) q4).

(** core/src/scalar.rs:89-123 [reduce]; [o] is [overflow.unwrap_u8()] *)
Definition s_reduce (s : scalar) (o : Z) : option scalar :=
  match s with Sc d0 d1 d2 d3 d4 d5 d6 d7 =>
  let* m := mul64 dbg o N_C_0 in
  let* t := add64 dbg d0 m in
  let! e0 := as_u32 (Z.land t 4294967295) in
  let! t := Z.shiftr t 32 in
  let* m := mul64 dbg o N_C_1 in
  let* u := add64 dbg d1 m in
  let* t := add64 dbg t u in
  let! e1 := as_u32 (Z.land t 4294967295) in
  let! t := Z.shiftr t 32 in
  let* m := mul64 dbg o N_C_2 in
  let* u := add64 dbg d2 m in
  let* t := add64 dbg t u in
  let! e2 := as_u32 (Z.land t 4294967295) in
  let! t := Z.shiftr t 32 in
  let* m := mul64 dbg o N_C_3 in
  let* u := add64 dbg d3 m in
  let* t := add64 dbg t u in
  let! e3 := as_u32 (Z.land t 4294967295) in
  let! t := Z.shiftr t 32 in
  let* m := mul64 dbg o N_C_4 in
  let* u := add64 dbg d4 m in
  let* t := add64 dbg t u in
  let! e4 := as_u32 (Z.land t 4294967295) in
  let! t := Z.shiftr t 32 in
  let* t := add64 dbg t d5 in
  let! e5 := as_u32 (Z.land t 4294967295) in
  let! t := Z.shiftr t 32 in
  let* t := add64 dbg t d6 in
  let! e6 := as_u32 (Z.land t 4294967295) in
  let! t := Z.shiftr t 32 in
  let* t := add64 dbg t d7 in
  let! e7 := as_u32 (Z.land t 4294967295) in
  Some (Sc e0 e1 e2 e3 e4 e5 e6 e7)
  end.

(** core/src/scalar.rs:127-156 [cadd_bit].  One limb step: [t += d + ((bit>>5 == i) as u64 << (bit & 31))] *)
Definition cadd_step (t d bit i : Z) : option (Z * Z) :=
  let* u := add64 dbg d (Z.shiftl (b2z (Z.shiftr bit 5 =? i)) (Z.land bit 31)) in
  let* t := add64 dbg t u in
  Some (as_u32 (Z.land t 4294967295), Z.shiftr t 32).

(** core/src/scalar.rs:127-156 [cadd_bit]: the whole function *)
Definition s_cadd_bit (s : scalar) (bit : Z) (flag : bool) : option scalar :=
  match s with Sc d0 d1 d2 d3 d4 d5 d6 d7 =>
  dassert dbg (bit <? 256) ;;
  let* bit := add64 dbg bit (if flag then 0 else 256) in
  let* '(e0, t) := cadd_step 0 d0 bit 0 in
  let* '(e1, t) := cadd_step t d1 bit 1 in
  let* '(e2, t) := cadd_step t d2 bit 2 in
  let* '(e3, t) := cadd_step t d3 bit 3 in
  let* '(e4, t) := cadd_step t d4 bit 4 in
  let* '(e5, t) := cadd_step t d5 bit 5 in
  let* '(e6, t) := cadd_step t d6 bit 6 in
  let* '(e7, t) := cadd_step t d7 bit 7 in
  dassert dbg (t =? 0) ;;
  let! r := Sc e0 e1 e2 e3 e4 e5 e6 e7 in
  dassert dbg (negb (s_check_overflow r)) ;;
  Some r
  end.

(** core/src/scalar.rs:160-198 [set_b32]: new value and the overflow flag *)
Definition s_set_b32 (b : list Z) : option (scalar * bool) :=
  match b with
  | [b0; b1; b2; b3; b4; b5; b6; b7; b8; b9; b10; b11; b12; b13; b14; b15;
     b16; b17; b18; b19; b20; b21; b22; b23; b24; b25; b26; b27; b28; b29; b30; b31] =>
  let! s := Sc
    (Z.lor (Z.lor (Z.lor b31 (shl32 b30 8)) (shl32 b29 16)) (shl32 b28 24))
    (Z.lor (Z.lor (Z.lor b27 (shl32 b26 8)) (shl32 b25 16)) (shl32 b24 24))
    (Z.lor (Z.lor (Z.lor b23 (shl32 b22 8)) (shl32 b21 16)) (shl32 b20 24))
    (Z.lor (Z.lor (Z.lor b19 (shl32 b18 8)) (shl32 b17 16)) (shl32 b16 24))
    (Z.lor (Z.lor (Z.lor b15 (shl32 b14 8)) (shl32 b13 16)) (shl32 b12 24))
    (Z.lor (Z.lor (Z.lor b11 (shl32 b10 8)) (shl32 b9 16)) (shl32 b8 24))
    (Z.lor (Z.lor (Z.lor b7 (shl32 b6 8)) (shl32 b5 16)) (shl32 b4 24))
    (Z.lor (Z.lor (Z.lor b3 (shl32 b2 8)) (shl32 b1 16)) (shl32 b0 24)) in
  let! over := s_check_overflow s in
  let* r := s_reduce s (b2z over) in
  Some (r, over)
  | _ => None
  end.

(** core/src/scalar.rs:290-306 [cond_neg_assign]; one iteration of the unrolled loop *)
Definition cneg_step (t d n mask nonzero : Z) : option (Z * Z) :=
  let* u := add64 dbg (Z.lxor d mask) (Z.land n mask) in
  let* t := add64 dbg t u in
  Some (as_u32 (Z.land t nonzero), Z.shiftr t 32).

(** core/src/scalar.rs:290-306 [cond_neg_assign]: the whole function *)
Definition s_cond_neg (s : scalar) (flag : bool) : option scalar :=
  match s with Sc d0 d1 d2 d3 d4 d5 d6 d7 =>
  let! mask := if flag then 4294967295 else 0 in
  let! nonzero := if s_is_zero s then 0 else 4294967295 in
  let! t := b2z flag in
  let* '(e0, t) := cneg_step t d0 N_0 mask nonzero in
  let* '(e1, t) := cneg_step t d1 N_1 mask nonzero in
  let* '(e2, t) := cneg_step t d2 N_2 mask nonzero in
  let* '(e3, t) := cneg_step t d3 N_3 mask nonzero in
  let* '(e4, t) := cneg_step t d4 N_4 mask nonzero in
  let* '(e5, t) := cneg_step t d5 N_5 mask nonzero in
  let* '(e6, t) := cneg_step t d6 N_6 mask nonzero in
  let* '(e7, t) := cneg_step t d7 N_7 mask nonzero in
  Some (Sc e0 e1 e2 e3 e4 e5 e6 e7)
  end.

(** core/src/scalar.rs:1007-1021 [Neg for Scalar] *)
Definition s_neg (s : scalar) : option scalar := s_cond_neg s true.

(** accumulator of the multiplication macros: (c0, c1, c2) *)
Definition acc : Type := Z * Z * Z.

(** core/src/scalar.rs:311-323 [muladd!] *)
Definition a_muladd (a b : Z) (c : acc) : option acc :=
  let '(c0, c1, c2) := c in
  let! t := a * b in
  let! th := as_u32 (Z.shiftr t 32) in
  let! tl := as_u32 t in
  let! c0 := wadd32 c0 tl in
  let! th := wadd32 th (b2z (c0 <? tl)) in
  let! c1 := wadd32 c1 th in
  let! c2 := wadd32 c2 (b2z (c1 <? th)) in
  dassert dbg ((th <=? c1) || negb (c2 =? 0)) ;;
  Some (c0, c1, c2).

(** core/src/scalar.rs:326-338 [muladd_fast!] *)
Definition a_muladd_fast (a b : Z) (c : acc) : option acc :=
  let '(c0, c1, c2) := c in
  let! t := a * b in
  let! th := as_u32 (Z.shiftr t 32) in
  let! tl := as_u32 t in
  let! c0 := wadd32 c0 tl in
  let! th := wadd32 th (b2z (c0 <? tl)) in
  let! c1 := wadd32 c1 th in
  dassert dbg (th <=? c1) ;;
  Some (c0, c1, c2).

(** core/src/scalar.rs:341-361 [muladd2!] *)
Definition a_muladd2 (a b : Z) (c : acc) : option acc :=
  let '(c0, c1, c2) := c in
  let! t := a * b in
  let! th := as_u32 (Z.shiftr t 32) in
  let! tl := as_u32 t in
  let! th2 := wadd32 th th in
  let! c2 := wadd32 c2 (b2z (th2 <? th)) in
  dassert dbg ((th <=? th2) || negb (c2 =? 0)) ;;
  let! tl2 := wadd32 tl tl in
  let! th2 := wadd32 th2 (b2z (tl2 <? tl)) in
  let! c0 := wadd32 c0 tl2 in
  let! th2 := wadd32 th2 (b2z (c0 <? tl2)) in
  let! c2 := wadd32 c2 (b2z ((c0 <? tl2) && (th2 =? 0))) in
  dassert dbg ((tl2 <=? c0) || negb (th2 =? 0) || negb (c2 =? 0)) ;;
  let! c1 := wadd32 c1 th2 in
  let! c2 := wadd32 c2 (b2z (c1 <? th2)) in
  dassert dbg ((th2 <=? c1) || negb (c2 =? 0)) ;;
  Some (c0, c1, c2).

(** core/src/scalar.rs:364-372 [sumadd!] *)
Definition a_sumadd (a : Z) (c : acc) : option acc :=
  let '(c0, c1, c2) := c in
  let! c0 := wadd32 c0 a in
  let! over := b2z (c0 <? a) in
  let! c1 := wadd32 c1 over in
  let! c2 := wadd32 c2 (b2z (c1 <? over)) in
  Some (c0, c1, c2).

(** core/src/scalar.rs:375-383 [sumadd_fast!] *)
Definition a_sumadd_fast (a : Z) (c : acc) : option acc :=
  let '(c0, c1, c2) := c in
  let! c0 := wadd32 c0 a in
  let! c1 := wadd32 c1 (b2z (c0 <? a)) in
  dassert dbg (negb (c1 =? 0) || (a <=? c0)) ;;
  dassert dbg (c2 =? 0) ;;
  Some (c0, c1, c2).

(** core/src/scalar.rs:386-397 [extract!] *)
Definition a_extract (c : acc) : option (Z * acc) :=
  let '(c0, c1, c2) := c in Some (c0, (c1, c2, 0)).

(** core/src/scalar.rs:400-411 [extract_fast!] *)
Definition a_extract_fast (c : acc) : option (Z * acc) :=
  let '(c0, c1, c2) := c in
  dassert dbg (c2 =? 0) ;;
  Some (c0, (c1, 0, c2)).

(** core/src/scalar.rs:441-504: 512 bits into 385 bits; returns m0..m12 *)
Definition s_red_a (l : list Z) : option (list Z) :=
  match l with
  | [l0; l1; l2; l3; l4; l5; l6; l7; n0; n1; n2; n3; n4; n5; n6; n7] =>
    let! c := (l0, 0, 0) in
    let* c := a_muladd_fast n0 N_C_0 c in
    let* '(m0, c) := a_extract_fast c in
    let* c := a_sumadd_fast l1 c in
    let* c := a_muladd n1 N_C_0 c in
    let* c := a_muladd n0 N_C_1 c in
    let* '(m1, c) := a_extract c in
    let* c := a_sumadd l2 c in
    let* c := a_muladd n2 N_C_0 c in
    let* c := a_muladd n1 N_C_1 c in
    let* c := a_muladd n0 N_C_2 c in
    let* '(m2, c) := a_extract c in
    let* c := a_sumadd l3 c in
    let* c := a_muladd n3 N_C_0 c in
    let* c := a_muladd n2 N_C_1 c in
    let* c := a_muladd n1 N_C_2 c in
    let* c := a_muladd n0 N_C_3 c in
    let* '(m3, c) := a_extract c in
    let* c := a_sumadd l4 c in
    let* c := a_muladd n4 N_C_0 c in
    let* c := a_muladd n3 N_C_1 c in
    let* c := a_muladd n2 N_C_2 c in
    let* c := a_muladd n1 N_C_3 c in
    let* c := a_sumadd n0 c in
    let* '(m4, c) := a_extract c in
    let* c := a_sumadd l5 c in
    let* c := a_muladd n5 N_C_0 c in
    let* c := a_muladd n4 N_C_1 c in
    let* c := a_muladd n3 N_C_2 c in
    let* c := a_muladd n2 N_C_3 c in
    let* c := a_sumadd n1 c in
    let* '(m5, c) := a_extract c in
    let* c := a_sumadd l6 c in
    let* c := a_muladd n6 N_C_0 c in
    let* c := a_muladd n5 N_C_1 c in
    let* c := a_muladd n4 N_C_2 c in
    let* c := a_muladd n3 N_C_3 c in
    let* c := a_sumadd n2 c in
    let* '(m6, c) := a_extract c in
    let* c := a_sumadd l7 c in
    let* c := a_muladd n7 N_C_0 c in
    let* c := a_muladd n6 N_C_1 c in
    let* c := a_muladd n5 N_C_2 c in
    let* c := a_muladd n4 N_C_3 c in
    let* c := a_sumadd n3 c in
    let* '(m7, c) := a_extract c in
    let* c := a_muladd n7 N_C_1 c in
    let* c := a_muladd n6 N_C_2 c in
    let* c := a_muladd n5 N_C_3 c in
    let* c := a_sumadd n4 c in
    let* '(m8, c) := a_extract c in
    let* c := a_muladd n7 N_C_2 c in
    let* c := a_muladd n6 N_C_3 c in
    let* c := a_sumadd n5 c in
    let* '(m9, c) := a_extract c in
    let* c := a_muladd n7 N_C_3 c in
    let* c := a_sumadd n6 c in
    let* '(m10, c) := a_extract c in
    let* c := a_sumadd_fast n7 c in
    let* '(m11, c) := a_extract_fast c in
    let '(c0, _, _) := c in
    dassert dbg (c0 <=? 1) ;;
    let! m12 := c0 in
    Some [m0; m1; m2; m3; m4; m5; m6; m7; m8; m9; m10; m11; m12]
  | _ => None
  end.

(** core/src/scalar.rs:508-551: 385 bits into 258 bits; returns p0..p8 *)
Definition s_red_b (m : list Z) : option (list Z) :=
  match m with
  | [m0; m1; m2; m3; m4; m5; m6; m7; m8; m9; m10; m11; m12] =>
    let! c := (m0, 0, 0) in
    let* c := a_muladd_fast m8 N_C_0 c in
    let* '(p0, c) := a_extract_fast c in
    let* c := a_sumadd_fast m1 c in
    let* c := a_muladd m9 N_C_0 c in
    let* c := a_muladd m8 N_C_1 c in
    let* '(p1, c) := a_extract c in
    let* c := a_sumadd m2 c in
    let* c := a_muladd m10 N_C_0 c in
    let* c := a_muladd m9 N_C_1 c in
    let* c := a_muladd m8 N_C_2 c in
    let* '(p2, c) := a_extract c in
    let* c := a_sumadd m3 c in
    let* c := a_muladd m11 N_C_0 c in
    let* c := a_muladd m10 N_C_1 c in
    let* c := a_muladd m9 N_C_2 c in
    let* c := a_muladd m8 N_C_3 c in
    let* '(p3, c) := a_extract c in
    let* c := a_sumadd m4 c in
    let* c := a_muladd m12 N_C_0 c in
    let* c := a_muladd m11 N_C_1 c in
    let* c := a_muladd m10 N_C_2 c in
    let* c := a_muladd m9 N_C_3 c in
    let* c := a_sumadd m8 c in
    let* '(p4, c) := a_extract c in
    let* c := a_sumadd m5 c in
    let* c := a_muladd m12 N_C_1 c in
    let* c := a_muladd m11 N_C_2 c in
    let* c := a_muladd m10 N_C_3 c in
    let* c := a_sumadd m9 c in
    let* '(p5, c) := a_extract c in
    let* c := a_sumadd m6 c in
    let* c := a_muladd m12 N_C_2 c in
    let* c := a_muladd m11 N_C_3 c in
    let* c := a_sumadd m10 c in
    let* '(p6, c) := a_extract c in
    let* c := a_sumadd_fast m7 c in
    let* c := a_muladd_fast m12 N_C_3 c in
    let* c := a_sumadd_fast m11 c in
    let* '(p7, c) := a_extract_fast c in
    let '(c0, _, _) := c in
    let* p8 := add32 dbg c0 m12 in
    dassert dbg (p8 <=? 2) ;;
    Some [p0; p1; p2; p3; p4; p5; p6; p7; p8]
  | _ => None
  end.

(** core/src/scalar.rs:553-581: 258 bits into 256 bits, then the final conditional subtraction *)
Definition s_red_c (p : list Z) : option scalar :=
  match p with
  | [p0; p1; p2; p3; p4; p5; p6; p7; p8] =>
    let* m := mul64 dbg N_C_0 p8 in
    let* c := add64 dbg p0 m in
    let! e0 := as_u32 (Z.land c 4294967295) in
    let! c := Z.shiftr c 32 in
    let* m := mul64 dbg N_C_1 p8 in
    let* u := add64 dbg p1 m in
    let* c := add64 dbg c u in
    let! e1 := as_u32 (Z.land c 4294967295) in
    let! c := Z.shiftr c 32 in
    let* m := mul64 dbg N_C_2 p8 in
    let* u := add64 dbg p2 m in
    let* c := add64 dbg c u in
    let! e2 := as_u32 (Z.land c 4294967295) in
    let! c := Z.shiftr c 32 in
    let* m := mul64 dbg N_C_3 p8 in
    let* u := add64 dbg p3 m in
    let* c := add64 dbg c u in
    let! e3 := as_u32 (Z.land c 4294967295) in
    let! c := Z.shiftr c 32 in
    let* u := add64 dbg p4 p8 in
    let* c := add64 dbg c u in
    let! e4 := as_u32 (Z.land c 4294967295) in
    let! c := Z.shiftr c 32 in
    let* c := add64 dbg c p5 in
    let! e5 := as_u32 (Z.land c 4294967295) in
    let! c := Z.shiftr c 32 in
    let* c := add64 dbg c p6 in
    let! e6 := as_u32 (Z.land c 4294967295) in
    let! c := Z.shiftr c 32 in
    let* c := add64 dbg c p7 in
    let! e7 := as_u32 (Z.land c 4294967295) in
    let! c := Z.shiftr c 32 in
    let! s := Sc e0 e1 e2 e3 e4 e5 e6 e7 in
    let! over := b2z (s_check_overflow s) in
    let* ch := choice_from dbg (as_u8 c) in
    let* o := choice_from dbg (Z.lor ch over) in
    s_reduce s o
  | _ => None
  end.

(** core/src/scalar.rs:417-582 [reduce_512], split at its two section comments *)
Definition s_reduce_512 (l : list Z) : option scalar :=
  let* m := s_red_a l in
  let* p := s_red_b m in
  s_red_c p.

(** core/src/scalar.rs:584-670 [mul_512] *)
Definition s_mul_512 (a b : scalar) : option (list Z) :=
  match a, b with
  | Sc a0 a1 a2 a3 a4 a5 a6 a7, Sc b0 b1 b2 b3 b4 b5 b6 b7 =>
  let! c := (0, 0, 0) in
  let* c := a_muladd_fast a0 b0 c in
  let* '(l0, c) := a_extract_fast c in
  let* c := a_muladd a0 b1 c in
  let* c := a_muladd a1 b0 c in
  let* '(l1, c) := a_extract c in
  let* c := a_muladd a0 b2 c in
  let* c := a_muladd a1 b1 c in
  let* c := a_muladd a2 b0 c in
  let* '(l2, c) := a_extract c in
  let* c := a_muladd a0 b3 c in
  let* c := a_muladd a1 b2 c in
  let* c := a_muladd a2 b1 c in
  let* c := a_muladd a3 b0 c in
  let* '(l3, c) := a_extract c in
  let* c := a_muladd a0 b4 c in
  let* c := a_muladd a1 b3 c in
  let* c := a_muladd a2 b2 c in
  let* c := a_muladd a3 b1 c in
  let* c := a_muladd a4 b0 c in
  let* '(l4, c) := a_extract c in
  let* c := a_muladd a0 b5 c in
  let* c := a_muladd a1 b4 c in
  let* c := a_muladd a2 b3 c in
  let* c := a_muladd a3 b2 c in
  let* c := a_muladd a4 b1 c in
  let* c := a_muladd a5 b0 c in
  let* '(l5, c) := a_extract c in
  let* c := a_muladd a0 b6 c in
  let* c := a_muladd a1 b5 c in
  let* c := a_muladd a2 b4 c in
  let* c := a_muladd a3 b3 c in
  let* c := a_muladd a4 b2 c in
  let* c := a_muladd a5 b1 c in
  let* c := a_muladd a6 b0 c in
  let* '(l6, c) := a_extract c in
  let* c := a_muladd a0 b7 c in
  let* c := a_muladd a1 b6 c in
  let* c := a_muladd a2 b5 c in
  let* c := a_muladd a3 b4 c in
  let* c := a_muladd a4 b3 c in
  let* c := a_muladd a5 b2 c in
  let* c := a_muladd a6 b1 c in
  let* c := a_muladd a7 b0 c in
  let* '(l7, c) := a_extract c in
  let* c := a_muladd a1 b7 c in
  let* c := a_muladd a2 b6 c in
  let* c := a_muladd a3 b5 c in
  let* c := a_muladd a4 b4 c in
  let* c := a_muladd a5 b3 c in
  let* c := a_muladd a6 b2 c in
  let* c := a_muladd a7 b1 c in
  let* '(l8, c) := a_extract c in
  let* c := a_muladd a2 b7 c in
  let* c := a_muladd a3 b6 c in
  let* c := a_muladd a4 b5 c in
  let* c := a_muladd a5 b4 c in
  let* c := a_muladd a6 b3 c in
  let* c := a_muladd a7 b2 c in
  let* '(l9, c) := a_extract c in
  let* c := a_muladd a3 b7 c in
  let* c := a_muladd a4 b6 c in
  let* c := a_muladd a5 b5 c in
  let* c := a_muladd a6 b4 c in
  let* c := a_muladd a7 b3 c in
  let* '(l10, c) := a_extract c in
  let* c := a_muladd a4 b7 c in
  let* c := a_muladd a5 b6 c in
  let* c := a_muladd a6 b5 c in
  let* c := a_muladd a7 b4 c in
  let* '(l11, c) := a_extract c in
  let* c := a_muladd a5 b7 c in
  let* c := a_muladd a6 b6 c in
  let* c := a_muladd a7 b5 c in
  let* '(l12, c) := a_extract c in
  let* c := a_muladd a6 b7 c in
  let* c := a_muladd a7 b6 c in
  let* '(l13, c) := a_extract c in
  let* c := a_muladd_fast a7 b7 c in
  let* '(l14, c) := a_extract_fast c in
  let '(c0, c1, _) := c in
  dassert dbg (c1 =? 0) ;;
  let! l15 := c0 in
  Some [l0; l1; l2; l3; l4; l5; l6; l7; l8; l9; l10; l11; l12; l13; l14; l15]
  end.

(** core/src/scalar.rs:672-730 [sqr_512] *)
Definition s_sqr_512 (a : scalar) : option (list Z) :=
  match a with
  | Sc a0 a1 a2 a3 a4 a5 a6 a7 =>
  let! c := (0, 0, 0) in
  let* c := a_muladd_fast a0 a0 c in
  let* '(l0, c) := a_extract_fast c in
  let* c := a_muladd2 a0 a1 c in
  let* '(l1, c) := a_extract c in
  let* c := a_muladd2 a0 a2 c in
  let* c := a_muladd a1 a1 c in
  let* '(l2, c) := a_extract c in
  let* c := a_muladd2 a0 a3 c in
  let* c := a_muladd2 a1 a2 c in
  let* '(l3, c) := a_extract c in
  let* c := a_muladd2 a0 a4 c in
  let* c := a_muladd2 a1 a3 c in
  let* c := a_muladd a2 a2 c in
  let* '(l4, c) := a_extract c in
  let* c := a_muladd2 a0 a5 c in
  let* c := a_muladd2 a1 a4 c in
  let* c := a_muladd2 a2 a3 c in
  let* '(l5, c) := a_extract c in
  let* c := a_muladd2 a0 a6 c in
  let* c := a_muladd2 a1 a5 c in
  let* c := a_muladd2 a2 a4 c in
  let* c := a_muladd a3 a3 c in
  let* '(l6, c) := a_extract c in
  let* c := a_muladd2 a0 a7 c in
  let* c := a_muladd2 a1 a6 c in
  let* c := a_muladd2 a2 a5 c in
  let* c := a_muladd2 a3 a4 c in
  let* '(l7, c) := a_extract c in
  let* c := a_muladd2 a1 a7 c in
  let* c := a_muladd2 a2 a6 c in
  let* c := a_muladd2 a3 a5 c in
  let* c := a_muladd a4 a4 c in
  let* '(l8, c) := a_extract c in
  let* c := a_muladd2 a2 a7 c in
  let* c := a_muladd2 a3 a6 c in
  let* c := a_muladd2 a4 a5 c in
  let* '(l9, c) := a_extract c in
  let* c := a_muladd2 a3 a7 c in
  let* c := a_muladd2 a4 a6 c in
  let* c := a_muladd a5 a5 c in
  let* '(l10, c) := a_extract c in
  let* c := a_muladd2 a4 a7 c in
  let* c := a_muladd2 a5 a6 c in
  let* '(l11, c) := a_extract c in
  let* c := a_muladd2 a5 a7 c in
  let* c := a_muladd a6 a6 c in
  let* '(l12, c) := a_extract c in
  let* c := a_muladd2 a6 a7 c in
  let* '(l13, c) := a_extract c in
  let* c := a_muladd_fast a7 a7 c in
  let* '(l14, c) := a_extract_fast c in
  let '(c0, c1, _) := c in
  dassert dbg (c1 =? 0) ;;
  let! l15 := c0 in
  Some [l0; l1; l2; l3; l4; l5; l6; l7; l8; l9; l10; l11; l12; l13; l14; l15]
  end.

(** core/src/scalar.rs:732-736 [mul_in_place]; all [Mul]/[MulAssign] impls 975-1005 call it *)
Definition s_mul (a b : scalar) : option scalar :=
  let* l := s_mul_512 a b in s_reduce_512 l.

(** core/src/scalar.rs:756-766 [sqr_in_place], [sqr] *)
Definition s_sqr (a : scalar) : option scalar :=
  let* l := s_sqr_512 a in s_reduce_512 l.

(** [for _ in 0..k { x = x.sqr(); }] *)
Fixpoint s_sqr_n (k : nat) (x : scalar) : option scalar :=
  match k with O => Some x | S j => let* y := s_sqr x in s_sqr_n j y end.

(** core/src/scalar.rs:740-754 [shr_int]: new value and the bits shifted off *)
Definition shr_step (lo hi n : Z) : option Z :=
  let* q1 := shrc32 dbg lo n in
  let* q2 := sub64 dbg 32 n in
  let* q3 := shlc32 dbg hi q2 in
  add32 dbg q1 q3.

(** core/src/scalar.rs:740-754 [shr_int]: the whole function *)
Definition s_shr_int (s : scalar) (n : Z) : option (scalar * Z) :=
  match s with Sc d0 d1 d2 d3 d4 d5 d6 d7 =>
  dassert dbg (0 <? n) ;;
  dassert dbg (n <? 16) ;;
  let* q1 := shlc32 dbg 1 n in
  let* q2 := sub32 dbg q1 1 in
  let! ret := Z.land d0 q2 in
  let* e0 := shr_step d0 d1 n in
  let* e1 := shr_step d1 d2 n in
  let* e2 := shr_step d2 d3 n in
  let* e3 := shr_step d3 d4 n in
  let* e4 := shr_step d4 d5 n in
  let* e5 := shr_step d5 d6 n in
  let* e6 := shr_step d6 d7 n in
  let* e7 := shrc32 dbg d7 n in
  Some (Sc e0 e1 e2 e3 e4 e5 e6 e7, ret)
  end.

(** core/src/scalar.rs:768-922 [inv_in_place], [inv], [inv_var] *)
Definition s_inv (x : scalar) : option scalar :=
  let* u2 := s_sqr x in
  let* x2 := s_mul u2 x in
  let* u5 := s_mul u2 x2 in
  let* x3 := s_mul u5 u2 in
  let* u9 := s_mul x3 u2 in
  let* u11 := s_mul u9 u2 in
  let* u13 := s_mul u11 u2 in
  let* x6 := s_sqr u13 in
  let* x6 := s_sqr x6 in
  let* x6 := s_mul x6 u11 in
  let* x8 := s_sqr x6 in
  let* x8 := s_sqr x8 in
  let* x8 := s_mul x8 x2 in
  let* x14 := s_sqr x8 in
  let* x14 := s_sqr_n 5 x14 in
  let* x14 := s_mul x14 x6 in
  let* x28 := s_sqr x14 in
  let* x28 := s_sqr_n 13 x28 in
  let* x28 := s_mul x28 x14 in
  let* x56 := s_sqr x28 in
  let* x56 := s_sqr_n 27 x56 in
  let* x56 := s_mul x56 x28 in
  let* x112 := s_sqr x56 in
  let* x112 := s_sqr_n 55 x112 in
  let* x112 := s_mul x112 x56 in
  let* x126 := s_sqr x112 in
  let* x126 := s_sqr_n 13 x126 in
  let* x126 := s_mul x126 x14 in
  let! t := x126 in
  let* t := s_sqr_n 3 t in
  let* t := s_mul t u5 in
  let* t := s_sqr_n 4 t in
  let* t := s_mul t x3 in
  let* t := s_sqr_n 4 t in
  let* t := s_mul t u5 in
  let* t := s_sqr_n 5 t in
  let* t := s_mul t u11 in
  let* t := s_sqr_n 4 t in
  let* t := s_mul t u11 in
  let* t := s_sqr_n 4 t in
  let* t := s_mul t x3 in
  let* t := s_sqr_n 5 t in
  let* t := s_mul t x3 in
  let* t := s_sqr_n 6 t in
  let* t := s_mul t u13 in
  let* t := s_sqr_n 4 t in
  let* t := s_mul t u5 in
  let* t := s_sqr_n 3 t in
  let* t := s_mul t x3 in
  let* t := s_sqr_n 5 t in
  let* t := s_mul t u9 in
  let* t := s_sqr_n 6 t in
  let* t := s_mul t u5 in
  let* t := s_sqr_n 10 t in
  let* t := s_mul t x3 in
  let* t := s_sqr_n 4 t in
  let* t := s_mul t x3 in
  let* t := s_sqr_n 9 t in
  let* t := s_mul t x8 in
  let* t := s_sqr_n 5 t in
  let* t := s_mul t u9 in
  let* t := s_sqr_n 6 t in
  let* t := s_mul t u11 in
  let* t := s_sqr_n 4 t in
  let* t := s_mul t u13 in
  let* t := s_sqr_n 5 t in
  let* t := s_mul t x2 in
  let* t := s_sqr_n 6 t in
  let* t := s_mul t u13 in
  let* t := s_sqr_n 10 t in
  let* t := s_mul t u13 in
  let* t := s_sqr_n 4 t in
  let* t := s_mul t u9 in
  let* t := s_sqr_n 6 t in
  let* t := s_mul t x in
  let* t := s_sqr_n 8 t in
  s_mul t x6.

(** core/src/scalar.rs:952-966 [AddAssign for Scalar] ([Add] 934-950 calls it); one iteration of the unrolled loop *)
Definition sadd_step (t a b : Z) : option (Z * Z) :=
  let* u := add64 dbg a b in
  let* t := add64 dbg t u in
  Some (as_u32 (Z.land t 4294967295), Z.shiftr t 32).

(** core/src/scalar.rs:952-966 [AddAssign for Scalar]: the whole function *)
Definition s_add (a b : scalar) : option scalar :=
  match a, b with
  | Sc a0 a1 a2 a3 a4 a5 a6 a7, Sc b0 b1 b2 b3 b4 b5 b6 b7 =>
  let* '(e0, t) := sadd_step 0 a0 b0 in
  let* '(e1, t) := sadd_step t a1 b1 in
  let* '(e2, t) := sadd_step t a2 b2 in
  let* '(e3, t) := sadd_step t a3 b3 in
  let* '(e4, t) := sadd_step t a4 b4 in
  let* '(e5, t) := sadd_step t a5 b5 in
  let* '(e6, t) := sadd_step t a6 b6 in
  let* '(e7, t) := sadd_step t a7 b7 in
  let! s := Sc e0 e1 e2 e3 e4 e5 e6 e7 in
  let! over := b2z (s_check_overflow s) in
  let* ch := choice_from dbg (as_u8 t) in
  let* o := choice_from dbg (Z.lor ch over) in
  s_reduce s o
  end.

End Build.
