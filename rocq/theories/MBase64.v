(** The base64 engine used for human-readable serialization of public keys (src/lib.rs:341 and 364:
    [BASE64_STANDARD.encode], [BASE64_STANDARD.decode]).  The code is in the crate base64 0.22
    (Cargo.toml:17), which is not part of /repo: it is written here from its documentation (RFC 4648
    section 4, canonical padding required, no bits set after the last byte).  Characters are their
    codes. *)
From Verif Require Import Word.

(** the alphabet A-Z a-z 0-9 + / *)
Definition b64_char (v : Z) : Z :=
  if v <? 26 then 65 + v else if v <? 52 then 97 + (v - 26) else if v <? 62 then 48 + (v - 52)
  else if v =? 62 then 43 else 47.
(** its inverse, used by [decode] (src/lib.rs:364) *)
Definition b64_digit (c : Z) : option Z :=
  if (65 <=? c) && (c <=? 90) then Some (c - 65)
  else if (97 <=? c) && (c <=? 122) then Some (c - 97 + 26)
  else if (48 <=? c) && (c <=? 57) then Some (c - 48 + 52)
  else if c =? 43 then Some 62 else if c =? 47 then Some 63 else None.
(** the character =, the padding of [encode] and [decode] (src/lib.rs:341, 364) *)
Definition b64_pad : Z := 61.

(** [encode] (src/lib.rs:341) *)
Fixpoint b64_encode (l : list Z) : list Z :=
  match l with
  | a :: b :: c :: t =>
      b64_char (Z.shiftr a 2) :: b64_char (Z.lor (Z.shiftl (Z.land a 3) 4) (Z.shiftr b 4)) ::
      b64_char (Z.lor (Z.shiftl (Z.land b 15) 2) (Z.shiftr c 6)) :: b64_char (Z.land c 63) :: b64_encode t
  | [a; b] =>
      [b64_char (Z.shiftr a 2); b64_char (Z.lor (Z.shiftl (Z.land a 3) 4) (Z.shiftr b 4));
       b64_char (Z.shiftl (Z.land b 15) 2); b64_pad]
  | [a] => [b64_char (Z.shiftr a 2); b64_char (Z.shiftl (Z.land a 3) 4); b64_pad; b64_pad]
  | [] => []
  end.

(** [decode] (src/lib.rs:364): groups of four; only the last may be padded, and then the unused bits of its
    last digit are zero *)
Fixpoint b64_decode (s : list Z) : option (list Z) :=
  match s with
  | [] => Some []
  | c1 :: c2 :: c3 :: c4 :: t =>
      let* v1 := b64_digit c1 in
      let* v2 := b64_digit c2 in
      match b64_digit c3, b64_digit c4 with
      | Some v3, Some v4 =>
          let* r := b64_decode t in
          Some (Z.lor (Z.shiftl v1 2) (Z.shiftr v2 4) :: Z.lor (Z.shiftl (Z.land v2 15) 4) (Z.shiftr v3 2) ::
                Z.lor (Z.shiftl (Z.land v3 3) 6) v4 :: r)
      | Some v3, None =>
          match t with
          | [] => if (c4 =? b64_pad) && (Z.land v3 3 =? 0)
                  then Some [Z.lor (Z.shiftl v1 2) (Z.shiftr v2 4); Z.lor (Z.shiftl (Z.land v2 15) 4) (Z.shiftr v3 2)]
                  else None
          | _ => None
          end
      | None, None =>
          match t with
          | [] => if (c3 =? b64_pad) && (c4 =? b64_pad) && (Z.land v2 15 =? 0)
                  then Some [Z.lor (Z.shiftl v1 2) (Z.shiftr v2 4)] else None
          | _ => None
          end
      | None, Some _ => None
      end
  | _ => None
  end.
