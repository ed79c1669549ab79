(** Specification: secp256k1 and ECDSA as in SEC 1 / SEC 2, over plain integers.

    Nothing here refers to the model of the code.  Points are pairs of residues; addition is the
    textbook affine group law; a multiple is repeated addition. *)
From Coq Require Export ZArith List Bool.
Export ListNotations.
#[global] Open Scope Z_scope.

(** SEC 2, section 2.4.1 *)
Definition p : Z := 2 ^ 256 - 2 ^ 32 - 977.
Definition n : Z := 115792089237316195423570985008687907852837564279074904382605163141518161494337.
Definition gx : Z := 55066263022277343669578718895168534326250603453777594175500187360389116729240.
Definition gy : Z := 32670510020758816978083085130507043184471273380659243275938904335757337482424.

(** Inverse modulo [m] by the extended Euclidean algorithm; 0 has inverse 0. *)
Fixpoint egcd (k : nat) (a b u v : Z) : Z :=
  match k with
  | O => 0
  | S k' => if b =? 0 then u else egcd k' b (a mod b) v (u - a / b * v)
  end.
Definition inv_mod (m x : Z) : Z :=
  if x mod m =? 0 then 0 else egcd (Z.to_nat 520) m (x mod m) 0 1 mod m.

Inductive point := Inf | Aff (x y : Z).

Definition on_curve (P : point) : Prop :=
  match P with
  | Inf => True
  | Aff x y => 0 <= x < p /\ 0 <= y < p /\ (y * y) mod p = (x * x * x + 7) mod p
  end.

Definition G : point := Aff gx gy.

Definition pneg (P : point) : point :=
  match P with Inf => Inf | Aff x y => Aff x ((- y) mod p) end.

(** third intersection of the line through (x1,y1) with slope [l], reflected *)
Definition chord (l x1 y1 x2 : Z) : point :=
  let x3 := (l * l - x1 - x2) mod p in
  Aff x3 ((l * (x1 - x3) - y1) mod p).

Definition padd (P Q : point) : point :=
  match P, Q with
  | Inf, _ => Q
  | _, Inf => P
  | Aff x1 y1, Aff x2 y2 =>
      if x1 =? x2 then
        if (y1 + y2) mod p =? 0 then Inf
        else chord ((3 * x1 * x1 * inv_mod p (2 * y1)) mod p) x1 y1 x2
      else chord (((y2 - y1) * inv_mod p (x2 - x1)) mod p) x1 y1 x2
  end.

(** k * P, by repeated addition *)
Fixpoint nmul (k : nat) (P : point) : point :=
  match k with O => Inf | S k' => padd P (nmul k' P) end.
Definition smul (k : Z) (P : point) : point := nmul (Z.to_nat k) P.

(** ECDSA verification, SEC 1 section 4.1.4, for the integer [z] derived from the hash *)
Definition ecdsa_valid (Q : point) (z r s : Z) : Prop :=
  1 <= r < n /\ 1 <= s < n /\
  let w := inv_mod n s in
  match padd (smul ((z * w) mod n) G) (smul ((r * w) mod n) Q) with
  | Inf => False
  | Aff x _ => x mod n = r
  end.

(** Big-endian byte strings *)
Definition bytes (l : list Z) : Prop := Forall (fun b => 0 <= b < 256) l.
Fixpoint be_val (l : list Z) : Z :=
  match l with [] => 0 | b :: t => b * 256 ^ Z.of_nat (length t) + be_val t end.
(** the [k]-byte big-endian encoding of [v] *)
Fixpoint be_bytes (k : nat) (v : Z) : list Z :=
  match k with O => [] | S k' => (v / 256 ^ Z.of_nat k') mod 256 :: be_bytes k' v end.

(** SEC 1 section 2.3.3 octet strings of a point *)
Definition sec1_full (x y : Z) : list Z := 4 :: be_bytes 32 x ++ be_bytes 32 y.
Definition sec1_compressed (x y : Z) : list Z := (2 + y mod 2) :: be_bytes 32 x.

(** X.690 DER: the INTEGER content of a non-negative number is the shortest non-empty byte
    string whose first byte is below 128 *)
Definition der_content (v : Z) (c : list Z) : Prop :=
  bytes c /\ be_val c = v /\
  match c with
  | [] => False
  | [a] => a < 128
  | a :: b :: _ => a < 128 /\ (a = 0 -> 128 <= b)
  end.
(** DER SEQUENCE of two INTEGERs with short-form lengths *)
Definition der_sig (r s : Z) (l : list Z) : Prop :=
  exists cr cs, der_content r cr /\ der_content s cs /\
    Z.of_nat (length cr) < 128 /\ Z.of_nat (length cs) < 128 /\
    4 + Z.of_nat (length cr) + Z.of_nat (length cs) < 128 /\
    l = 48 :: (4 + Z.of_nat (length cr) + Z.of_nat (length cs)) ::
        2 :: Z.of_nat (length cr) :: cr ++ 2 :: Z.of_nat (length cs) :: cs.
