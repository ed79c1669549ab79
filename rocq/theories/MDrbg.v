(** The deterministic random bit generator used by [sign_with_context] (src/lib.rs:826 and 832): HMAC_DRBG over HMAC-SHA-256.
    The code is in the crates sha2, hmac and hmac-drbg (Cargo.toml:18-19), which are not part of /repo: it is written here from the
    standards they implement (FIPS 180-4, RFC 2104, NIST SP 800-90A section 10.1.2), with the call structure of hmac-drbg 0.3
    ([new], [generate], [update]).  Strings of bytes are lists of integers in [0, 256). *)
From Verif Require Import Word Spec.

(** ** SHA-256 (external crate sha2; src/lib.rs:32 [use sha2::Sha256]) *)
Definition w32 (x : Z) : Z := Z.land x 4294967295.
(** FIPS 180-4, section 3.2 *)
Definition rotr (k x : Z) : Z := Z.lor (Z.shiftr x k) (w32 (Z.shiftl x (32 - k))).
(** FIPS 180-4, section 4.1.2 *)
Definition ch (x y z : Z) : Z := Z.lxor (Z.land x y) (Z.land (4294967295 - x) z).
(** FIPS 180-4, section 4.1.2 *)
Definition maj (x y z : Z) : Z := Z.lxor (Z.lxor (Z.land x y) (Z.land x z)) (Z.land y z).
(** FIPS 180-4, section 4.1.2 *)
Definition bsig0 (x : Z) : Z := Z.lxor (Z.lxor (rotr 2 x) (rotr 13 x)) (rotr 22 x).
(** FIPS 180-4, section 4.1.2 *)
Definition bsig1 (x : Z) : Z := Z.lxor (Z.lxor (rotr 6 x) (rotr 11 x)) (rotr 25 x).
(** FIPS 180-4, section 4.1.2 *)
Definition ssig0 (x : Z) : Z := Z.lxor (Z.lxor (rotr 7 x) (rotr 18 x)) (Z.shiftr x 3).
(** FIPS 180-4, section 4.1.2 *)
Definition ssig1 (x : Z) : Z := Z.lxor (Z.lxor (rotr 17 x) (rotr 19 x)) (Z.shiftr x 10).
(** FIPS 180-4, section 4.2.2 *)
Definition sha_k : list Z :=
  [
   1116352408; 1899447441; 3049323471; 3921009573; 961987163; 1508970993; 2453635748; 2870763221;
   3624381080; 310598401; 607225278; 1426881987; 1925078388; 2162078206; 2614888103; 3248222580;
   3835390401; 4022224774; 264347078; 604807628; 770255983; 1249150122; 1555081692; 1996064986;
   2554220882; 2821834349; 2952996808; 3210313671; 3336571891; 3584528711; 113926993; 338241895;
   666307205; 773529912; 1294757372; 1396182291; 1695183700; 1986661051; 2177026350; 2456956037;
   2730485921; 2820302411; 3259730800; 3345764771; 3516065817; 3600352804; 4094571909; 275423344;
   430227734; 506948616; 659060556; 883997877; 958139571; 1322822218; 1537002063; 1747873779;
   1955562222; 2024104815; 2227730452; 2361852424; 2428436474; 2756734187; 3204031479; 3329325298].
(** FIPS 180-4, section 5.3.3 *)
Definition sha_h : list Z :=
  [
   1779033703; 3144134277; 1013904242; 2773480762; 1359893119; 2600822924; 528734635; 1541459225].
(** One round: [w] holds the next sixteen words of the message schedule. FIPS 180-4, section 6.2.2. *)
Definition sha_round (st : list Z * list Z) (k : Z) : list Z * list Z :=
  match st with
  | ([a; b; c; d; e; f; g; h], (w0 :: w1 :: w2 :: w3 :: w4 :: w5 :: w6 :: w7 :: w8 :: w9 :: w10 :: w11 :: w12 :: w13 :: w14 :: w15 :: nil) as w) =>
      let t1 := h + bsig1 e + ch e f g + k + w0 in
      let t2 := bsig0 a + maj a b c in
      ([w32 (t1 + t2); a; b; c; w32 (d + t1); e; f; g],
       tl w ++ [w32 (ssig1 w14 + w9 + ssig0 w1 + w0)])
  | _ => st
  end.
(** FIPS 180-4, section 5.2.1 *)
Fixpoint words (l : list Z) : list Z :=
  match l with a :: b :: c :: d :: t => be_val [a; b; c; d] :: words t | _ => [] end.
(** FIPS 180-4, section 6.2.2 *)
Definition sha_block (h : list Z) (block : list Z) : list Z :=
  map (fun '(x, y) => w32 (x + y)) (combine h (fst (fold_left sha_round sha_k (h, words block)))).
(** FIPS 180-4, section 6.2.2, one block after the other *)
Fixpoint sha_blocks (k : nat) (h : list Z) (l : list Z) : list Z :=
  match k with O => h | S k' => sha_blocks k' (sha_block h (firstn 64 l)) (skipn 64 l) end.
(** Padding: a one bit, zeros, the length in bits as eight bytes, up to a multiple of 64 bytes. *)
Definition sha_pad (m : list Z) : list Z :=
  let len := Z.of_nat (length m) in
  m ++ [128] ++ repeat 0 (Z.to_nat ((55 - len) mod 64)) ++ be_bytes 8 (8 * len).
(** FIPS 180-4, section 6.2.2: [Sha256] of src/lib.rs:32 *)
Definition sha256 (m : list Z) : list Z :=
  let p := sha_pad m in
  flat_map (be_bytes 4) (sha_blocks (Nat.div (length p) 64) sha_h p).

(** ** HMAC (external crate hmac), for a hash with 64-byte blocks *)
Definition hmac (H : list Z -> list Z) (key m : list Z) : list Z :=
  let k := if Nat.ltb 64 (length key) then H key else key in
  let k := k ++ repeat 0 (64 - length k) in
  H (map (Z.lxor 92) k ++ H (map (Z.lxor 54) k ++ m)).

(** ** HMAC_DRBG (external crate hmac-drbg) over any keyed hash [mac key message]; the state is (K, V) *)
Section Drbg.
Variable mac : list Z -> list Z -> list Z.
(** SP 800-90A, section 10.1.2.2: the crate's [update] *)
Definition drbg_update (st : list Z * list Z) (seed : option (list Z)) : list Z * list Z :=
  let '(k, v) := st in
  let k := mac k (v ++ [0] ++ match seed with Some s => s | None => [] end) in
  let v := mac k v in
  match seed with
  | None => (k, v)
  | Some s => let k := mac k (v ++ [1] ++ s) in (k, mac k v)
  end.
(** src/lib.rs:826 [HmacDRBG::<Sha256>::new(&seckey_b32, &message_b32, &[])] *)
Definition drbg_new (entropy nonce pers : list Z) : list Z * list Z :=
  drbg_update (repeat 0 32, repeat 1 32) (Some (entropy ++ nonce ++ pers)).
(** [generate_to_slice]: whole outputs of the keyed hash until [len] bytes are there, then an update (SP 800-90A, section 10.1.2.5) *)
Fixpoint drbg_fill (fuel : nat) (k v : list Z) (have : list Z) (len : nat) : list Z * list Z :=
  match fuel with
  | O => (v, have)
  | S f => if Nat.ltb (length have) len then let v := mac k v in drbg_fill f k v (have ++ v) len else (v, have)
  end.
(** src/lib.rs:832 [drbg.generate::<U32>(None)] is [drbg_generate st 32] *)
Definition drbg_generate (st : list Z * list Z) (len : nat) : list Z * (list Z * list Z) :=
  let '(k, v) := st in
  let '(v, out) := drbg_fill len k v [] len in
  (firstn len out, drbg_update (k, v) None).
(** src/lib.rs:831-832: the block drawn after [i] others *)
Fixpoint drbg_run (i : nat) (st : list Z * list Z) : list Z :=
  match i with
  | O => fst (drbg_generate st 32)
  | S i' => drbg_run i' (snd (drbg_generate st 32))
  end.
(** src/lib.rs:826-832: the i-th block drawn in [sign_with_context] *)
Definition sign_drbg (seed nonce : list Z) (i : nat) : list Z := drbg_run i (drbg_new seed nonce []).
End Drbg.
