(** Model of src/lib.rs: the public API.

    [PublicKey], [SecretKey], [Message], [RecoveryId] are one-field wrappers; the model uses the
    wrapped value directly.  Fixed-size array arguments are lists; the functions on them give
    [None] for any other length (the Rust type system rules it out), and the theorems state the
    length explicitly.  A [&mut self] method returns the new value of [self] with its result. *)
From Verif Require Import Word MField MScalar MGroup MEcmult MEcdsa MDer.

(** src/lib.rs:64 [PublicKey(Affine)] *)
Definition pubkey := affine.
(** src/lib.rs:68 [SecretKey(Scalar)] *)
Definition seckey := scalar.
(** src/lib.rs:83 [Message(pub Scalar)] *)
Definition message := scalar.
(** src/lib.rs:79 [RecoveryId(u8)] *)
Definition recid := Z.
(** src/lib.rs:72-75 [struct Signature] *)
Inductive signature := Sig (r s : scalar).
(** src/lib.rs:73 the public field [r] *)
Definition sig_r (g : signature) := match g with Sig r _ => r end.
(** src/lib.rs:74 the public field [s] *)
Definition sig_s (g : signature) := match g with Sig _ s => s end.

(** src/lib.rs:97-104 [enum PublicKeyFormat] *)
Inductive pkformat := Compressed | Full | Raw.

(** core/src/lib.rs:50-62: sizes and tags *)
Definition FULL_PUBLIC_KEY_SIZE : nat := 65.
(** core/src/lib.rs:58 *)
Definition RAW_PUBLIC_KEY_SIZE : nat := 64.
(** core/src/lib.rs:60 *)
Definition COMPRESSED_PUBLIC_KEY_SIZE : nat := 33.
(** core/src/lib.rs:57 *)
Definition SECRET_KEY_SIZE : nat := 32.
(** core/src/lib.rs:56 *)
Definition MESSAGE_SIZE : nat := 32.
(** core/src/lib.rs:61 *)
Definition SIGNATURE_SIZE : nat := 64.
(** core/src/lib.rs:50 *)
Definition TAG_PUBKEY_EVEN := 2.
(** core/src/lib.rs:51 *)
Definition TAG_PUBKEY_ODD := 3.
(** core/src/lib.rs:52 *)
Definition TAG_PUBKEY_FULL := 4.
(** core/src/lib.rs:53 *)
Definition TAG_PUBKEY_HYBRID_EVEN := 6.
(** core/src/lib.rs:54 *)
Definition TAG_PUBKEY_HYBRID_ODD := 7.

(** [array_ref!(p, off, len)], as at src/lib.rs:169, 172, 201, 533-534, 546-547 (crate arrayref, outside /repo) *)
Definition sub_array (p : list Z) (off len : nat) : list Z := firstn len (skipn off p).

(** outcome of a loop that may run for ever: [Running] after the given number of iterations (the loops at src/lib.rs:432-439 and 831-841) *)
Inductive outcome (A : Type) := Done (a : A) | Panic | Running.
Arguments Done {A} a.
Arguments Panic {A}.
Arguments Running {A}.

Section Build.
Variable dbg : bool.

(** src/lib.rs:107-121 [PublicKey::from_secret_key(_with_context)] *)
Definition pk_from_secret_key (ctx : genctx) (sk : seckey) : option pubkey :=
  let* pj := ecmult_gen dbg ctx sk in
  af_set_gej dbg pj.

(** src/lib.rs:158-190 [PublicKey::parse] *)
Definition pk_parse (p : list Z) : option (result pubkey) :=
  if negb (Nat.eqb (length p) FULL_PUBLIC_KEY_SIZE) then None else
  let* p0 := idx p 0 in
  if negb ((p0 =? TAG_PUBKEY_FULL) || (p0 =? TAG_PUBKEY_HYBRID_EVEN) || (p0 =? TAG_PUBKEY_HYBRID_ODD))
  then Some (Err InvalidPublicKey)
  else
    let* '(x, okx) := f_set_b32 dbg f_default (sub_array p 1 32) in
    if negb okx then Some (Err InvalidPublicKey) else
    let* '(y, oky) := f_set_b32 dbg f_default (sub_array p 33 32) in
    if negb oky then Some (Err InvalidPublicKey) else
    let! elem := af_set_xy x y in
    let* bad := (if (p0 =? TAG_PUBKEY_HYBRID_EVEN) || (p0 =? TAG_PUBKEY_HYBRID_ODD) then
                   let* o := f_is_odd dbg y in
                   Some (negb (Bool.eqb o (p0 =? TAG_PUBKEY_HYBRID_ODD)))
                 else Some false) in
    if bad then Some (Err InvalidPublicKey)
    else if af_inf elem then Some (Err InvalidPublicKey)
    else
      let* v := af_is_valid_var dbg elem in
      if v then Some (Ok elem) else Some (Err InvalidPublicKey).

(** src/lib.rs:192-214 [PublicKey::parse_compressed] (the result of [set_xo_var] is ignored) *)
Definition pk_parse_compressed (p : list Z) : option (result pubkey) :=
  if negb (Nat.eqb (length p) COMPRESSED_PUBLIC_KEY_SIZE) then None else
  let* p0 := idx p 0 in
  if negb ((p0 =? TAG_PUBKEY_EVEN) || (p0 =? TAG_PUBKEY_ODD)) then Some (Err InvalidPublicKey)
  else
    let* '(x, okx) := f_set_b32 dbg f_default (sub_array p 1 32) in
    if negb okx then Some (Err InvalidPublicKey) else
    let* '(elem, _) := af_set_xo_var dbg x (p0 =? TAG_PUBKEY_ODD) in
    if af_inf elem then Some (Err InvalidPublicKey)
    else
      let* v := af_is_valid_var dbg elem in
      if v then Some (Ok elem) else Some (Err InvalidPublicKey).

(** src/lib.rs:123-135: choice of the format *)
Definition pk_format (len : nat) (format : option pkformat) : option pkformat :=
  if Nat.eqb len FULL_PUBLIC_KEY_SIZE then
    match format with None | Some Full => Some Full | _ => None end
  else if Nat.eqb len COMPRESSED_PUBLIC_KEY_SIZE then
    match format with None | Some Compressed => Some Compressed | _ => None end
  else if Nat.eqb len RAW_PUBLIC_KEY_SIZE then
    match format with None | Some Raw => Some Raw | _ => None end
  else None.

(** src/lib.rs:123-156 [PublicKey::parse_slice] *)
Definition pk_parse_slice (p : list Z) (format : option pkformat) : option (result pubkey) :=
  match pk_format (length p) format with
  | None => Some (Err InvalidInputLength)
  | Some Full => pk_parse p
  | Some Raw => pk_parse (TAG_PUBKEY_FULL :: p)
  | Some Compressed => pk_parse_compressed p
  end.

(** src/lib.rs:216-231 [PublicKey::serialize] *)
Definition pk_serialize (k : pubkey) : option (list Z) :=
  dassert dbg (negb (af_inf k)) ;;
  let* x := f_normalize_var dbg (af_x k) in
  let* y := f_normalize_var dbg (af_y k) in
  let* bx := f_b32 dbg x in
  let* b_y := f_b32 dbg y in
  Some (TAG_PUBKEY_FULL :: bx ++ b_y).

(** src/lib.rs:233-251 [PublicKey::serialize_compressed] *)
Definition pk_serialize_compressed (k : pubkey) : option (list Z) :=
  dassert dbg (negb (af_inf k)) ;;
  let* x := f_normalize_var dbg (af_x k) in
  let* y := f_normalize_var dbg (af_y k) in
  let* bx := f_b32 dbg x in
  let* odd := f_is_odd dbg y in
  Some ((if odd then TAG_PUBKEY_ODD else TAG_PUBKEY_EVEN) :: bx).

(** derived [PartialEq for PublicKey], src/lib.rs:62 *)
Definition pk_eq (a b : pubkey) : option bool := af_eq dbg a b.

(** src/lib.rs:253-274 [PublicKey::tweak_add_assign(_with_context)]: new key and result *)
Definition pk_tweak_add_assign (ctx : ecctx) (k : pubkey) (tweak : seckey) : option (pubkey * result unit) :=
  let* a := j_set_ge dbg k in
  let! one := s_from_int 1 in
  let* r := ecmult dbg ctx a one tweak in
  if j_inf r then Some (k, Err TweakOutOfRange)
  else let* k' := af_set_gej dbg r in Some (k', Ok tt).

(** src/lib.rs:276-297 [PublicKey::tweak_mul_assign(_with_context)] *)
Definition pk_tweak_mul_assign (ctx : ecctx) (k : pubkey) (tweak : seckey) : option (pubkey * result unit) :=
  if s_is_zero tweak then Some (k, Err TweakOutOfRange)
  else
    let! zero := s_from_int 0 in
    let* pt := j_set_ge dbg k in
    let* r := ecmult dbg ctx pt tweak zero in
    let* k' := af_set_gej dbg r in
    Some (k', Ok tt).

(** src/lib.rs:299-313 [PublicKey::combine] *)
Fixpoint combine_loop (qj : jac) (keys : list pubkey) : option jac :=
  match keys with
  | [] => Some qj
  | k :: t => let* q := j_add_ge dbg qj k in combine_loop q t
  end.
(** src/lib.rs:299-313 [PublicKey::combine]: the sum, refused if it is at infinity *)
Definition pk_combine (keys : list pubkey) : option (result pubkey) :=
  let* qj := combine_loop j_set_infinity keys in
  if j_inf qj then Some (Err InvalidPublicKey)
  else let* q := af_set_gej dbg qj in Some (Ok q).

(** src/lib.rs:322-332 [TryFrom<Affine> for PublicKey] *)
Definition pk_try_from (a : affine) : option (result pubkey) :=
  if af_inf a then Some (Err InvalidAffine)
  else
    let* v := af_is_valid_var dbg a in
    if negb v then Some (Err InvalidAffine) else Some (Ok a).

(** src/lib.rs:497-507 [TryFrom<Scalar> for SecretKey] *)
Definition sk_try_from (s : scalar) : result seckey :=
  if s_is_zero s then Err InvalidSecretKey else Ok s.

(** src/lib.rs:412-419 [SecretKey::parse] *)
Definition sk_parse (p : list Z) : option (result seckey) :=
  let* '(elem, over) := s_set_b32 dbg p in
  if negb over then Some (sk_try_from elem) else Some (Err InvalidSecretKey).

(** src/lib.rs:421-429 [SecretKey::parse_slice] *)
Definition sk_parse_slice (p : list Z) : option (result seckey) :=
  if negb (Nat.eqb (length p) SECRET_KEY_SIZE) then Some (Err InvalidInputLength)
  else sk_parse p.

(** src/lib.rs:431-440 [SecretKey::random]: [rng i] is the i-th 32-byte block drawn *)
Fixpoint sk_random (fuel : nat) (rng : nat -> list Z) (i : nat) : outcome seckey :=
  match fuel with
  | O => Running
  | S f =>
      match sk_parse (rng i) with
      | None => Panic
      | Some (Ok k) => Done k
      | Some (Err _) => sk_random f rng (S i)
      end
  end.

(** src/lib.rs:442-444 [SecretKey::serialize] *)
Definition sk_serialize (k : seckey) : list Z := s_b32 k.

(** src/lib.rs:446-453 [SecretKey::tweak_add_assign] *)
Definition sk_tweak_add_assign (k tweak : seckey) : option (seckey * result unit) :=
  let* v := s_add dbg k tweak in
  if s_is_zero v then Some (k, Err TweakOutOfRange) else Some (v, Ok tt).

(** src/lib.rs:455-462 [SecretKey::tweak_mul_assign] *)
Definition sk_tweak_mul_assign (k tweak : seckey) : option (seckey * result unit) :=
  if s_is_zero tweak then Some (k, Err TweakOutOfRange)
  else let* v := s_mul dbg k tweak in Some (v, Ok tt).

(** src/lib.rs:464-466 [SecretKey::inv] *)
Definition sk_inv (k : seckey) : option seckey := s_inv dbg k.

(** src/lib.rs:468-470 [SecretKey::clear] *)
Definition sk_clear (k : seckey) : seckey := s_default.

(** src/lib.rs:477-489 [Default for SecretKey] *)
Definition sk_default : option seckey :=
  let* '(elem, over) := s_set_b32 dbg (repeat 0 31 ++ [1]) in
  dassert dbg (negb over) ;;
  dassert dbg (negb (s_is_zero elem)) ;;
  Some elem.

(** src/lib.rs:509-515 [LowerHex for SecretKey] *)
Definition sk_lower_hex (k : seckey) : list Z := s_lower_hex k.

(** src/lib.rs:528-537 [Signature::parse_overflowing] *)
Definition sig_parse_overflowing (p : list Z) : option signature :=
  if negb (Nat.eqb (length p) SIGNATURE_SIZE) then None else
  let* '(r, _) := s_set_b32 dbg (sub_array p 0 32) in
  let* '(s, _) := s_set_b32 dbg (sub_array p 32 32) in
  Some (Sig r s).

(** src/lib.rs:541-554 [Signature::parse_standard] *)
Definition sig_parse_standard (p : list Z) : option (result signature) :=
  if negb (Nat.eqb (length p) SIGNATURE_SIZE) then None else
  let* '(r, overr) := s_set_b32 dbg (sub_array p 0 32) in
  let* '(s, overs) := s_set_b32 dbg (sub_array p 32 32) in
  if overr || overs then Some (Err InvalidSignature) else Some (Ok (Sig r s)).

(** src/lib.rs:561-569 [parse_overflowing_slice] *)
Definition sig_parse_overflowing_slice (p : list Z) : option (result signature) :=
  if negb (Nat.eqb (length p) SIGNATURE_SIZE) then Some (Err InvalidInputLength)
  else let* g := sig_parse_overflowing p in Some (Ok g).

(** src/lib.rs:572-580 [parse_standard_slice] *)
Definition sig_parse_standard_slice (p : list Z) : option (result signature) :=
  if negb (Nat.eqb (length p) SIGNATURE_SIZE) then Some (Err InvalidInputLength)
  else sig_parse_standard p.

(** src/lib.rs:583-601 [parse_der] *)
Definition sig_parse_der (p : list Z) : option (result signature) :=
  let? d := d_read_constructed_sequence p in
  let? '(rlen, d) := d_read_len dbg d in
  if negb (rlen =? remaining_len d) then derr
  else
    let? '(r, d) := d_read_integer dbg d in
    let? '(s, d) := d_read_integer dbg d in
    if negb (remaining_len d =? 0) then derr
    else Some (Ok (Sig r s)).

(** src/lib.rs:607-617 [parse_der_lax] *)
Definition sig_parse_der_lax (p : list Z) : option (result signature) :=
  let? d := d_read_constructed_sequence p in
  let? '(_, d) := d_read_seq_len_lax dbg d in
  let? '(r, d) := d_read_integer_lax dbg d in
  let? '(s, d) := d_read_integer_lax dbg d in
  Some (Ok (Sig r s)).

(** src/lib.rs:636-640 [normalize_s] *)
Definition sig_normalize_s (g : signature) : option signature :=
  if s_is_high (sig_s g) then let* s := s_neg dbg (sig_s g) in Some (Sig (sig_r g) s)
  else Some g.

(** src/lib.rs:644-649 [serialize] *)
Definition sig_serialize (g : signature) : list Z := s_b32 (sig_r g) ++ s_b32 (sig_s g).

(** src/lib.rs:663-669 [integer_slice]: drop a zero byte while another byte below 0x80 follows *)
Fixpoint integer_slice (full : list Z) : list Z :=
  match full with
  | a :: (b :: _) as t => if (a =? 0) && (b <? 128) then integer_slice t else full
  | _ => full
  end.

(** src/lib.rs:653-687 [serialize_der]; the writes into the fixed-size [SignatureArray] are
    written as a concatenation, [as u8] casts kept *)
Definition sig_serialize_der (g : signature) : list Z :=
  let r := integer_slice (0 :: s_b32 (sig_r g)) in
  let s := integer_slice (0 :: s_b32 (sig_s g)) in
  let rl := as_u8 (Z.of_nat (length r)) in
  let sl := as_u8 (Z.of_nat (length s)) in
  [48; as_u8 (4 + rl + sl); 2; rl] ++ r ++ [2; sl] ++ s.

(** src/lib.rs:692-699 [Message::parse] *)
Definition msg_parse (p : list Z) : option message :=
  let* '(m, _) := s_set_b32 dbg p in Some m.

(** src/lib.rs:701-709 [Message::parse_slice] *)
Definition msg_parse_slice (p : list Z) : option (result message) :=
  if negb (Nat.eqb (length p) MESSAGE_SIZE) then Some (Err InvalidInputLength)
  else let* m := msg_parse p in Some (Ok m).

(** src/lib.rs:711-713 [Message::serialize] *)
Definition msg_serialize (m : message) : list Z := s_b32 m.

(** src/lib.rs:718-724 [RecoveryId::parse] *)
Definition rid_parse (p : Z) : result recid := if p <? 4 then Ok p else Err InvalidRecoveryId.

(** src/lib.rs:727-733 [RecoveryId::parse_rpc] *)
Definition rid_parse_rpc (p : Z) : result recid :=
  if (27 <=? p) && (p <? 31) then rid_parse (p - 27) else Err InvalidRecoveryId.

(** src/lib.rs:735-750 [RecoveryId::serialize], [Into<u8>], [Into<i32>] *)
Definition rid_serialize (r : recid) : Z := r.

(** src/lib.rs:752-770 [SharedSecret::new(_with_context)].  The context argument is not used by
    [ecmult_const], hence absent. *)
Definition shared_secret_new (D : list Z -> list Z) (pk : pubkey) (sk : seckey) : option (result (list Z)) :=
  let* inner := ecdh_raw dbg D pk sk in
  match inner with
  | Some v => Some (Ok v)
  | None => Some (Err InvalidSecretKey)
  end.

(** src/lib.rs:779-792 [verify(_with_context)] *)
Definition verify (ctx : ecctx) (m : message) (g : signature) (pk : pubkey) : option bool :=
  verify_raw dbg ctx (sig_r g) (sig_s g) pk m.

(** src/lib.rs:795-814 [recover(_with_context)] *)
Definition recover (ctx : ecctx) (m : message) (g : signature) (rid : recid) : option (result pubkey) :=
  recover_raw dbg ctx (sig_r g) (sig_s g) rid m.

(** src/lib.rs:831-841: the loop of [sign_with_context]; [gen i] is the i-th 32-byte block
    produced by the DRBG *)
Fixpoint sign_loop (fuel : nat) (gen : nat -> list Z) (i : nat) (ctx : genctx) (sk : seckey) (m : message)
  : outcome (signature * recid) :=
  match fuel with
  | O => Running
  | S f =>
      match s_set_b32 dbg (gen i) with
      | None => Panic
      | Some (nonce, overflow) =>
          if negb overflow && negb (s_is_zero nonce) then
            match sign_raw dbg ctx sk m nonce with
            | None => Panic
            | Some (Ok (r, s, rid)) => Done (Sig r s, rid)
            | Some (Err _) => sign_loop f gen (S i) ctx sk m
            end
          else sign_loop f gen (S i) ctx sk m
      end
  end.

(** src/lib.rs:818-850 [sign_with_context].  [drbg seed nonce i] is the i-th 32-byte output of
    [HmacDRBG::<Sha256>::new(seed, nonce, &[])] (external crate, a parameter of the model). *)
Definition sign (drbg : list Z -> list Z -> nat -> list Z) (fuel : nat) (ctx : genctx)
           (m : message) (sk : seckey) : outcome (signature * recid) :=
  sign_loop fuel (drbg (s_b32 sk) (s_b32 m)) 0 ctx sk m.

(** serde, src/lib.rs:334-409.  [enc]/[dec] are the base64 engine (external crate). *)
Definition pk_ser (enc : list Z -> list Z) (human : bool) (k : pubkey) : option (list Z) :=
  let* b := pk_serialize k in Some (if human then enc b else b).

(** src/lib.rs:360-373 [PublicKeyStrVisitor::visit_str] and 389-394 [PublicKeyBytesVisitor::visit_bytes];
    [Err None] is a base64 error, [Err (Some e)] the custom error [e] *)
Definition pk_de (dec : list Z -> option (list Z)) (human : bool) (v : list Z) : option (pubkey + option error) :=
  if human then
    match dec v with
    | None => Some (inr None)
    | Some value =>
        let fmt := if Nat.eqb (length value) 33 then Some Compressed
                   else if Nat.eqb (length value) 64 then Some Raw
                   else if Nat.eqb (length value) 65 then Some Full else None in
        match fmt with
        | None => Some (inr (Some InvalidInputLength))
        | Some f =>
            let* r := pk_parse_slice value (Some f) in
            Some (match r with Ok k => inl k | Err _ => inr (Some InvalidPublicKey) end)
        end
    end
  else
    let* r := pk_parse_slice v None in
    Some (match r with Ok k => inl k | Err _ => inr (Some InvalidPublicKey) end).

End Build.
