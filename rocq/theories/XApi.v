(** MApi.v once more, with two flags instead of one: [fst bd] says whether debug assertions are executed
    ([debug-assertions]), [snd bd] whether an arithmetic overflow panics ([overflow-checks]). Written by tools/gen_builds.py. *)
From Verif Require Import Word MField MScalar MGroup MEcmult MEcdsa MDer MApi XField XScalar XGroup XEcmult XEcdsa XDer.

Section Build.
Variable bd : bool * bool.

(** src/lib.rs:107-121 [PublicKey::from_secret_key(_with_context)] *)
Definition pk_from_secret_key_x (ctx : genctx) (sk : seckey) : option pubkey :=
  let* pj := ecmult_gen_x bd ctx sk in
  af_set_gej_x bd pj.

(** src/lib.rs:158-190 [PublicKey::parse] *)
Definition pk_parse_x (p : list Z) : option (result pubkey) :=
  if negb (Nat.eqb (length p) FULL_PUBLIC_KEY_SIZE) then None else
  let* p0 := idx p 0 in
  if negb ((p0 =? TAG_PUBKEY_FULL) || (p0 =? TAG_PUBKEY_HYBRID_EVEN) || (p0 =? TAG_PUBKEY_HYBRID_ODD))
  then Some (Err InvalidPublicKey)
  else
    let* '(x, okx) := f_set_b32_x bd f_default (sub_array p 1 32) in
    if negb okx then Some (Err InvalidPublicKey) else
    let* '(y, oky) := f_set_b32_x bd f_default (sub_array p 33 32) in
    if negb oky then Some (Err InvalidPublicKey) else
    let! elem := af_set_xy x y in
    let* bad := (if (p0 =? TAG_PUBKEY_HYBRID_EVEN) || (p0 =? TAG_PUBKEY_HYBRID_ODD) then
                   let* o := f_is_odd_x bd y in
                   Some (negb (Bool.eqb o (p0 =? TAG_PUBKEY_HYBRID_ODD)))
                 else Some false) in
    if bad then Some (Err InvalidPublicKey)
    else if af_inf elem then Some (Err InvalidPublicKey)
    else
      let* v := af_is_valid_var_x bd elem in
      if v then Some (Ok elem) else Some (Err InvalidPublicKey).

(** src/lib.rs:192-214 [PublicKey::parse_compressed] (the result of [set_xo_var] is ignored) *)
Definition pk_parse_compressed_x (p : list Z) : option (result pubkey) :=
  if negb (Nat.eqb (length p) COMPRESSED_PUBLIC_KEY_SIZE) then None else
  let* p0 := idx p 0 in
  if negb ((p0 =? TAG_PUBKEY_EVEN) || (p0 =? TAG_PUBKEY_ODD)) then Some (Err InvalidPublicKey)
  else
    let* '(x, okx) := f_set_b32_x bd f_default (sub_array p 1 32) in
    if negb okx then Some (Err InvalidPublicKey) else
    let* '(elem, _) := af_set_xo_var_x bd x (p0 =? TAG_PUBKEY_ODD) in
    if af_inf elem then Some (Err InvalidPublicKey)
    else
      let* v := af_is_valid_var_x bd elem in
      if v then Some (Ok elem) else Some (Err InvalidPublicKey).

(** src/lib.rs:123-156 [PublicKey::parse_slice] *)
Definition pk_parse_slice_x (p : list Z) (format : option pkformat) : option (result pubkey) :=
  match pk_format (length p) format with
  | None => Some (Err InvalidInputLength)
  | Some Full => pk_parse_x p
  | Some Raw => pk_parse_x (TAG_PUBKEY_FULL :: p)
  | Some Compressed => pk_parse_compressed_x p
  end.

(** src/lib.rs:216-231 [PublicKey::serialize] *)
Definition pk_serialize_x (k : pubkey) : option (list Z) :=
  dassert (fst bd) (negb (af_inf k)) ;;
  let* x := f_normalize_var_x bd (af_x k) in
  let* y := f_normalize_var_x bd (af_y k) in
  let* bx := f_b32_x bd x in
  let* b_y := f_b32_x bd y in
  Some (TAG_PUBKEY_FULL :: bx ++ b_y).

(** src/lib.rs:233-251 [PublicKey::serialize_compressed] *)
Definition pk_serialize_compressed_x (k : pubkey) : option (list Z) :=
  dassert (fst bd) (negb (af_inf k)) ;;
  let* x := f_normalize_var_x bd (af_x k) in
  let* y := f_normalize_var_x bd (af_y k) in
  let* bx := f_b32_x bd x in
  let* odd := f_is_odd_x bd y in
  Some ((if odd then TAG_PUBKEY_ODD else TAG_PUBKEY_EVEN) :: bx).

(** derived [PartialEq for PublicKey], src/lib.rs:62 *)
Definition pk_eq_x (a b : pubkey) : option bool := af_eq_x bd a b.

(** src/lib.rs:253-274 [PublicKey::tweak_add_assign(_with_context)]: new key and result *)
Definition pk_tweak_add_assign_x (ctx : ecctx) (k : pubkey) (tweak : seckey) : option (pubkey * result unit) :=
  let* a := j_set_ge_x bd k in
  let! one := s_from_int 1 in
  let* r := ecmult_x bd ctx a one tweak in
  if j_inf r then Some (k, Err TweakOutOfRange)
  else let* k' := af_set_gej_x bd r in Some (k', Ok tt).

(** src/lib.rs:276-297 [PublicKey::tweak_mul_assign(_with_context)] *)
Definition pk_tweak_mul_assign_x (ctx : ecctx) (k : pubkey) (tweak : seckey) : option (pubkey * result unit) :=
  if s_is_zero tweak then Some (k, Err TweakOutOfRange)
  else
    let! zero := s_from_int 0 in
    let* pt := j_set_ge_x bd k in
    let* r := ecmult_x bd ctx pt tweak zero in
    let* k' := af_set_gej_x bd r in
    Some (k', Ok tt).

(** src/lib.rs:299-313 [PublicKey::combine] *)
Fixpoint combine_loop_x (qj : jac) (keys : list pubkey) : option jac :=
  match keys with
  | [] => Some qj
  | k :: t => let* q := j_add_ge_x bd qj k in combine_loop_x q t
  end.

(** src/lib.rs:299-313 [PublicKey::combine]: the sum, refused if it is at infinity *)
Definition pk_combine_x (keys : list pubkey) : option (result pubkey) :=
  let* qj := combine_loop_x j_set_infinity keys in
  if j_inf qj then Some (Err InvalidPublicKey)
  else let* q := af_set_gej_x bd qj in Some (Ok q).

(** src/lib.rs:322-332 [TryFrom<Affine> for PublicKey] *)
Definition pk_try_from_x (a : affine) : option (result pubkey) :=
  if af_inf a then Some (Err InvalidAffine)
  else
    let* v := af_is_valid_var_x bd a in
    if negb v then Some (Err InvalidAffine) else Some (Ok a).

(** src/lib.rs:412-419 [SecretKey::parse] *)
Definition sk_parse_x (p : list Z) : option (result seckey) :=
  let* '(elem, over) := s_set_b32_x bd p in
  if negb over then Some (sk_try_from elem) else Some (Err InvalidSecretKey).

(** src/lib.rs:421-429 [SecretKey::parse_slice] *)
Definition sk_parse_slice_x (p : list Z) : option (result seckey) :=
  if negb (Nat.eqb (length p) SECRET_KEY_SIZE) then Some (Err InvalidInputLength)
  else sk_parse_x p.

(** src/lib.rs:431-440 [SecretKey::random]: [rng i] is the i-th 32-byte block drawn *)
Fixpoint sk_random_x (fuel : nat) (rng : nat -> list Z) (i : nat) : outcome seckey :=
  match fuel with
  | O => Running
  | S f =>
      match sk_parse_x (rng i) with
      | None => Panic
      | Some (Ok k) => Done k
      | Some (Err _) => sk_random_x f rng (S i)
      end
  end.

(** src/lib.rs:446-453 [SecretKey::tweak_add_assign] *)
Definition sk_tweak_add_assign_x (k tweak : seckey) : option (seckey * result unit) :=
  let* v := s_add_x bd k tweak in
  if s_is_zero v then Some (k, Err TweakOutOfRange) else Some (v, Ok tt).

(** src/lib.rs:455-462 [SecretKey::tweak_mul_assign] *)
Definition sk_tweak_mul_assign_x (k tweak : seckey) : option (seckey * result unit) :=
  if s_is_zero tweak then Some (k, Err TweakOutOfRange)
  else let* v := s_mul_x bd k tweak in Some (v, Ok tt).

(** src/lib.rs:464-466 [SecretKey::inv] *)
Definition sk_inv_x (k : seckey) : option seckey := s_inv_x bd k.

(** src/lib.rs:477-489 [Default for SecretKey] *)
Definition sk_default_x : option seckey :=
  let* '(elem, over) := s_set_b32_x bd (repeat 0 31 ++ [1]) in
  dassert (fst bd) (negb over) ;;
  dassert (fst bd) (negb (s_is_zero elem)) ;;
  Some elem.

(** src/lib.rs:528-537 [Signature::parse_overflowing] *)
Definition sig_parse_overflowing_x (p : list Z) : option signature :=
  if negb (Nat.eqb (length p) SIGNATURE_SIZE) then None else
  let* '(r, _) := s_set_b32_x bd (sub_array p 0 32) in
  let* '(s, _) := s_set_b32_x bd (sub_array p 32 32) in
  Some (Sig r s).

(** src/lib.rs:541-554 [Signature::parse_standard] *)
Definition sig_parse_standard_x (p : list Z) : option (result signature) :=
  if negb (Nat.eqb (length p) SIGNATURE_SIZE) then None else
  let* '(r, overr) := s_set_b32_x bd (sub_array p 0 32) in
  let* '(s, overs) := s_set_b32_x bd (sub_array p 32 32) in
  if overr || overs then Some (Err InvalidSignature) else Some (Ok (Sig r s)).

(** src/lib.rs:561-569 [parse_overflowing_slice] *)
Definition sig_parse_overflowing_slice_x (p : list Z) : option (result signature) :=
  if negb (Nat.eqb (length p) SIGNATURE_SIZE) then Some (Err InvalidInputLength)
  else let* g := sig_parse_overflowing_x p in Some (Ok g).

(** src/lib.rs:572-580 [parse_standard_slice] *)
Definition sig_parse_standard_slice_x (p : list Z) : option (result signature) :=
  if negb (Nat.eqb (length p) SIGNATURE_SIZE) then Some (Err InvalidInputLength)
  else sig_parse_standard_x p.

(** src/lib.rs:583-601 [parse_der] *)
Definition sig_parse_der_x (p : list Z) : option (result signature) :=
  let? d := d_read_constructed_sequence p in
  let? '(rlen, d) := d_read_len_x bd d in
  if negb (rlen =? remaining_len d) then derr
  else
    let? '(r, d) := d_read_integer_x bd d in
    let? '(s, d) := d_read_integer_x bd d in
    if negb (remaining_len d =? 0) then derr
    else Some (Ok (Sig r s)).

(** src/lib.rs:607-617 [parse_der_lax] *)
Definition sig_parse_der_lax_x (p : list Z) : option (result signature) :=
  let? d := d_read_constructed_sequence p in
  let? '(_, d) := d_read_seq_len_lax_x bd d in
  let? '(r, d) := d_read_integer_lax_x bd d in
  let? '(s, d) := d_read_integer_lax_x bd d in
  Some (Ok (Sig r s)).

(** src/lib.rs:636-640 [normalize_s] *)
Definition sig_normalize_s_x (g : signature) : option signature :=
  if s_is_high (sig_s g) then let* s := s_neg_x bd (sig_s g) in Some (Sig (sig_r g) s)
  else Some g.

(** src/lib.rs:692-699 [Message::parse] *)
Definition msg_parse_x (p : list Z) : option message :=
  let* '(m, _) := s_set_b32_x bd p in Some m.

(** src/lib.rs:701-709 [Message::parse_slice] *)
Definition msg_parse_slice_x (p : list Z) : option (result message) :=
  if negb (Nat.eqb (length p) MESSAGE_SIZE) then Some (Err InvalidInputLength)
  else let* m := msg_parse_x p in Some (Ok m).

(** src/lib.rs:752-770 [SharedSecret::new(_with_context)].  The context argument is not used by
    [ecmult_const], hence absent. *)
Definition shared_secret_new_x (D : list Z -> list Z) (pk : pubkey) (sk : seckey) : option (result (list Z)) :=
  let* inner := ecdh_raw_x bd D pk sk in
  match inner with
  | Some v => Some (Ok v)
  | None => Some (Err InvalidSecretKey)
  end.

(** src/lib.rs:779-792 [verify(_with_context)] *)
Definition verify_x (ctx : ecctx) (m : message) (g : signature) (pk : pubkey) : option bool :=
  verify_raw_x bd ctx (sig_r g) (sig_s g) pk m.

(** src/lib.rs:795-814 [recover(_with_context)] *)
Definition recover_x (ctx : ecctx) (m : message) (g : signature) (rid : recid) : option (result pubkey) :=
  recover_raw_x bd ctx (sig_r g) (sig_s g) rid m.

(** src/lib.rs:831-841: the loop of [sign_with_context]; [gen i] is the i-th 32-byte block
    produced by the DRBG *)
Fixpoint sign_loop_x (fuel : nat) (gen : nat -> list Z) (i : nat) (ctx : genctx) (sk : seckey) (m : message)
  : outcome (signature * recid) :=
  match fuel with
  | O => Running
  | S f =>
      match s_set_b32_x bd (gen i) with
      | None => Panic
      | Some (nonce, overflow) =>
          if negb overflow && negb (s_is_zero nonce) then
            match sign_raw_x bd ctx sk m nonce with
            | None => Panic
            | Some (Ok (r, s, rid)) => Done (Sig r s, rid)
            | Some (Err _) => sign_loop_x f gen (S i) ctx sk m
            end
          else sign_loop_x f gen (S i) ctx sk m
      end
  end.

(** src/lib.rs:818-850 [sign_with_context].  [drbg seed nonce i] is the i-th 32-byte output of
    [HmacDRBG::<Sha256>::new(seed, nonce, &[])] (external crate, a parameter of the model). *)
Definition sign_x (drbg : list Z -> list Z -> nat -> list Z) (fuel : nat) (ctx : genctx)
           (m : message) (sk : seckey) : outcome (signature * recid) :=
  sign_loop_x fuel (drbg (s_b32 sk) (s_b32 m)) 0 ctx sk m.

(** serde, src/lib.rs:334-409.  [enc]/[dec] are the base64 engine (external crate). *)
Definition pk_ser_x (enc : list Z -> list Z) (human : bool) (k : pubkey) : option (list Z) :=
  let* b := pk_serialize_x k in Some (if human then enc b else b).

(** src/lib.rs:360-373 [PublicKeyStrVisitor::visit_str] and 389-394 [PublicKeyBytesVisitor::visit_bytes];
    [Err None] is a base64 error, [Err (Some e)] the custom error [e] *)
Definition pk_de_x (dec : list Z -> option (list Z)) (human : bool) (v : list Z) : option (pubkey + option error) :=
  if human then
    match dec v with
    | None => Some (inr None)
    | Some value =>
        let fmt := if Nat.eqb (length value) 33 then Some Compressed
                   else if Nat.eqb (length value) 64 then Some Raw
                   else if Nat.eqb (length value) 65 then Some Full else None in
        match fmt with
        | None => Some (inr (Some InvalidInputLength))
        | Some f =>
            let* r := pk_parse_slice_x value (Some f) in
            Some (match r with Ok k => inl k | Err _ => inr (Some InvalidPublicKey) end)
        end
    end
  else
    let* r := pk_parse_slice_x v None in
    Some (match r with Ok k => inl k | Err _ => inr (Some InvalidPublicKey) end).

End Build.
