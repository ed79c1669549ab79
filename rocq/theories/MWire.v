(** Client programs that receive everything as byte strings and answer with byte strings: each is a
    sequence of calls to the public API of src/lib.rs, with [?] after every fallible call. *)
From Verif Require Import Word MField MScalar MGroup MEcmult MEcdsa MDer MApi.

Section Build.
Variable dbg : bool.

(** the common shape of the three verifiers: message, signature and key are parsed in this order (src/lib.rs:701-709, 123-156), then [verify_with_context] (779-792) *)
Definition w_verify_with (parse : list Z -> option (result signature)) (ctx : ecctx) (bm bs bp : list Z) : option (result bool) :=
  let? m := msg_parse_slice dbg bm in
  let? g := parse bs in
  let? k := pk_parse_slice dbg bp None in
  let* b := verify dbg ctx m g k in Some (Ok b).
(** [Signature::parse_standard_slice] (src/lib.rs:572-580), [parse_der] (583-601), [parse_der_lax] (607-617) *)
Definition w_verify := w_verify_with (sig_parse_standard_slice dbg).
(** with [Signature::parse_der] (src/lib.rs:583-601) *)
Definition w_verify_der := w_verify_with (sig_parse_der dbg).
(** with [Signature::parse_der_lax] (src/lib.rs:607-617) *)
Definition w_verify_der_lax := w_verify_with (sig_parse_der_lax dbg).

(** [Message::parse_slice], [Signature::parse_standard_slice], [RecoveryId::parse] (src/lib.rs:718-724), [recover_with_context] (795-814), [PublicKey::serialize] (216-231) *)
Definition w_recover (ctx : ecctx) (bm bs : list Z) (v : Z) : option (result (list Z)) :=
  let? m := msg_parse_slice dbg bm in
  let? g := sig_parse_standard_slice dbg bs in
  match rid_parse v with Err e => Some (Err e) | Ok id =>
  let? k := recover dbg ctx m g id in
  let* b := pk_serialize dbg k in Some (Ok b) end.

(** [SecretKey::parse_slice] (src/lib.rs:421-429), [PublicKey::from_secret_key_with_context] (107-121), [PublicKey::serialize] *)
Definition w_public (ctx : genctx) (bk : list Z) : option (result (list Z)) :=
  let? k := sk_parse_slice dbg bk in
  let* q := pk_from_secret_key dbg ctx k in
  let* b := pk_serialize dbg q in Some (Ok b).

(** [PublicKey::parse_slice], [SecretKey::parse_slice], [SharedSecret::new] (src/lib.rs:752-770) *)
Definition w_ecdh (D : list Z -> list Z) (bp bk : list Z) : option (result (list Z)) :=
  let? q := pk_parse_slice dbg bp None in
  let? k := sk_parse_slice dbg bk in
  shared_secret_new dbg D q k.

(** parse a public key and a tweak, [PublicKey::tweak_add_assign_with_context] (src/lib.rs:253-274) or [tweak_mul_assign_with_context] (276-297), serialize *)
Definition w_pub_tweak (f : pubkey -> seckey -> option (pubkey * result unit)) (bp bt : list Z) : option (result (list Z)) :=
  let? q := pk_parse_slice dbg bp None in
  let? t := sk_parse_slice dbg bt in
  let* '(q', r) := f q t in
  match r with Err e => Some (Err e) | Ok _ => let* b := pk_serialize dbg q' in Some (Ok b) end.
(** with [PublicKey::tweak_add_assign_with_context] (src/lib.rs:253-274) *)
Definition w_pub_add (ctx : ecctx) := w_pub_tweak (pk_tweak_add_assign dbg ctx).
(** with [PublicKey::tweak_mul_assign_with_context] (src/lib.rs:276-297) *)
Definition w_pub_mul (ctx : ecctx) := w_pub_tweak (pk_tweak_mul_assign dbg ctx).

(** parse a secret key and a tweak, [SecretKey::tweak_add_assign] (src/lib.rs:446-453) or [tweak_mul_assign] (455-462), serialize *)
Definition w_sec_tweak (f : seckey -> seckey -> option (seckey * result unit)) (bk bt : list Z) : option (result (list Z)) :=
  let? k := sk_parse_slice dbg bk in
  let? t := sk_parse_slice dbg bt in
  let* '(k', r) := f k t in
  match r with Err e => Some (Err e) | Ok _ => Some (Ok (sk_serialize k')) end.
(** with [SecretKey::tweak_add_assign] (src/lib.rs:446-453) *)
Definition w_sec_add := w_sec_tweak (sk_tweak_add_assign dbg).
(** with [SecretKey::tweak_mul_assign] (src/lib.rs:455-462) *)
Definition w_sec_mul := w_sec_tweak (sk_tweak_mul_assign dbg).

(** parse every key of a list, [PublicKey::combine] (src/lib.rs:299-313), serialize *)
Fixpoint w_parse_all (l : list (list Z)) : option (result (list pubkey)) :=
  match l with
  | [] => Some (Ok [])
  | b :: t => let? k := pk_parse_slice dbg b None in let? ks := w_parse_all t in Some (Ok (k :: ks))
  end.
(** [PublicKey::combine] (src/lib.rs:299-313) on the parsed keys, then [serialize] (216-231) *)
Definition w_combine (l : list (list Z)) : option (result (list Z)) :=
  let? ks := w_parse_all l in
  let? k := pk_combine dbg ks in
  let* b := pk_serialize dbg k in Some (Ok b).

(** parse a message and a secret key, [sign_with_context] (src/lib.rs:818-850), serialize the signature (644-651) and the recovery id (735-737) *)
Definition w_sign (drbg : list Z -> list Z -> nat -> list Z) (fuel : nat) (ctx : genctx) (bm bk : list Z) : outcome (result (list Z * Z)) :=
  match msg_parse_slice dbg bm with
  | None => Panic
  | Some (Err e) => Done (Err e)
  | Some (Ok m) =>
      match sk_parse_slice dbg bk with
      | None => Panic
      | Some (Err e) => Done (Err e)
      | Some (Ok k) =>
          match sign dbg drbg fuel ctx m k with
          | Done (g, id) => Done (Ok (sig_serialize g, rid_serialize id))
          | Panic => Panic
          | Running => Running
          end
      end
  end.
End Build.
