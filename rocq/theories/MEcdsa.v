(** Model of core/src/ecdsa.rs and core/src/ecdh.rs. *)
From Verif Require Import Word MField MScalar MGroup MEcmult.

(** core/src/ecdsa.rs:9 [P_MINUS_ORDER] *)
Definition P_MINUS_ORDER : field :=
  f_new 0 0 0 1 1162945305 1354194884 1076732274 801749742.
(** core/src/ecdsa.rs:11-13 [ORDER_AS_FE] *)
Definition ORDER_AS_FE : field :=
  f_new 4294967295 4294967295 4294967295 4294967294 3132021990 2940772411 3218235020 3493216577.

Section Build.
Variable dbg : bool.

(** core/src/ecdsa.rs:16-56 [verify_raw] *)
Definition verify_raw (ctx : ecctx) (sigr sigs : scalar) (pubkey : affine) (message : scalar) : option bool :=
  if s_is_zero sigr || s_is_zero sigs then Some false
  else
    let* sn := s_inv dbg sigs in
    let* u1 := s_mul dbg sn message in
    let* u2 := s_mul dbg sn sigr in
    let* pubkeyj := j_set_ge dbg pubkey in
    let* pr := ecmult dbg ctx pubkeyj u2 u1 in
    if j_inf pr then Some false
    else
      let! c := s_b32 sigr in
      let* '(xr, _) := f_set_b32 dbg f_default c in
      let* e := j_eq_x_var dbg pr xr in
      if e then Some true
      else
        let* g := f_ge dbg xr P_MINUS_ORDER in
        if g then Some false
        else
          let* xr := f_add dbg xr ORDER_AS_FE in
          let* e := j_eq_x_var dbg pr xr in
          if e then Some true else Some false.

(** core/src/ecdsa.rs:58-104 [recover_raw] *)
Definition recover_raw (ctx : ecctx) (sigr sigs : scalar) (rec_id : Z) (message : scalar)
  : option (result affine) :=
  dassert dbg (rec_id <? 4) ;;
  if s_is_zero sigr || s_is_zero sigs then Some (Err InvalidSignature)
  else
    let! brx := s_b32 sigr in
    let* '(fx, overflow) := f_set_b32 dbg f_default brx in
    dassert dbg overflow ;;
    let* fxo := (if 0 <? Z.land rec_id 2 then
                   let* g := f_ge dbg fx P_MINUS_ORDER in
                   if g then Some None
                   else let* fx := f_add dbg fx ORDER_AS_FE in Some (Some fx)
                 else Some (Some fx)) in
    match fxo with
    | None => Some (Err InvalidSignature)
    | Some fx =>
        let* '(x, ok) := af_set_xo_var dbg fx (0 <? Z.land rec_id 1) in
        if negb ok then Some (Err InvalidSignature)
        else
          let* xj := j_set_ge dbg x in
          let* rn := s_inv dbg sigr in
          let* u1 := s_mul dbg rn message in
          let* u1 := s_neg dbg u1 in
          let* u2 := s_mul dbg rn sigs in
          let* qj := ecmult dbg ctx xj u2 u1 in
          let* pubkey := af_set_gej_var dbg af_default qj in
          if af_inf pubkey then Some (Err InvalidSignature) else Some (Ok pubkey)
    end.

(** core/src/ecdsa.rs:107-141 [sign_raw] ([clear] of temporaries does not change the result; see MResidue.v) *)
Definition sign_raw (ctx : genctx) (seckey message nonce : scalar) : option (result (scalar * scalar * Z)) :=
  let* rp := ecmult_gen dbg ctx nonce in
  let* r := af_set_gej dbg rp in
  let* rx := f_normalize dbg (af_x r) in
  let* ry := f_normalize dbg (af_y r) in
  let* b := f_b32 dbg rx in
  let* '(sigr, overflow) := s_set_b32 dbg b in
  dassert dbg (negb (s_is_zero sigr)) ;;
  dassert dbg (negb overflow) ;;
  let* odd := f_is_odd dbg ry in
  let! recid := Z.lor (if overflow then 2 else 0) (if odd then 1 else 0) in
  let* n := s_mul dbg sigr seckey in
  let* n := s_add dbg n message in
  let* sigs := s_inv dbg nonce in
  let* sigs := s_mul dbg sigs n in
  if s_is_zero sigs then Some (Err InvalidMessage)
  else if s_is_high sigs then
    let* sigs := s_neg dbg sigs in
    Some (Ok (sigr, sigs, Z.lxor recid 1))
  else Some (Ok (sigr, sigs, recid)).

(** core/src/ecdh.rs:9-36 [ecdh_raw].  [D] is the digest as a function of the bytes it is fed;
    [None] inside the [Some] is the Rust [None]. *)
Definition ecdh_raw (D : list Z -> list Z) (point : affine) (s : scalar) : option (option (list Z)) :=
  if s_is_zero s then Some None
  else
    let* res := ecmult_const dbg point s in
    let* pt := af_set_gej dbg res in
    let* px := f_normalize dbg (af_x pt) in
    let* py := f_normalize dbg (af_y pt) in
    let* x := f_b32 dbg px in
    let* odd := f_is_odd dbg py in
    let! y := Z.lor 2 (if odd then 1 else 0) in
    Some (Some (D ([y] ++ x))).

End Build.
