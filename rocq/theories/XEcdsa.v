(** MEcdsa.v once more, with two flags instead of one: [fst bd] says whether debug assertions are executed
    ([debug-assertions]), [snd bd] whether an arithmetic overflow panics ([overflow-checks]). Written by tools/gen_builds.py. *)
From Verif Require Import Word MField MScalar MGroup MEcmult MEcdsa XField XScalar XGroup XEcmult.

Section Build.
Variable bd : bool * bool.

(** core/src/ecdsa.rs:16-56 [verify_raw] *)
Definition verify_raw_x (ctx : ecctx) (sigr sigs : scalar) (pubkey : affine) (message : scalar) : option bool :=
  if s_is_zero sigr || s_is_zero sigs then Some false
  else
    let* sn := s_inv_x bd sigs in
    let* u1 := s_mul_x bd sn message in
    let* u2 := s_mul_x bd sn sigr in
    let* pubkeyj := j_set_ge_x bd pubkey in
    let* pr := ecmult_x bd ctx pubkeyj u2 u1 in
    if j_inf pr then Some false
    else
      let! c := s_b32 sigr in
      let* '(xr, _) := f_set_b32_x bd f_default c in
      let* e := j_eq_x_var_x bd pr xr in
      if e then Some true
      else
        let* g := f_ge_x bd xr P_MINUS_ORDER in
        if g then Some false
        else
          let* xr := f_add_x bd xr ORDER_AS_FE in
          let* e := j_eq_x_var_x bd pr xr in
          if e then Some true else Some false.

(** core/src/ecdsa.rs:58-104 [recover_raw] *)
Definition recover_raw_x (ctx : ecctx) (sigr sigs : scalar) (rec_id : Z) (message : scalar)
  : option (result affine) :=
  dassert (fst bd) (rec_id <? 4) ;;
  if s_is_zero sigr || s_is_zero sigs then Some (Err InvalidSignature)
  else
    let! brx := s_b32 sigr in
    let* '(fx, overflow) := f_set_b32_x bd f_default brx in
    dassert (fst bd) overflow ;;
    let* fxo := (if 0 <? Z.land rec_id 2 then
                   let* g := f_ge_x bd fx P_MINUS_ORDER in
                   if g then Some None
                   else let* fx := f_add_x bd fx ORDER_AS_FE in Some (Some fx)
                 else Some (Some fx)) in
    match fxo with
    | None => Some (Err InvalidSignature)
    | Some fx =>
        let* '(x, ok) := af_set_xo_var_x bd fx (0 <? Z.land rec_id 1) in
        if negb ok then Some (Err InvalidSignature)
        else
          let* xj := j_set_ge_x bd x in
          let* rn := s_inv_x bd sigr in
          let* u1 := s_mul_x bd rn message in
          let* u1 := s_neg_x bd u1 in
          let* u2 := s_mul_x bd rn sigs in
          let* qj := ecmult_x bd ctx xj u2 u1 in
          let* pubkey := af_set_gej_var_x bd af_default qj in
          if af_inf pubkey then Some (Err InvalidSignature) else Some (Ok pubkey)
    end.

(** core/src/ecdsa.rs:107-141 [sign_raw] ([clear] of temporaries does not change the result; see MResidue.v) *)
Definition sign_raw_x (ctx : genctx) (seckey message nonce : scalar) : option (result (scalar * scalar * Z)) :=
  let* rp := ecmult_gen_x bd ctx nonce in
  let* r := af_set_gej_x bd rp in
  let* rx := f_normalize_x bd (af_x r) in
  let* ry := f_normalize_x bd (af_y r) in
  let* b := f_b32_x bd rx in
  let* '(sigr, overflow) := s_set_b32_x bd b in
  dassert (fst bd) (negb (s_is_zero sigr)) ;;
  dassert (fst bd) (negb overflow) ;;
  let* odd := f_is_odd_x bd ry in
  let! recid := Z.lor (if overflow then 2 else 0) (if odd then 1 else 0) in
  let* n := s_mul_x bd sigr seckey in
  let* n := s_add_x bd n message in
  let* sigs := s_inv_x bd nonce in
  let* sigs := s_mul_x bd sigs n in
  if s_is_zero sigs then Some (Err InvalidMessage)
  else if s_is_high sigs then
    let* sigs := s_neg_x bd sigs in
    Some (Ok (sigr, sigs, Z.lxor recid 1))
  else Some (Ok (sigr, sigs, recid)).

(** core/src/ecdh.rs:9-36 [ecdh_raw].  [D] is the digest as a function of the bytes it is fed;
    [None] inside the [Some] is the Rust [None]. *)
Definition ecdh_raw_x (D : list Z -> list Z) (point : affine) (s : scalar) : option (option (list Z)) :=
  if s_is_zero s then Some None
  else
    let* res := ecmult_const_x bd point s in
    let* pt := af_set_gej_x bd res in
    let* px := f_normalize_x bd (af_x pt) in
    let* py := f_normalize_x bd (af_y pt) in
    let* x := f_b32_x bd px in
    let* odd := f_is_odd_x bd py in
    let! y := Z.lor 2 (if odd then 1 else 0) in
    Some (Some (D ([y] ++ x))).

End Build.
