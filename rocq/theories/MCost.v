(** The work done by the functions on points: the number of point doublings, point additions, field
    inversions, field square roots and scalar inversions.

    The functions once more, each returning its result together with the number of calls made of these
    five.  All other work per call (recodings, table look-ups, multiplications and normalizations) is
    bounded by a constant or by the lengths of the inputs and is not counted.  A call on the point at
    infinity, which returns at once, is counted like any other. *)
From Verif Require Import Word MField MScalar MGroup MEcmult MEcdsa MApi.

(** numbers of: doublings, additions, field inversions, square roots, scalar inversions (the functions called [double_var], [add_var], [add_ge], [add_ge_var], [add_zinv_var] in core/src/group.rs:337-663, [inv], [inv_var], [sqrt] in core/src/field.rs:1466-1630, [inv] in core/src/scalar.rs:768-922) *)
Record cost := Cost { c_dbl : Z; c_add : Z; c_inv : Z; c_sqrt : Z; c_sinv : Z }.
(** no code of its own: nothing counted *)
Definition cost0 : cost := Cost 0 0 0 0 0.
(** no code of its own: the sum of two counts *)
Definition cadd (a b : cost) : cost :=
  Cost (c_dbl a + c_dbl b) (c_add a + c_add b) (c_inv a + c_inv b) (c_sqrt a + c_sqrt b) (c_sinv a + c_sinv b).

(** no code of its own: sequencing, the counts added *)
Definition bindc {A B} (m : option (A * cost)) (f : A -> option (B * cost)) : option (B * cost) :=
  match m with
  | Some (a, c) => match f a with Some (b, c') => Some (b, cadd c c') | None => None end
  | None => None
  end.
(** [let+ x := e in b]: as [let*], adding the costs. *)
Notation "'let+' x ':=' e 'in' b" := (bindc e (fun x => b))
  (at level 200, x binder, e at level 100, b at level 200, right associativity).
(** A call that counts [c]. (An instrument; no lines in /repo.) *)
Definition call {A} (c : cost) (o : option A) : option (A * cost) := option_map (fun a => (a, c)) o.
(** no code of its own: a call that counts nothing *)
Definition free {A} (o : option A) := call cost0 o.
(** no code of its own: a value that costs nothing *)
Definition ret {A} (a : A) : option (A * cost) := Some (a, cost0).
(** no code of its own: counts a doubling *)
Definition adbl {A} (o : option A) := call (Cost 1 0 0 0 0) o.
(** no code of its own: counts an addition *)
Definition anadd {A} (o : option A) := call (Cost 0 1 0 0 0) o.
(** no code of its own: counts a field inversion *)
Definition aninv {A} (o : option A) := call (Cost 0 0 1 0 0) o.
(** no code of its own: counts a field square root *)
Definition asqrt {A} (o : option A) := call (Cost 0 0 0 1 0) o.
(** no code of its own: counts a scalar inversion *)
Definition asinv {A} (o : option A) := call (Cost 0 0 0 0 1) o.

Section Build.
Variable dbg : bool.

(** core/src/group.rs:166-177 [set_gej]: one field inversion *)
Definition af_set_gej_c (a : jac) : option (affine * cost) := aninv (af_set_gej dbg a).
(** core/src/group.rs:185-199 [set_gej_var]: one field inversion, none at infinity *)
Definition af_set_gej_var_c (r : affine) (a : jac) : option (affine * cost) :=
  if j_inf a then free (af_set_gej_var dbg r a) else aninv (af_set_gej_var dbg r a).

(** core/src/ecmult.rs:281-283 *)
Fixpoint odd_mult_loop_c (k : nat) (prev : jac) (d_ge : affine) : option ((list jac * list field) * cost) :=
  match k with
  | O => ret ([], [])
  | S k' =>
      let+ '(nx, z) := anadd (j_add_ge_var dbg prev d_ge (Some f_default)) in
      let+ '(pj, zr) := odd_mult_loop_c k' nx d_ge in
      ret (nx :: pj, match z with Some f => f | None => f_default end :: zr)
  end.
(** core/src/ecmult.rs:261-287 [odd_multiples_table] *)
Definition odd_multiples_table_c (n : nat) (a : jac) : option ((list jac * list field) * cost) :=
  let+ _ := free (dassert dbg (negb (Nat.eqb n 0))) in
  let+ _ := free (dassert dbg (negb (j_inf a))) in
  let+ d := adbl (j_double dbg a) in
  let d_ge := Af (j_x d) (j_y d) false in
  let+ a_ge := free (af_set_gej_zinv dbg a (j_z d)) in
  match n with
  | O => None
  | S k =>
      let p0 := Ja (af_x a_ge) (af_y a_ge) (j_z a) false in
      let+ '(pj, zr) := odd_mult_loop_c k p0 d_ge in
      let+ prej := free (scale_last dbg (p0 :: pj) (j_z d)) in
      ret (prej, j_z d :: zr)
  end.
(** core/src/ecmult.rs:289-299 [odd_multiples_table_globalz_windowa] *)
Definition odd_multiples_table_globalz_windowa_c (a : jac) : option ((list affine * field) * cost) :=
  let+ '(prej, zr) := odd_multiples_table_c ECMULT_TABLE_SIZE_A a in
  free (globalz_set_table_gej dbg prej zr).

(** core/src/ecmult.rs:469-486 *)
Fixpoint ecmult_loop_c (k : nat) (pre_g : list astorage) (pre_a : list affine) (z : field)
         (wnaf_na wnaf_ng : list Z) (bits_na bits_ng : Z) (r : jac) : option (jac * cost) :=
  match k with
  | O => ret r
  | S k' =>
      let i := Z.of_nat k' in
      let+ r := adbl (j_double dbg r) in
      let+ n := free (idx wnaf_na i) in
      let+ r := (if (i <? bits_na) && negb (n =? 0) then
                   let+ t := free (table_get_ge dbg pre_a n WINDOW_A) in anadd (j_add_ge_v dbg r t)
                 else ret r) in
      let+ n := free (idx wnaf_ng i) in
      let+ r := (if (i <? bits_ng) && negb (n =? 0) then
                   let+ t := free (table_get_ge_storage dbg pre_g n WINDOW_G) in anadd (j_add_zinv_var dbg r t z)
                 else ret r) in
      ecmult_loop_c k' pre_g pre_a z wnaf_na wnaf_ng bits_na bits_ng r
  end.
(** core/src/ecmult.rs:454-489 [ecmult] *)
Definition ecmult_c (ctx : ecctx) (a : jac) (na ng : scalar) : option (jac * cost) :=
  let '(Ctx pre_g) := ctx in
  let+ '(wnaf_na, bits_na) := free (ecmult_wnaf dbg 256 na WINDOW_A) in
  let+ '(pre_a, z) := odd_multiples_table_globalz_windowa_c a in
  let+ '(wnaf_ng, bits_ng) := free (ecmult_wnaf dbg 256 ng WINDOW_G) in
  let bits := if bits_na <? bits_ng then bits_ng else bits_na in
  let+ r := ecmult_loop_c (Z.to_nat bits) pre_g pre_a z wnaf_na wnaf_ng bits_na bits_ng j_set_infinity in
  if j_inf r then ret r
  else let+ zr := free (f_mul dbg (j_z r) z) in ret (Ja (j_x r) (j_y r) zr false).

(** core/src/ecmult.rs:526-529 *)
Fixpoint double_nonzero_n_c (k : nat) (r : jac) : option (jac * cost) :=
  match k with
  | O => ret r
  | S k' => let+ r := adbl (j_double_nonzero_in_place dbg r r) in double_nonzero_n_c k' r
  end.
(** core/src/ecmult.rs:525-535 *)
Fixpoint ecmult_const_loop_c (k : nat) (pre_a : list affine) (wnaf : list Z) (tmpa : affine) (r : jac) : option (jac * cost) :=
  match k with
  | O => ret r
  | S k' =>
      let+ r := double_nonzero_n_c 4 r in
      let+ n := free (idx wnaf (Z.of_nat k')) in
      let+ tmpa := free (table_get_ge_const dbg tmpa pre_a n WINDOW_A) in
      let+ _ := free (dassert dbg (negb (n =? 0))) in
      let+ r := anadd (j_add_ge dbg r tmpa) in
      ecmult_const_loop_c k' pre_a wnaf tmpa r
  end.
(** core/src/ecmult.rs:491-557 [ecmult_const] *)
Definition ecmult_const_c (a : affine) (sc : scalar) : option (jac * cost) :=
  let+ '(wnaf, skew) := free (ecmult_wnaf_const dbg 65 sc (WINDOW_A - 1)) in
  let+ r := free (j_set_ge dbg a) in
  let+ '(pre_a, z) := odd_multiples_table_globalz_windowa_c r in
  let+ pre_a := free (mapo (fun p => let* y := f_normalize_weak dbg (af_y p) in
                                     Some (Af (af_x p) y (af_inf p))) pre_a) in
  let+ i := free (idx wnaf 64) in
  let+ _ := free (dassert dbg (negb (i =? 0))) in
  let+ tmpa := free (table_get_ge_const dbg af_default pre_a i WINDOW_A) in
  let+ r := free (j_set_ge dbg tmpa) in
  let+ r := ecmult_const_loop_c 64 pre_a wnaf tmpa r in
  let+ rz := free (f_mul dbg (j_z r) z) in
  let r := Ja (j_x r) (j_y r) rz (j_inf r) in
  let+ tmpj := free (j_set_ge dbg a) in
  let+ tmpj := adbl (j_double dbg tmpj) in
  let+ correction := af_set_gej_c tmpj in
  let+ c1 := free (af_to_storage dbg a) in
  let+ a2 := free (af_to_storage dbg correction) in
  let c1 := as_cmov c1 a2 (skew =? 2) in
  let+ correction := free (af_neg dbg (af_from_storage c1)) in
  anadd (j_add_ge dbg r correction).

(** core/src/ecmult.rs:568-580 *)
Fixpoint ecmult_gen_loop_c (prec : list (list astorage)) (j : Z) (gnb : scalar) (adds : astorage)
         (r : jac) : option (jac * cost) :=
  match prec with
  | [] => ret r
  | row :: t =>
      let+ bits := free (s_bits dbg gnb (j * 4) 4) in
      let adds := gen_select row 0 bits adds in
      let+ r := anadd (j_add_ge dbg r (af_from_storage adds)) in
      ecmult_gen_loop_c t (j + 1) gnb adds r
  end.
(** core/src/ecmult.rs:560-582 [ecmult_gen] *)
Definition ecmult_gen_c (ctx : genctx) (gn : scalar) : option (jac * cost) :=
  let '(GCtx prec blind initial) := ctx in
  let+ gnb := free (s_add dbg gn blind) in
  ecmult_gen_loop_c prec 0 gnb as_default initial.

(** core/src/ecdsa.rs:16-56 [verify_raw] *)
Definition verify_raw_c (ctx : ecctx) (sigr sigs : scalar) (pubkey : affine) (message : scalar) : option (bool * cost) :=
  if s_is_zero sigr || s_is_zero sigs then ret false
  else
    let+ sn := asinv (s_inv dbg sigs) in
    let+ u1 := free (s_mul dbg sn message) in
    let+ u2 := free (s_mul dbg sn sigr) in
    let+ pubkeyj := free (j_set_ge dbg pubkey) in
    let+ pr := ecmult_c ctx pubkeyj u2 u1 in
    if j_inf pr then ret false
    else
      let+ '(xr, _) := free (f_set_b32 dbg f_default (s_b32 sigr)) in
      let+ e := free (j_eq_x_var dbg pr xr) in
      if e then ret true
      else
        let+ g := free (f_ge dbg xr P_MINUS_ORDER) in
        if g then ret false
        else
          let+ xr := free (f_add dbg xr ORDER_AS_FE) in
          let+ e := free (j_eq_x_var dbg pr xr) in
          if e then ret true else ret false.

(** core/src/ecdsa.rs:58-104 [recover_raw]; [set_xo_var] takes one square root *)
Definition recover_raw_c (ctx : ecctx) (sigr sigs : scalar) (rec_id : Z) (message : scalar)
  : option (result affine * cost) :=
  let+ _ := free (dassert dbg (rec_id <? 4)) in
  if s_is_zero sigr || s_is_zero sigs then ret (Err InvalidSignature)
  else
    let+ '(fx, overflow) := free (f_set_b32 dbg f_default (s_b32 sigr)) in
    let+ _ := free (dassert dbg overflow) in
    let+ fxo := free (if 0 <? Z.land rec_id 2 then
                        let* g := f_ge dbg fx P_MINUS_ORDER in
                        if g then Some None
                        else let* fx := f_add dbg fx ORDER_AS_FE in Some (Some fx)
                      else Some (Some fx)) in
    match fxo with
    | None => ret (Err InvalidSignature)
    | Some fx =>
        let+ '(x, ok) := asqrt (af_set_xo_var dbg fx (0 <? Z.land rec_id 1)) in
        if negb ok then ret (Err InvalidSignature)
        else
          let+ xj := free (j_set_ge dbg x) in
          let+ rn := asinv (s_inv dbg sigr) in
          let+ u1 := free (s_mul dbg rn message) in
          let+ u1 := free (s_neg dbg u1) in
          let+ u2 := free (s_mul dbg rn sigs) in
          let+ qj := ecmult_c ctx xj u2 u1 in
          let+ pubkey := af_set_gej_var_c af_default qj in
          if af_inf pubkey then ret (Err InvalidSignature) else ret (Ok pubkey)
    end.

(** core/src/ecdsa.rs:107-141 [sign_raw] *)
Definition sign_raw_c (ctx : genctx) (seckey message nonce : scalar) : option (result (scalar * scalar * Z) * cost) :=
  let+ rp := ecmult_gen_c ctx nonce in
  let+ r := af_set_gej_c rp in
  let+ rx := free (f_normalize dbg (af_x r)) in
  let+ ry := free (f_normalize dbg (af_y r)) in
  let+ b := free (f_b32 dbg rx) in
  let+ '(sigr, overflow) := free (s_set_b32 dbg b) in
  let+ _ := free (dassert dbg (negb (s_is_zero sigr))) in
  let+ _ := free (dassert dbg (negb overflow)) in
  let+ odd := free (f_is_odd dbg ry) in
  let recid := Z.lor (if overflow then 2 else 0) (if odd then 1 else 0) in
  let+ n := free (s_mul dbg sigr seckey) in
  let+ n := free (s_add dbg n message) in
  let+ sigs := asinv (s_inv dbg nonce) in
  let+ sigs := free (s_mul dbg sigs n) in
  if s_is_zero sigs then ret (Err InvalidMessage)
  else if s_is_high sigs then
    let+ sigs := free (s_neg dbg sigs) in
    ret (Ok (sigr, sigs, Z.lxor recid 1))
  else ret (Ok (sigr, sigs, recid)).

(** src/lib.rs:831-841: the loop of [sign_with_context]; [c] is the cost so far *)
Fixpoint sign_loop_c (fuel : nat) (gen : nat -> list Z) (i : nat) (ctx : genctx) (sk : seckey) (m : message) (c : cost)
  : outcome ((signature * recid) * cost) :=
  match fuel with
  | O => Running
  | S f =>
      match s_set_b32 dbg (gen i) with
      | None => Panic
      | Some (nonce, overflow) =>
          if negb overflow && negb (s_is_zero nonce) then
            match sign_raw_c ctx sk m nonce with
            | None => Panic
            | Some (Ok (r, s, rid), c') => Done ((Sig r s, rid), cadd c c')
            | Some (Err _, c') => sign_loop_c f gen (S i) ctx sk m (cadd c c')
            end
          else sign_loop_c f gen (S i) ctx sk m c
      end
  end.
(** src/lib.rs:818-850 [sign_with_context] *)
Definition sign_c (drbg : list Z -> list Z -> nat -> list Z) (fuel : nat) (ctx : genctx) (m : message) (sk : seckey)
  : outcome ((signature * recid) * cost) :=
  sign_loop_c fuel (drbg (s_b32 sk) (s_b32 m)) 0 ctx sk m cost0.

(** core/src/ecdh.rs:9-36 [ecdh_raw] *)
Definition ecdh_raw_c (D : list Z -> list Z) (point : affine) (s : scalar) : option (option (list Z) * cost) :=
  if s_is_zero s then ret None
  else
    let+ res := ecmult_const_c point s in
    let+ pt := af_set_gej_c res in
    let+ px := free (f_normalize dbg (af_x pt)) in
    let+ py := free (f_normalize dbg (af_y pt)) in
    let+ x := free (f_b32 dbg px) in
    let+ odd := free (f_is_odd dbg py) in
    let y := Z.lor 2 (if odd then 1 else 0) in
    ret (Some (D ([y] ++ x))).

(** src/lib.rs:107-121 [PublicKey::from_secret_key(_with_context)] *)
Definition pk_from_secret_key_c (ctx : genctx) (sk : seckey) : option (pubkey * cost) :=
  let+ pj := ecmult_gen_c ctx sk in
  af_set_gej_c pj.
(** src/lib.rs:253-274 [PublicKey::tweak_add_assign(_with_context)] *)
Definition pk_tweak_add_assign_c (ctx : ecctx) (k : pubkey) (tweak : seckey) : option ((pubkey * result unit) * cost) :=
  let+ a := free (j_set_ge dbg k) in
  let one := s_from_int 1 in
  let+ r := ecmult_c ctx a one tweak in
  if j_inf r then ret (k, Err TweakOutOfRange)
  else let+ k' := af_set_gej_c r in ret (k', Ok tt).
(** src/lib.rs:276-297 [PublicKey::tweak_mul_assign(_with_context)] *)
Definition pk_tweak_mul_assign_c (ctx : ecctx) (k : pubkey) (tweak : seckey) : option ((pubkey * result unit) * cost) :=
  if s_is_zero tweak then ret (k, Err TweakOutOfRange)
  else
    let zero := s_from_int 0 in
    let+ pt := free (j_set_ge dbg k) in
    let+ r := ecmult_c ctx pt tweak zero in
    let+ k' := af_set_gej_c r in
    ret (k', Ok tt).
(** src/lib.rs:299-313 [PublicKey::combine] *)
Fixpoint combine_loop_c (qj : jac) (keys : list pubkey) : option (jac * cost) :=
  match keys with
  | [] => ret qj
  | k :: t => let+ q := anadd (j_add_ge dbg qj k) in combine_loop_c q t
  end.
(** src/lib.rs:299-313 [PublicKey::combine] *)
Definition pk_combine_c (keys : list pubkey) : option (result pubkey * cost) :=
  let+ qj := combine_loop_c j_set_infinity keys in
  if j_inf qj then ret (Err InvalidPublicKey)
  else let+ q := af_set_gej_c qj in ret (Ok q).
End Build.
