(** What the functions on secrets leave in their local variables.

    The functions once more, each returning its result together with the values its named local
    variables hold when it returns.  A frame is not erased on return, so these values stay in memory
    until something else is written there.

    [keep] says what becomes of a store that nothing reads afterwards ([nonce = Scalar::default()],
    the assignments of [Field::clear], [bits = 0]): [true], it is executed as written; [false], the
    compiler removes it, as it may.  A volatile write ([Scalar::clear], core/src/scalar.rs:30-34) is
    executed in both cases.

    Not modelled: copies made by the compiler (registers, spills, moved values), the frames of the
    field and scalar operations, the state of the generator of nonces, and when the memory is reused. *)
From Verif Require Import Word MField MScalar MGroup MEcmult MEcdsa MCore MApi.

Section Build.
Variables (dbg keep : bool).

(** A store nothing reads afterwards: the new value, or the old one if the store is removed. (src/lib.rs:845, core/src/field.rs:521-525, core/src/ecmult.rs:577) *)
Definition dead {A} (old new : A) : A := if keep then new else old.

(** core/src/ecmult.rs:561-567: the locals of [ecmult_gen] ([bits]: of its last iteration; [r] is the caller's) *)
Record gen_locals := GenL { gl_adds : astorage; gl_gnb : scalar; gl_add : affine; gl_bits : Z }.

(** core/src/ecmult.rs:568-578: the loop, with [adds], [add] and [bits] at its end *)
Fixpoint ecmult_gen_loop_r (prec : list (list astorage)) (j : Z) (gnb : scalar) (adds : astorage) (add : affine) (b : Z)
         (r : jac) : option (jac * astorage * affine * Z) :=
  match prec with
  | [] => Some (r, adds, add, b)
  | row :: t =>
      let* bits := s_bits dbg gnb (j * 4) 4 in
      let! adds := gen_select row 0 bits adds in
      let! add := af_from_storage adds in
      let* r := j_add_ge dbg r add in
      ecmult_gen_loop_r t (j + 1) gnb adds add (dead bits 0) r
  end.
(** core/src/ecmult.rs:560-582 [ecmult_gen]; [add.clear()] is plain stores, [gnb.clear()] a volatile write *)
Definition ecmult_gen_r (ctx : genctx) (gn : scalar) : option (jac * gen_locals) :=
  let '(GCtx prec blind initial) := ctx in
  let* gnb := s_add dbg gn blind in
  let* '(r, adds, add, bits) := ecmult_gen_loop_r prec 0 gnb as_default (Af f_default f_default false) 0 initial in
  Some (r, GenL adds (s_clear gnb) (dead add (af_clear add)) bits).

(** core/src/ecdsa.rs:113-128: the locals of [sign_raw], and the frame left by the call of [ecmult_gen] *)
Record raw_locals := RawL { rl_rp : jac; rl_r : affine; rl_b : list Z; rl_sigr : scalar; rl_overflow : bool;
  rl_recid : Z; rl_n : scalar; rl_sigs : scalar; rl_gen : gen_locals }.

(** core/src/ecdsa.rs:107-141 [sign_raw]; [rp.clear()] and [r.clear()] are plain stores, [n.clear()] a volatile write *)
Definition sign_raw_r (ctx : genctx) (seckey message nonce : scalar) : option (result (scalar * scalar * Z) * raw_locals) :=
  let* '(rp, g) := ecmult_gen_r ctx nonce in
  let* r := af_set_gej dbg rp in
  let* rx := f_normalize dbg (af_x r) in
  let* ry := f_normalize dbg (af_y r) in
  let! r := Af rx ry (af_inf r) in
  let* b := f_b32 dbg rx in
  let* '(sigr, overflow) := s_set_b32 dbg b in
  dassert dbg (negb (s_is_zero sigr)) ;;
  dassert dbg (negb overflow) ;;
  let* odd := f_is_odd dbg ry in
  let! recid := Z.lor (if overflow then 2 else 0) (if odd then 1 else 0) in
  let* n := s_mul dbg sigr seckey in
  let* n := s_add dbg n message in
  let* sigs := s_inv dbg nonce in
  let* sigs := s_mul dbg sigs n in
  let! n := s_clear n in
  let! rp := dead rp (j_clear rp) in
  let! r := dead r (af_clear r) in
  if s_is_zero sigs then Some (Err InvalidMessage, RawL rp r b sigr overflow recid n sigs g)
  else if s_is_high sigs then
    let* sigs := s_neg dbg sigs in
    let! recid := Z.lxor recid 1 in
    Some (Ok (sigr, sigs, recid), RawL rp r b sigr overflow recid n sigs g)
  else Some (Ok (sigr, sigs, recid), RawL rp r b sigr overflow recid n sigs g).

(** src/lib.rs:823-832: the locals of [sign_with_context] without the generator ([generated]: of the last
    iteration), and the frame left by the last call of [sign_raw] *)
Record sign_locals := SignL { sl_seckey_b32 : list Z; sl_message_b32 : list Z; sl_nonce : scalar; sl_overflow : bool;
  sl_generated : list Z; sl_result : scalar * scalar * Z; sl_raw : raw_locals }.

(** src/lib.rs:831-841: the loop; returns [nonce], [overflow], [generated], [result] and the frame of [sign_raw] *)
Fixpoint sign_loop_r (fuel : nat) (gen : nat -> list Z) (i : nat) (ctx : genctx) (sk : seckey) (m : message)
  : outcome (scalar * bool * list Z * (scalar * scalar * Z) * raw_locals) :=
  match fuel with
  | O => Running
  | S f =>
      match s_set_b32 dbg (gen i) with
      | None => Panic
      | Some (nonce, overflow) =>
          if negb overflow && negb (s_is_zero nonce) then
            match sign_raw_r ctx sk m nonce with
            | None => Panic
            | Some (Ok val, l) => Done (nonce, overflow, gen i, val, l)
            | Some (Err _, _) => sign_loop_r f gen (S i) ctx sk m
            end
          else sign_loop_r f gen (S i) ctx sk m
      end
  end.
(** src/lib.rs:818-850 [sign_with_context]; [nonce = Scalar::default()] (845) is a plain store *)
Definition sign_r (drbg : list Z -> list Z -> nat -> list Z) (fuel : nat) (ctx : genctx) (m : message) (sk : seckey)
  : outcome ((signature * recid) * sign_locals) :=
  let seckey_b32 := s_b32 sk in
  let message_b32 := s_b32 m in
  match sign_loop_r fuel (drbg seckey_b32 message_b32) 0 ctx sk m with
  | Done (nonce, overflow, generated, result, l) =>
      let nonce := dead nonce s_default in
      let '(sigr, sigs, recid) := result in
      Done ((Sig sigr sigs, recid), SignL seckey_b32 message_b32 nonce overflow generated result l)
  | Panic => Panic
  | Running => Running
  end.

(** core/src/ecdh.rs:15-30: the locals of [ecdh_raw], which clears none of them; [None]: not yet assigned *)
Record ecdh_locals := EcdhL { el_pt : affine; el_s : scalar; el_res : option jac; el_x : option (list Z); el_y : option Z }.
(** core/src/ecdh.rs:9-36 [ecdh_raw] *)
Definition ecdh_raw_r (D : list Z -> list Z) (point : affine) (scalar : scalar) : option (option (list Z) * ecdh_locals) :=
  let pt := point in
  let s := scalar in
  if s_is_zero s then Some (None, EcdhL pt s None None None)
  else
    let* res := ecmult_const dbg pt s in
    let* pt := af_set_gej dbg res in
    let* px := f_normalize dbg (af_x pt) in
    let* py := f_normalize dbg (af_y pt) in
    let! pt := Af px py (af_inf pt) in
    let* x := f_b32 dbg px in
    let* odd := f_is_odd dbg py in
    let! y := Z.lor 2 (if odd then 1 else 0) in
    Some (Some (D ([y] ++ x)), EcdhL pt s (Some res) (Some x) (Some y)).

(** src/lib.rs:431-440 [SecretKey::random], with the buffer [ret] of the last iteration *)
Fixpoint sk_random_r (fuel : nat) (rng : nat -> list Z) (i : nat) : outcome (seckey * list Z) :=
  match fuel with
  | O => Running
  | S f =>
      let ret := rng i in
      match sk_parse dbg ret with
      | None => Panic
      | Some (Ok k) => Done (k, ret)
      | Some (Err _) => sk_random_r f rng (S i)
      end
  end.
End Build.
