(** What an observer of control flow and memory addresses sees of the operations on secrets.

    The functions of MEcmult.v, MEcdsa.v and MApi.v that handle secret scalars, run with a trace:
    - [EBranch b]: a branch of the source (an [if] with statements, a loop guard, a [&&] whose right
      operand is a function call) was decided by [b];
    - [EIndex i]: an array was indexed at [i];
    - [EPublic a]: a function of the public point [a] alone was run (its own trace, which [a] determines,
      is not recorded further).
    Not events: an [if c { v } else { w }] whose arms are plain values or literals, a comparison turned into
    an integer, [&&]/[||] of comparisons of values at hand and a [match] on two booleans with boolean arms
    (selections: core/src/field.rs:159-161, 397, 1641-1660, 1796-1803, core/src/scalar.rs:130-152,
    319-381, core/src/group.rs:492-503, core/src/ecmult.rs:314-322, 410-437), the fixed limb indices of unrolled code, and the guards of [for]
    loops over literal ranges.  A function whose source has only such constructs is run by [lift], without events:
    field and scalar arithmetic, [normalize], [normalize_weak], [normalizes_to_zero], [inv], [set_b32], [b32],
    [is_high], [cadd_bit], [cond_neg_assign], [shr_int], [set_gej], [set_ge], [neg], storage conversions and [cmov].
    Debug assertions and overflow checks are not recorded; a panic ends the trace. *)
From Verif Require Import Word MField MScalar MGroup MEcmult MEcdsa MApi.

(** no code of its own: the events *)
Inductive event := EBranch (b : bool) | EIndex (i : Z) | EPublic (a : affine).
(** no code of its own: a computation with its events; [None] is a panic *)
Definition T (A : Type) : Type := (list event * option A)%type.
(** no code of its own: no event *)
Definition retT {A} (a : A) : T A := ([], Some a).
(** no code of its own: sequencing; a panic ends the trace *)
Definition bindT {A B} (t : T A) (f : A -> T B) : T B :=
  match t with
  | (e, Some a) => (e ++ fst (f a), snd (f a))
  | (e, None) => (e, None)
  end.
(** run a function without events (no lines of its own) *)
Definition lift {A} (o : option A) : T A := ([], o).
(** record an event (no lines of its own) *)
Definition ev (e : event) : T unit := ([e], Some tt).
(** [if b] (no lines of its own; cited where used) *)
Definition branch (b : bool) : T bool := ([EBranch b], Some b).
(** [l[i]] (no lines of its own; cited where used) *)
Definition load {A} (l : list A) (i : Z) : T A := ([EIndex i], idx l i).
Notation "'let^' x ':=' e 'in' b" := (bindT e (fun x => b))
  (at level 200, x binder, e at level 100, b at level 200, right associativity).
Notation "'let+' x ':=' e 'in' b" := (bindT (lift e) (fun x => b))
  (at level 200, x binder, e at level 100, b at level 200, right associativity).

Section Build.
Variable dbg : bool.
Local Notation mul := (f_mul dbg).
Local Notation sqr := (f_sqr dbg).
Local Notation add := (f_add dbg).
Local Notation neg := (f_neg dbg).
Local Notation mul_int := (f_mul_int dbg).

(** core/src/group.rs:457-522 [add_ge_in_place]; the event is the [&&] of line 478 *)
Definition t_add_ge (a : jac) (b : affine) : T jac :=
  let+ _ := dassert dbg (negb (af_inf b)) in
  let+ zz := sqr (j_z a) in
  let+ u1 := f_normalize_weak dbg (j_x a) in
  let+ u2 := mul (af_x b) zz in
  let+ s1 := f_normalize_weak dbg (j_y a) in
  let+ s2 := mul (af_y b) zz in
  let+ s2 := mul s2 (j_z a) in
  let+ t := add u1 u2 in
  let+ m := add s1 s2 in
  let+ rr := sqr t in
  let+ m_alt := neg u2 1 in
  let+ tt0 := mul u1 m_alt in
  let+ rr := add rr tt0 in
  let+ mz := f_normalizes_to_zero dbg m in
  let^ mz := branch mz in
  let+ degenerate := (if mz then f_normalizes_to_zero dbg rr else Some false) in
  let+ rr_alt := mul_int s1 2 in
  let+ m_alt := add m_alt u1 in
  let+ rr_alt := Some (f_cmov rr_alt rr (negb degenerate)) in
  let+ m_alt := Some (f_cmov m_alt m (negb degenerate)) in
  let+ n := sqr m_alt in
  let+ q := mul n t in
  let+ n := sqr n in
  let+ n := Some (f_cmov n m degenerate) in
  let+ t := sqr rr_alt in
  let+ z := mul (j_z a) m_alt in
  let+ zz0 := f_normalizes_to_zero dbg z in
  let+ infinity := Some (zz0 && negb (j_inf a)) in
  let+ z := mul_int z 2 in
  let+ q := neg q 1 in
  let+ t := add t q in
  let+ t := f_normalize_weak dbg t in
  let+ x := Some t in
  let+ t := mul_int t 2 in
  let+ t := add t q in
  let+ t := mul t rr_alt in
  let+ t := add t n in
  let+ y := neg t 3 in
  let+ y := f_normalize_weak dbg y in
  let+ x := mul_int x 4 in
  let+ y := mul_int y 4 in
  let+ x := Some (f_cmov x (af_x b) (j_inf a)) in
  let+ y := Some (f_cmov y (af_y b) (j_inf a)) in
  let+ z := Some (f_cmov z FE1 (j_inf a)) in
  retT (Ja x y z infinity).

(** core/src/group.rs:337-379 [double_nonzero_in_place] with [rzr = None]; the event is the [if] of line 346 *)
Definition t_double_nonzero (self a : jac) : T jac :=
  let^ _ := branch (j_inf a) in
  lift (j_double_nonzero_in_place dbg self a).

(** core/src/ecmult.rs:570-572: the selection loop reads [prec[j][i]] for every [i] *)
Fixpoint t_gen_select (row : list astorage) (j i bits : Z) (adds : astorage) : T astorage :=
  match row with
  | [] => retT adds
  | p :: t =>
      let^ _ := ev (EIndex j) in
      let^ _ := ev (EIndex i) in
      t_gen_select t j (i + 1) bits (as_cmov adds p (i =? bits))
  end.
(** core/src/ecmult.rs:568-579 *)
Fixpoint t_ecmult_gen_loop (prec : list (list astorage)) (j : Z) (gnb : scalar) (adds : astorage) (r : jac) : T jac :=
  match prec with
  | [] => retT r
  | row :: t =>
      let^ _ := ev (EIndex (Z.shiftr (j * 4) 5)) in
      let+ bits := s_bits dbg gnb (j * 4) 4 in
      let^ adds := t_gen_select row j 0 bits adds in
      let^ r := t_add_ge r (af_from_storage adds) in
      t_ecmult_gen_loop t (j + 1) gnb adds r
  end.
(** core/src/ecmult.rs:560-583 [ecmult_gen] *)
Definition t_ecmult_gen (ctx : genctx) (gn : scalar) : T jac :=
  match ctx with GCtx prec blind initial =>
    let+ gnb := s_add dbg gn blind in
    t_ecmult_gen_loop prec 0 gnb as_default initial
  end.

(** src/lib.rs:107-116 [from_secret_key_with_context] *)
Definition t_pk_from_secret_key (ctx : genctx) (sk : seckey) : T pubkey :=
  let^ pj := t_ecmult_gen ctx sk in
  lift (af_set_gej dbg pj).

(** core/src/ecdsa.rs:107-141 [sign_raw]; events: those of [ecmult_gen] and the [if]s of lines 133 and 136 *)
Definition t_sign_raw (ctx : genctx) (seckey message nonce : scalar) : T (result (scalar * scalar * Z)) :=
  let^ rp := t_ecmult_gen ctx nonce in
  let+ r := af_set_gej dbg rp in
  let+ rx := f_normalize dbg (af_x r) in
  let+ ry := f_normalize dbg (af_y r) in
  let+ b := f_b32 dbg rx in
  let+ so := s_set_b32 dbg b in
  let+ _ := dassert dbg (negb (s_is_zero (fst so))) in
  let+ _ := dassert dbg (negb (snd so)) in
  let+ odd := f_is_odd dbg ry in
  let+ recid := Some (Z.lor (if snd so then 2 else 0) (if odd then 1 else 0)) in
  let+ n := s_mul dbg (fst so) seckey in
  let+ n := s_add dbg n message in
  let+ sigs := s_inv dbg nonce in
  let+ sigs := s_mul dbg sigs n in
  let^ z := branch (s_is_zero sigs) in
  if z then retT (Err InvalidMessage)
  else
    let^ h := branch (s_is_high sigs) in
    if h then
      let+ sigs := s_neg dbg sigs in
      retT (Ok (fst so, sigs, Z.lxor recid 1))
    else retT (Ok (fst so, sigs, recid)).

(** core/src/ecmult.rs:432-443: the loop of [ecmult_wnaf_const]; events: the guard of the [while], the index
    stored to *)
Fixpoint t_wnaf_const_loop (fuel : nat) (w global_sign : Z) (s : scalar) (word u_last u : Z) (wnaf : list Z)
  : T (list Z * Z * Z * scalar) :=
  let^ go := branch (word * w <? WNAF_BITS) in
  if go then
    match fuel with
    | O => lift None
    | S fuel' =>
        let+ su := s_shr_int dbg s w in
        let+ even := Some (b2z (Z.land (snd su) 1 =? 0)) in
        let+ sign := Some (2 * b2z (0 <? u_last) - 1) in
        let+ u := ichk dbg (snd su + sign * even) in
        let+ u_last := ichk dbg (u_last - sign * even * shl_i32 1 w) in
        let+ v := ichk dbg (u_last * global_sign) in
        let^ _ := ev (EIndex word) in
        let+ wnaf := upd wnaf word v in
        t_wnaf_const_loop fuel' w global_sign (fst su) (word + 1) u u wnaf
    end
  else retT (wnaf, word, u, s).
(** core/src/ecmult.rs:394-451 [ecmult_wnaf_const] *)
Definition t_ecmult_wnaf_const (len : Z) (a : scalar) (w : Z) : T (list Z * Z) :=
  let+ flip := Some (s_is_high a) in
  let+ bit := Some (xorb flip (negb (s_is_even a))) in
  let+ neg_s := s_neg dbg a in
  let+ not_neg_one := Some (negb (s_is_one neg_s)) in
  let+ s := s_cadd_bit dbg a (b2z bit) not_neg_one in
  let+ global_sign := Some (if flip then -1 else 1) in
  let+ s := s_cond_neg dbg s flip in
  let+ global_sign := Some (global_sign * (b2z not_neg_one * 2 - 1)) in
  let+ skew := Some (if bit then 2 else 1) in
  let+ su := s_shr_int dbg s w in
  let^ q := t_wnaf_const_loop 257 w global_sign (fst su) 0 (snd su) 0 (repeat 0 (Z.to_nat len)) in
  match q with (wnaf, word, u, s) =>
    let+ v := ichk dbg (u * global_sign) in
    let^ _ := ev (EIndex word) in
    let+ wnaf := upd wnaf word v in
    let+ _ := dassert dbg (s_is_zero s) in
    let+ _ := dassert dbg (word =? (WNAF_BITS + w - 1) / w) in
    retT (wnaf, skew)
  end.

(** core/src/ecmult.rs:318-322: every entry of the table is read *)
Fixpoint t_cmov_loop (pre : list affine) (m idx_n : Z) (x y : field) : T (field * field) :=
  match pre with
  | [] => retT (x, y)
  | p :: t =>
      let^ _ := ev (EIndex m) in
      t_cmov_loop t (m + 1) idx_n (f_cmov x (af_x p) (m =? idx_n)) (f_cmov y (af_y p) (m =? idx_n))
  end.
(** core/src/ecmult.rs:312-326 [table_get_ge_const] *)
Definition t_table_get_ge_const (r : affine) (pre : list affine) (n w : Z) : T affine :=
  let+ abs_n := ichk dbg (n * (b2z (0 <? n) * 2 - 1)) in
  let+ idx_n := Some (Z.quot abs_n 2) in
  let+ _ := digit_asserts dbg n w in
  let^ xy := t_cmov_loop pre 0 idx_n (af_x r) (af_y r) in
  let+ neg_y := neg (snd xy) 1 in
  let+ y := Some (f_cmov (snd xy) neg_y (negb (n =? abs_n))) in
  retT (Af (fst xy) y false).

(** core/src/ecmult.rs:525-528 *)
Fixpoint t_double_nonzero_n (k : nat) (r : jac) : T jac :=
  match k with
  | O => retT r
  | S k' => let^ r := t_double_nonzero r r in t_double_nonzero_n k' r
  end.
(** core/src/ecmult.rs:524-534 *)
Fixpoint t_ecmult_const_loop (k : nat) (pre_a : list affine) (wnaf : list Z) (tmpa : affine) (r : jac) : T jac :=
  match k with
  | O => retT r
  | S k' =>
      let^ r := t_double_nonzero_n 4 r in
      let^ n := load wnaf (Z.of_nat k') in
      let^ tmpa := t_table_get_ge_const tmpa pre_a n WINDOW_A in
      let+ _ := dassert dbg (negb (n =? 0)) in
      let^ r := t_add_ge r tmpa in
      t_ecmult_const_loop k' pre_a wnaf tmpa r
  end.
(** core/src/ecmult.rs:491-556 [ecmult_const]; the table of odd multiples (509-513), the doubled point and the two stored
    corrections (540-547) are functions of the point [a] *)
Definition t_ecmult_const (a : affine) (sc : scalar) : T jac :=
  let^ ws := t_ecmult_wnaf_const 65 sc (WINDOW_A - 1) in
  let^ _ := ev (EPublic a) in
  let+ r := j_set_ge dbg a in
  let+ tz := odd_multiples_table_globalz_windowa dbg r in
  let+ pre_a := mapo (fun p => let* y := f_normalize_weak dbg (af_y p) in Some (Af (af_x p) y (af_inf p))) (fst tz) in
  let^ i := load (fst ws) 64 in
  let+ _ := dassert dbg (negb (i =? 0)) in
  let^ tmpa := t_table_get_ge_const af_default pre_a i WINDOW_A in
  let+ r := j_set_ge dbg tmpa in
  let^ r := t_ecmult_const_loop 64 pre_a (fst ws) tmpa r in
  let+ rz := mul (j_z r) (snd tz) in
  let+ r := Some (Ja (j_x r) (j_y r) rz (j_inf r)) in
  let^ _ := ev (EPublic a) in
  let+ tmpj := j_set_ge dbg a in
  let+ tmpj := j_double dbg tmpj in
  let+ correction := af_set_gej dbg tmpj in
  let+ c1 := af_to_storage dbg a in
  let+ a2 := af_to_storage dbg correction in
  let+ c1 := Some (as_cmov c1 a2 (snd ws =? 2)) in
  let+ correction := af_neg dbg (af_from_storage c1) in
  t_add_ge r correction.

(** core/src/ecdh.rs:9-36 [ecdh_raw]; the digest is external *)
Definition t_ecdh_raw (D : list Z -> list Z) (point : affine) (s : scalar) : T (option (list Z)) :=
  let^ z := branch (s_is_zero s) in
  if z then retT None
  else
    let^ res := t_ecmult_const point s in
    let+ pt := af_set_gej dbg res in
    let+ px := f_normalize dbg (af_x pt) in
    let+ py := f_normalize dbg (af_y pt) in
    let+ x := f_b32 dbg px in
    let+ odd := f_is_odd dbg py in
    let+ y := Some (Z.lor 2 (if odd then 1 else 0)) in
    retT (Some (D ([y] ++ x))).

(** src/lib.rs:831-841: the loop of [sign_with_context]; events: the [&&] and the [if] of line 835, those of
    [sign_raw], and the [if let] of line 836.  The generator [gen] is external. *)
Fixpoint t_sign_loop (fuel : nat) (gen : nat -> list Z) (i : nat) (ctx : genctx) (sk : seckey) (m : message)
  : list event * outcome (signature * recid) :=
  match fuel with
  | O => ([], Running)
  | S f =>
      match s_set_b32 dbg (gen i) with
      | None => ([], Panic)
      | Some (nonce, overflow) =>
          let again e := let '(e', o) := t_sign_loop f gen (S i) ctx sk m in (e ++ e', o) in
          if negb overflow then
            if negb (s_is_zero nonce) then
              let '(e, o) := t_sign_raw ctx sk m nonce in
              let e := [EBranch true; EBranch true] ++ e in
              match o with
              | None => (e, Panic)
              | Some (Ok (r, s, rid)) => (e ++ [EBranch true], Done (Sig r s, rid))
              | Some (Err _) => again (e ++ [EBranch false])
              end
            else again [EBranch true; EBranch false]
          else again [EBranch false]
      end
  end.
(** src/lib.rs:818-850 [sign_with_context] *)
Definition t_sign (drbg : list Z -> list Z -> nat -> list Z) (fuel : nat) (ctx : genctx)
           (m : message) (sk : seckey) : list event * outcome (signature * recid) :=
  t_sign_loop fuel (drbg (s_b32 sk) (s_b32 m)) 0 ctx sk m.
End Build.
