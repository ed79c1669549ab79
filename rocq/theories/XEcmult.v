(** MEcmult.v once more, with two flags instead of one: [fst bd] says whether debug assertions are executed
    ([debug-assertions]), [snd bd] whether an arithmetic overflow panics ([overflow-checks]). Written by tools/gen_builds.py. *)
From Verif Require Import Word MField MScalar MGroup MEcmult XField XScalar XGroup.

Section Build.
Variable bd : bool * bool.

(** core/src/ecmult.rs:281-283: the loop of [odd_multiples_table]; returns the remaining
    entries of [prej] and [zr] *)
Fixpoint odd_mult_loop_x (k : nat) (prev : jac) (d_ge : affine) : option (list jac * list field) :=
  match k with
  | O => Some ([], [])
  | S k' =>
      let* '(nx, z) := j_add_ge_var_x bd prev d_ge (Some f_default) in
      let! zf := match z with Some f => f | None => f_default end in
      let* '(pj, zr) := odd_mult_loop_x k' nx d_ge in
      Some (nx :: pj, zf :: zr)
  end.

(** core/src/ecmult.rs:285-286: multiply the z of the last entry *)
Fixpoint scale_last_x (l : list jac) (dz : field) : option (list jac) :=
  match l with
  | [] => None
  | [a] => let* z := f_mul_x bd (j_z a) dz in Some [Ja (j_x a) (j_y a) z (j_inf a)]
  | a :: t => let* t' := scale_last_x t dz in Some (a :: t')
  end.

(** core/src/ecmult.rs:261-287 [odd_multiples_table] for slices of length [n] *)
Definition odd_multiples_table_x (n : nat) (a : jac) : option (list jac * list field) :=
  dassert (fst bd) (negb (Nat.eqb n 0)) ;;
  dassert (fst bd) (negb (j_inf a)) ;;
  let* d := j_double_x bd a in
  let! d_ge := Af (j_x d) (j_y d) false in
  let* a_ge := af_set_gej_zinv_x bd a (j_z d) in
  match n with
  | O => None
  | S k =>
      let! p0 := Ja (af_x a_ge) (af_y a_ge) (j_z a) false in
      let* '(pj, zr) := odd_mult_loop_x k p0 d_ge in
      let* prej := scale_last_x (p0 :: pj) (j_z d) in
      Some (prej, j_z d :: zr)
  end.

(** core/src/ecmult.rs:289-299 [odd_multiples_table_globalz_windowa] *)
Definition odd_multiples_table_globalz_windowa_x (a : jac) : option (list affine * field) :=
  let* '(prej, zr) := odd_multiples_table_x ECMULT_TABLE_SIZE_A a in
  globalz_set_table_gej_x bd prej zr.

(** core/src/ecmult.rs:20-40 [odd_multiples_table_storage_var] for a table of [n] entries *)
Definition odd_multiples_table_storage_var_x (n : nat) (a : jac) : option (list astorage) :=
  let* '(prej, zr) := odd_multiples_table_x n a in
  let* prea := set_table_gej_var_x bd prej zr in
  mapo (af_to_storage_x bd) prea.

(** core/src/ecmult.rs:64-85 [ECMultContext::new_boxed] (the heap allocation is not modelled) *)
Definition ecmult_context_new_x : option ecctx :=
  let* gj := j_set_ge_x bd AFFINE_G in
  let* t := odd_multiples_table_storage_var_x ECMULT_TABLE_SIZE_G gj in
  Some (Ctx t).

(** core/src/ecmult.rs:116-140 [inv_all_var]: running products, most recent first *)
Fixpoint run_products_x (prev : field) (l : list field) (acc : list field) : option (list field) :=
  match l with
  | [] => Some acc
  | f :: t => let* p := f_mul_x bd prev f in run_products_x p t (p :: acc)
  end.

(** the downward loop 130-135: [rp] are the running products below the current index and
    [rf] the fields from the current index down, both last first *)
Fixpoint inv_down_x (rp rf : list field) (u : field) (acc : list field) : option (list field) :=
  match rf with
  | [] => None
  | fj :: rf' =>
      match rf', rp with
      | [], _ => Some (u :: acc)
      | _ :: _, p :: rp' =>
          let* r := f_mul_x bd p u in
          let* u' := f_mul_x bd u fj in
          inv_down_x rp' rf' u' (r :: acc)
      | _ :: _, [] => None
      end
  end.

(** core/src/ecmult.rs:116-140 [inv_all_var] *)
Definition inv_all_var_x (fields : list field) : option (list field) :=
  match fields with
  | [] => Some []
  | f0 :: t =>
      let* rp := run_products_x f0 t [f0] in
      match rp with
      | last :: below =>
          let* u := f_inv_x bd last in
          inv_down_x below (rev fields) u []
      | [] => None
      end
  end.

(** core/src/ecmult.rs:90-110 [set_all_gej_var] *)
Fixpoint set_all_loop_x (a : list jac) (azi : list field) : option (list affine) :=
  match a with
  | [] => Some []
  | p :: t =>
      if j_inf p then
        let* r := set_all_loop_x t azi in Some (Af f_default f_default true :: r)
      else
        match azi with
        | zi :: azi' =>
            let* q := af_set_gej_zinv_x bd p zi in
            let* r := set_all_loop_x t azi' in Some (q :: r)
        | [] => None
        end
  end.

(** core/src/ecmult.rs:90-110 [set_all_gej_var]: the batch inversion, then the loop *)
Definition set_all_gej_var_x (a : list jac) : option (list affine) :=
  let! az := map j_z (filter (fun p => negb (j_inf p)) a) in
  let* azi := inv_all_var_x az in
  set_all_loop_x a azi.

(** core/src/ecmult.rs:233-235: one row, starting from [prev = precj[j*16]], [k] more entries *)
Fixpoint gen_row_x (k : nat) (prev gbase : jac) : option (list jac) :=
  match k with
  | O => Some []
  | S k' => let* nx := j_add_x bd prev gbase in
            let* r := gen_row_x k' nx gbase in Some (nx :: r)
  end.

(** core/src/ecmult.rs:231-244: the rows [j], [j+1], ..., [63]; [k] rows remain *)
Fixpoint gen_rows_x (k : nat) (j : Z) (gbase numsbase nums_gej : jac) : option (list (list jac)) :=
  match k with
  | O => Some []
  | S k' =>
      let* row := gen_row_x 15 numsbase gbase in
      let* gbase := j_double_x bd gbase in
      let* gbase := j_double_x bd gbase in
      let* gbase := j_double_x bd gbase in
      let* gbase := j_double_x bd gbase in
      let* nb := j_double_x bd numsbase in
      let* nb := (if j =? 62 then let* m := j_neg_x bd nb in j_add_x bd m nums_gej else Some nb) in
      let* rest := gen_rows_x k' (j + 1) gbase nb nums_gej in
      Some ((numsbase :: row) :: rest)
  end.

(** core/src/ecmult.rs:188-258 [ECMultGenContext::new_boxed] (the heap allocation is not modelled) *)
Definition ecmult_gen_context_new_x : option genctx :=
  let* gj := j_set_ge_x bd AFFINE_G in
  let* '(nums_x, ok) := f_set_b32_x bd f_default NUMS_32 in
  hassert ok ;;
  let* '(nums_ge, ok) := af_set_xo_var_x bd nums_x false in
  hassert ok ;;
  let* nums_gej := j_set_ge_x bd nums_ge in
  let* nums_gej := j_add_ge_v_x bd nums_gej AFFINE_G in
  let* precj := gen_rows_x 64 0 gj nums_gej nums_gej in
  let* prec := set_all_gej_var_x (concat precj) in
  let* st := mapo (af_to_storage_x bd) prec in
  Some (GCtx (rows16 64 st) GEN_BLIND GEN_INITIAL).

(** core/src/ecmult.rs:302-304, 315-317, 329-331: the range assertions on a digit *)
Definition digit_asserts_x (n w : Z) : option unit :=
  dassert (fst bd) (Z.land n 1 =? 1) ;;
  dassert (fst bd) (- (2 ^ (w - 1) - 1) <=? n) ;;
  dassert (fst bd) (n <=? 2 ^ (w - 1) - 1).

(** core/src/ecmult.rs:301-310 [table_get_ge] *)
Definition table_get_ge_x (pre : list affine) (n w : Z) : option affine :=
  digit_asserts_x n w ;;
  if 0 <? n then idx pre (Z.quot (n - 1) 2)
  else let* a := idx pre (Z.quot (- n - 1) 2) in af_neg_x bd a.

(** core/src/ecmult.rs:312-326 [table_get_ge_const] *)
Definition table_get_ge_const_x (r : affine) (pre : list affine) (n w : Z) : option affine :=
  let* abs_n := ichk (snd bd) (n * (b2z (0 <? n) * 2 - 1)) in
  let! idx_n := Z.quot abs_n 2 in
  digit_asserts_x n w ;;
  let! '(x, y) := cmov_loop pre 0 idx_n (af_x r) (af_y r) in
  let* neg_y := f_neg_x bd y 1 in
  let! y := f_cmov y neg_y (negb (n =? abs_n)) in
  Some (Af x y false).

(** core/src/ecmult.rs:328-338 [table_get_ge_storage] *)
Definition table_get_ge_storage_x (pre : list astorage) (n w : Z) : option affine :=
  digit_asserts_x n w ;;
  if 0 <? n then let* a := idx pre (Z.quot (n - 1) 2) in Some (af_from_storage a)
  else let* a := idx pre (Z.quot (- n - 1) 2) in af_neg_x bd (af_from_storage a).

(** core/src/ecmult.rs:360-381: the loop of [ecmult_wnaf].  [fuel] bounds the number of
    iterations; running out of it is [None] (shown never to happen: every iteration advances). *)
Fixpoint wnaf_loop_x (fuel : nat) (s : scalar) (len w sign : Z)
         (bit carry last : Z) (wnaf : list Z) : option (list Z * Z * Z * Z) :=
  if bit <? len then
    match fuel with
    | O => None
    | S fuel' =>
        let* b := s_bits_x bd s bit 1 in
        if b =? carry then wnaf_loop_x fuel' s len w sign (bit + 1) carry last wnaf
        else
          let! now := if len - bit <? w then len - bit else w in
          let* bv := s_bits_var_x bd s bit now in
          let* word := ichk (snd bd) (bv + carry) in
          let! carry := Z.land (Z.shiftr word (w - 1)) 1 in
          let* word := ichk (snd bd) (word - shl_i32 carry w) in
          let* v := ichk (snd bd) (sign * word) in
          let* wnaf := upd wnaf bit v in
          wnaf_loop_x fuel' s len w sign (bit + now) carry bit wnaf
    end
  else Some (wnaf, bit, carry, last).

(** core/src/ecmult.rs:384-391: the closing assertion that all bits from [bit] on are zero *)
Fixpoint high_bits_zero_x (fuel : nat) (s : scalar) (bit : Z) : option bool :=
  match fuel with
  | O => Some true
  | S k => if bit <? 256 then
             let* b := s_bits_x bd s bit 1 in
             let* r := high_bits_zero_x k s (bit + 1) in Some ((b =? 0) && r)
           else Some true
  end.

(** core/src/ecmult.rs:340-392 [ecmult_wnaf] for a slice of length [len]: digits and number of
    significant positions *)
Definition ecmult_wnaf_x (len : Z) (a : scalar) (w : Z) : option (list Z * Z) :=
  dassert (fst bd) (len <=? 256) ;;
  dassert (fst bd) ((2 <=? w) && (w <=? 31)) ;;
  let* top := s_bits_x bd a 255 1 in
  let* '(s, sign) := (if 0 <? top then let* m := s_neg_x bd a in Some (m, -1) else Some (a, 1)) in
  let* '(wnaf, bit, carry, last) :=
    wnaf_loop_x (Z.to_nat len) s len w sign 0 0 (-1) (repeat 0 (Z.to_nat len)) in
  dassert (fst bd) (carry =? 0) ;;
  (if fst bd then let* t := high_bits_zero_x 256 s bit in dassert (fst bd) t else Some tt) ;;
  Some (wnaf, last + 1).

(** core/src/ecmult.rs:431-444: the loop of [ecmult_wnaf_const] *)
Fixpoint wnaf_const_loop_x (fuel : nat) (w global_sign : Z) (s : scalar) (word u_last u : Z)
         (wnaf : list Z) : option (list Z * Z * Z * scalar) :=
  if word * w <? WNAF_BITS then
    match fuel with
    | O => None
    | S fuel' =>
        let* '(s, u) := s_shr_int_x bd s w in
        let! even := b2z (Z.land u 1 =? 0) in
        let! sign := 2 * b2z (0 <? u_last) - 1 in
        let* u := ichk (snd bd) (u + sign * even) in
        let* u_last := ichk (snd bd) (u_last - sign * even * shl_i32 1 w) in
        let* v := ichk (snd bd) (u_last * global_sign) in
        let* wnaf := upd wnaf word v in
        wnaf_const_loop_x fuel' w global_sign s (word + 1) u u wnaf
    end
  else Some (wnaf, word, u, s).

(** core/src/ecmult.rs:394-452 [ecmult_wnaf_const] for a slice of length [len]: digits and skew *)
Definition ecmult_wnaf_const_x (len : Z) (a : scalar) (w : Z) : option (list Z * Z) :=
  let! flip := s_is_high a in
  let! bit := xorb flip (negb (s_is_even a)) in
  let* neg_s := s_neg_x bd a in
  let! not_neg_one := negb (s_is_one neg_s) in
  let* s := s_cadd_bit_x bd a (b2z bit) not_neg_one in
  let! global_sign := if flip then -1 else 1 in
  let* s := s_cond_neg_x bd s flip in
  let! global_sign := global_sign * (b2z not_neg_one * 2 - 1) in
  let! skew := if bit then 2 else 1 in
  let* '(s, u_last) := s_shr_int_x bd s w in
  let* '(wnaf, word, u, s) :=
    wnaf_const_loop_x 257 w global_sign s 0 u_last 0 (repeat 0 (Z.to_nat len)) in
  let* v := ichk (snd bd) (u * global_sign) in
  let* wnaf := upd wnaf word v in
  dassert (fst bd) (s_is_zero s) ;;
  dassert (fst bd) (word =? (WNAF_BITS + w - 1) / w) ;;
  Some (wnaf, skew).

(** core/src/ecmult.rs:469-486: the main loop of [ecmult], from [i = k-1] down to 0 *)
Fixpoint ecmult_loop_x (k : nat) (pre_g : list astorage) (pre_a : list affine) (z : field)
         (wnaf_na wnaf_ng : list Z) (bits_na bits_ng : Z) (r : jac) : option jac :=
  match k with
  | O => Some r
  | S k' =>
      let! i := Z.of_nat k' in
      let* r := j_double_x bd r in
      let* n := idx wnaf_na i in
      let* r := (if (i <? bits_na) && negb (n =? 0) then
                   let* t := table_get_ge_x pre_a n WINDOW_A in j_add_ge_v_x bd r t
                 else Some r) in
      let* n := idx wnaf_ng i in
      let* r := (if (i <? bits_ng) && negb (n =? 0) then
                   let* t := table_get_ge_storage_x pre_g n WINDOW_G in j_add_zinv_var_x bd r t z
                 else Some r) in
      ecmult_loop_x k' pre_g pre_a z wnaf_na wnaf_ng bits_na bits_ng r
  end.

(** core/src/ecmult.rs:454-489 [ecmult]: na*a + ng*G *)
Definition ecmult_x (ctx : ecctx) (a : jac) (na ng : scalar) : option jac :=
  let '(Ctx pre_g) := ctx in
  let* '(wnaf_na, bits_na) := ecmult_wnaf_x 256 na WINDOW_A in
  let* '(pre_a, z) := odd_multiples_table_globalz_windowa_x a in
  let* '(wnaf_ng, bits_ng) := ecmult_wnaf_x 256 ng WINDOW_G in
  let! bits := if bits_na <? bits_ng then bits_ng else bits_na in
  let* r := ecmult_loop_x (Z.to_nat bits) pre_g pre_a z wnaf_na wnaf_ng bits_na bits_ng j_set_infinity in
  if j_inf r then Some r
  else let* zr := f_mul_x bd (j_z r) z in Some (Ja (j_x r) (j_y r) zr false).

(** core/src/ecmult.rs:526-529: [k] calls of [double_nonzero_in_place] *)
Fixpoint double_nonzero_n_x (k : nat) (r : jac) : option jac :=
  match k with
  | O => Some r
  | S k' => let* r := j_double_nonzero_in_place_x bd r r in double_nonzero_n_x k' r
  end.

(** core/src/ecmult.rs:525-535: the main loop of [ecmult_const]; [tmpa] keeps its value between iterations *)
Fixpoint ecmult_const_loop_x (k : nat) (pre_a : list affine) (wnaf : list Z) (tmpa : affine) (r : jac) : option jac :=
  match k with
  | O => Some r
  | S k' =>
      let* r := double_nonzero_n_x 4 r in
      let* n := idx wnaf (Z.of_nat k') in
      let* tmpa := table_get_ge_const_x tmpa pre_a n WINDOW_A in
      dassert (fst bd) (negb (n =? 0)) ;;
      let* r := j_add_ge_x bd r tmpa in
      ecmult_const_loop_x k' pre_a wnaf tmpa r
  end.

(** core/src/ecmult.rs:491-557 [ecmult_const]: scalar*a *)
Definition ecmult_const_x (a : affine) (sc : scalar) : option jac :=
  let* '(wnaf, skew) := ecmult_wnaf_const_x 65 sc (WINDOW_A - 1) in
  let* r := j_set_ge_x bd a in
  let* '(pre_a, z) := odd_multiples_table_globalz_windowa_x r in
  let* pre_a := mapo (fun p => let* y := f_normalize_weak_x bd (af_y p) in
                               Some (Af (af_x p) y (af_inf p))) pre_a in
  let* i := idx wnaf 64 in
  dassert (fst bd) (negb (i =? 0)) ;;
  let* tmpa := table_get_ge_const_x af_default pre_a i WINDOW_A in
  let* r := j_set_ge_x bd tmpa in
  let* r := ecmult_const_loop_x 64 pre_a wnaf tmpa r in
  let* rz := f_mul_x bd (j_z r) z in
  let! r := Ja (j_x r) (j_y r) rz (j_inf r) in
  let* tmpj := j_set_ge_x bd a in
  let* tmpj := j_double_x bd tmpj in
  let* correction := af_set_gej_x bd tmpj in
  let* c1 := af_to_storage_x bd a in
  let* a2 := af_to_storage_x bd correction in
  let! c1 := as_cmov c1 a2 (skew =? 2) in
  let* correction := af_neg_x bd (af_from_storage c1) in
  j_add_ge_x bd r correction.

(** core/src/ecmult.rs:569-580: the loop of [ecmult_gen] over the rows [j], [j+1], ... *)
Fixpoint ecmult_gen_loop_x (prec : list (list astorage)) (j : Z) (gnb : scalar) (adds : astorage)
         (r : jac) : option jac :=
  match prec with
  | [] => Some r
  | row :: t =>
      let* bits := s_bits_x bd gnb (j * 4) 4 in
      let! adds := gen_select row 0 bits adds in
      let* r := j_add_ge_x bd r (af_from_storage adds) in
      ecmult_gen_loop_x t (j + 1) gnb adds r
  end.

(** core/src/ecmult.rs:560-582 [ecmult_gen]: gn*G *)
Definition ecmult_gen_x (ctx : genctx) (gn : scalar) : option jac :=
  let '(GCtx prec blind initial) := ctx in
  let* gnb := s_add_x bd gn blind in
  ecmult_gen_loop_x prec 0 gnb as_default initial.

End Build.
