(** Model of core/src/ecmult.rs: precomputed contexts, wNAF recodings and the three
    scalar-multiplication routines. *)
From Verif Require Import Word MField MScalar MGroup.

(** core/src/ecmult.rs:14-18 *)
Definition WINDOW_A : Z := 5.
(** core/src/ecmult.rs:15 *)
Definition WINDOW_G : Z := 16.
(** core/src/ecmult.rs:16 *)
Definition ECMULT_TABLE_SIZE_A : nat := 8.
(** core/src/ecmult.rs:17 *)
Definition ECMULT_TABLE_SIZE_G : nat := Z.to_nat 16384.
(** core/src/ecmult.rs:18 *)
Definition WNAF_BITS : Z := 256.

(** core/src/ecmult.rs:43-45 [struct ECMultContext]: the table [pre_g] *)
Inductive ecctx := Ctx (pre_g : list astorage).
(** core/src/ecmult.rs:162-166 [struct ECMultGenContext] *)
Inductive genctx := GCtx (prec : list (list astorage)) (blind : scalar) (initial : jac).

(** core/src/ecmult.rs:142-144 [GEN_BLIND] *)
Definition GEN_BLIND : scalar :=
  Sc 2217680822 850875797 1046150361 1330484644 4015777837 2466086288 2052467175 2084507480.
(** core/src/ecmult.rs:145-159 [GEN_INITIAL] *)
Definition GEN_INITIAL : jac :=
  Ja (f_new_raw 586608 43357028 207667908 262670128 142222828 38529388 267186148 45417712
                115291924 13447464)
     (f_new_raw 12696548 208302564 112025180 191752716 143238548 145482948 228906000 69755164
                243572800 210897016)
     (f_new_raw 3685368 75404844 20246216 5748944 73206666 107661790 110806176 73488774 5707384
                104448710)
     false.

(** core/src/ecmult.rs:213-217: the bytes of [b"The scalar for this x is unknown"] *)
Definition NUMS_32 : list Z :=
  [84; 104; 101; 32; 115; 99; 97; 108; 97; 114; 32; 102; 111; 114; 32; 116;
   104; 105; 115; 32; 120; 32; 105; 115; 32; 117; 110; 107; 110; 111; 119; 110].

(** monadic map over a list, left to right: the loops over whole tables (core/src/ecmult.rs:37-39, 250-255) *)
Fixpoint mapo {A B} (f : A -> option B) (l : list A) : option (list B) :=
  match l with
  | [] => Some []
  | a :: t => let* b := f a in let* r := mapo f t in Some (b :: r)
  end.

(** [a << k] on i32 for [k < 32] (two's complement wrap-around) *)
Definition shl_i32 (a k : Z) : Z := (Z.shiftl a k + 2 ^ 31) mod 2 ^ 32 - 2 ^ 31.

Section Build.
Variable dbg : bool.

(** core/src/ecmult.rs:281-283: the loop of [odd_multiples_table]; returns the remaining
    entries of [prej] and [zr] *)
Fixpoint odd_mult_loop (k : nat) (prev : jac) (d_ge : affine) : option (list jac * list field) :=
  match k with
  | O => Some ([], [])
  | S k' =>
      let* '(nx, z) := j_add_ge_var dbg prev d_ge (Some f_default) in
      let! zf := match z with Some f => f | None => f_default end in
      let* '(pj, zr) := odd_mult_loop k' nx d_ge in
      Some (nx :: pj, zf :: zr)
  end.

(** core/src/ecmult.rs:285-286: multiply the z of the last entry *)
Fixpoint scale_last (l : list jac) (dz : field) : option (list jac) :=
  match l with
  | [] => None
  | [a] => let* z := f_mul dbg (j_z a) dz in Some [Ja (j_x a) (j_y a) z (j_inf a)]
  | a :: t => let* t' := scale_last t dz in Some (a :: t')
  end.

(** core/src/ecmult.rs:261-287 [odd_multiples_table] for slices of length [n] *)
Definition odd_multiples_table (n : nat) (a : jac) : option (list jac * list field) :=
  dassert dbg (negb (Nat.eqb n 0)) ;;
  dassert dbg (negb (j_inf a)) ;;
  let* d := j_double dbg a in
  let! d_ge := Af (j_x d) (j_y d) false in
  let* a_ge := af_set_gej_zinv dbg a (j_z d) in
  match n with
  | O => None
  | S k =>
      let! p0 := Ja (af_x a_ge) (af_y a_ge) (j_z a) false in
      let* '(pj, zr) := odd_mult_loop k p0 d_ge in
      let* prej := scale_last (p0 :: pj) (j_z d) in
      Some (prej, j_z d :: zr)
  end.

(** core/src/ecmult.rs:289-299 [odd_multiples_table_globalz_windowa] *)
Definition odd_multiples_table_globalz_windowa (a : jac) : option (list affine * field) :=
  let* '(prej, zr) := odd_multiples_table ECMULT_TABLE_SIZE_A a in
  globalz_set_table_gej dbg prej zr.

(** core/src/ecmult.rs:20-40 [odd_multiples_table_storage_var] for a table of [n] entries *)
Definition odd_multiples_table_storage_var (n : nat) (a : jac) : option (list astorage) :=
  let* '(prej, zr) := odd_multiples_table n a in
  let* prea := set_table_gej_var dbg prej zr in
  mapo (af_to_storage dbg) prea.

(** core/src/ecmult.rs:64-85 [ECMultContext::new_boxed] (the heap allocation is not modelled) *)
Definition ecmult_context_new : option ecctx :=
  let* gj := j_set_ge dbg AFFINE_G in
  let* t := odd_multiples_table_storage_var ECMULT_TABLE_SIZE_G gj in
  Some (Ctx t).

(** core/src/ecmult.rs:116-140 [inv_all_var]: running products, most recent first *)
Fixpoint run_products (prev : field) (l : list field) (acc : list field) : option (list field) :=
  match l with
  | [] => Some acc
  | f :: t => let* p := f_mul dbg prev f in run_products p t (p :: acc)
  end.
(** the downward loop 130-135: [rp] are the running products below the current index and
    [rf] the fields from the current index down, both last first *)
Fixpoint inv_down (rp rf : list field) (u : field) (acc : list field) : option (list field) :=
  match rf with
  | [] => None
  | fj :: rf' =>
      match rf', rp with
      | [], _ => Some (u :: acc)
      | _ :: _, p :: rp' =>
          let* r := f_mul dbg p u in
          let* u' := f_mul dbg u fj in
          inv_down rp' rf' u' (r :: acc)
      | _ :: _, [] => None
      end
  end.
(** core/src/ecmult.rs:116-140 [inv_all_var] *)
Definition inv_all_var (fields : list field) : option (list field) :=
  match fields with
  | [] => Some []
  | f0 :: t =>
      let* rp := run_products f0 t [f0] in
      match rp with
      | last :: below =>
          let* u := f_inv dbg last in
          inv_down below (rev fields) u []
      | [] => None
      end
  end.

(** core/src/ecmult.rs:90-110 [set_all_gej_var] *)
Fixpoint set_all_loop (a : list jac) (azi : list field) : option (list affine) :=
  match a with
  | [] => Some []
  | p :: t =>
      if j_inf p then
        let* r := set_all_loop t azi in Some (Af f_default f_default true :: r)
      else
        match azi with
        | zi :: azi' =>
            let* q := af_set_gej_zinv dbg p zi in
            let* r := set_all_loop t azi' in Some (q :: r)
        | [] => None
        end
  end.
(** core/src/ecmult.rs:90-110 [set_all_gej_var]: the batch inversion, then the loop *)
Definition set_all_gej_var (a : list jac) : option (list affine) :=
  let! az := map j_z (filter (fun p => negb (j_inf p)) a) in
  let* azi := inv_all_var az in
  set_all_loop a azi.

(** core/src/ecmult.rs:233-235: one row, starting from [prev = precj[j*16]], [k] more entries *)
Fixpoint gen_row (k : nat) (prev gbase : jac) : option (list jac) :=
  match k with
  | O => Some []
  | S k' => let* nx := j_add dbg prev gbase in
            let* r := gen_row k' nx gbase in Some (nx :: r)
  end.

(** core/src/ecmult.rs:231-244: the rows [j], [j+1], ..., [63]; [k] rows remain *)
Fixpoint gen_rows (k : nat) (j : Z) (gbase numsbase nums_gej : jac) : option (list (list jac)) :=
  match k with
  | O => Some []
  | S k' =>
      let* row := gen_row 15 numsbase gbase in
      let* gbase := j_double dbg gbase in
      let* gbase := j_double dbg gbase in
      let* gbase := j_double dbg gbase in
      let* gbase := j_double dbg gbase in
      let* nb := j_double dbg numsbase in
      let* nb := (if j =? 62 then let* m := j_neg dbg nb in j_add dbg m nums_gej else Some nb) in
      let* rest := gen_rows k' (j + 1) gbase nb nums_gej in
      Some ((numsbase :: row) :: rest)
  end.

(** split a list into rows of 16, core/src/ecmult.rs:247-252 *)
Fixpoint rows16 (k : nat) (l : list astorage) : list (list astorage) :=
  match k with O => [] | S k' => firstn 16 l :: rows16 k' (skipn 16 l) end.

(** core/src/ecmult.rs:188-258 [ECMultGenContext::new_boxed] (the heap allocation is not modelled) *)
Definition ecmult_gen_context_new : option genctx :=
  let* gj := j_set_ge dbg AFFINE_G in
  let* '(nums_x, ok) := f_set_b32 dbg f_default NUMS_32 in
  hassert ok ;;
  let* '(nums_ge, ok) := af_set_xo_var dbg nums_x false in
  hassert ok ;;
  let* nums_gej := j_set_ge dbg nums_ge in
  let* nums_gej := j_add_ge_v dbg nums_gej AFFINE_G in
  let* precj := gen_rows 64 0 gj nums_gej nums_gej in
  let* prec := set_all_gej_var (concat precj) in
  let* st := mapo (af_to_storage dbg) prec in
  Some (GCtx (rows16 64 st) GEN_BLIND GEN_INITIAL).

(** core/src/ecmult.rs:302-304, 315-317, 329-331: the range assertions on a digit *)
Definition digit_asserts (n w : Z) : option unit :=
  dassert dbg (Z.land n 1 =? 1) ;;
  dassert dbg (- (2 ^ (w - 1) - 1) <=? n) ;;
  dassert dbg (n <=? 2 ^ (w - 1) - 1).

(** core/src/ecmult.rs:301-310 [table_get_ge] *)
Definition table_get_ge (pre : list affine) (n w : Z) : option affine :=
  digit_asserts n w ;;
  if 0 <? n then idx pre (Z.quot (n - 1) 2)
  else let* a := idx pre (Z.quot (- n - 1) 2) in af_neg dbg a.

(** core/src/ecmult.rs:318-322: the constant-time selection loop *)
Fixpoint cmov_loop (pre : list affine) (m idx_n : Z) (x y : field) : field * field :=
  match pre with
  | [] => (x, y)
  | p :: t => let flag := m =? idx_n in
              cmov_loop t (m + 1) idx_n (f_cmov x (af_x p) flag) (f_cmov y (af_y p) flag)
  end.

(** core/src/ecmult.rs:312-326 [table_get_ge_const] *)
Definition table_get_ge_const (r : affine) (pre : list affine) (n w : Z) : option affine :=
  let* abs_n := ichk dbg (n * (b2z (0 <? n) * 2 - 1)) in
  let! idx_n := Z.quot abs_n 2 in
  digit_asserts n w ;;
  let! '(x, y) := cmov_loop pre 0 idx_n (af_x r) (af_y r) in
  let* neg_y := f_neg dbg y 1 in
  let! y := f_cmov y neg_y (negb (n =? abs_n)) in
  Some (Af x y false).

(** core/src/ecmult.rs:328-338 [table_get_ge_storage] *)
Definition table_get_ge_storage (pre : list astorage) (n w : Z) : option affine :=
  digit_asserts n w ;;
  if 0 <? n then let* a := idx pre (Z.quot (n - 1) 2) in Some (af_from_storage a)
  else let* a := idx pre (Z.quot (- n - 1) 2) in af_neg dbg (af_from_storage a).

(** core/src/ecmult.rs:360-381: the loop of [ecmult_wnaf].  [fuel] bounds the number of
    iterations; running out of it is [None] (shown never to happen: every iteration advances). *)
Fixpoint wnaf_loop (fuel : nat) (s : scalar) (len w sign : Z)
         (bit carry last : Z) (wnaf : list Z) : option (list Z * Z * Z * Z) :=
  if bit <? len then
    match fuel with
    | O => None
    | S fuel' =>
        let* b := s_bits dbg s bit 1 in
        if b =? carry then wnaf_loop fuel' s len w sign (bit + 1) carry last wnaf
        else
          let! now := if len - bit <? w then len - bit else w in
          let* bv := s_bits_var dbg s bit now in
          let* word := ichk dbg (bv + carry) in
          let! carry := Z.land (Z.shiftr word (w - 1)) 1 in
          let* word := ichk dbg (word - shl_i32 carry w) in
          let* v := ichk dbg (sign * word) in
          let* wnaf := upd wnaf bit v in
          wnaf_loop fuel' s len w sign (bit + now) carry bit wnaf
    end
  else Some (wnaf, bit, carry, last).

(** core/src/ecmult.rs:384-391: the closing assertion that all bits from [bit] on are zero *)
Fixpoint high_bits_zero (fuel : nat) (s : scalar) (bit : Z) : option bool :=
  match fuel with
  | O => Some true
  | S k => if bit <? 256 then
             let* b := s_bits dbg s bit 1 in
             let* r := high_bits_zero k s (bit + 1) in Some ((b =? 0) && r)
           else Some true
  end.

(** core/src/ecmult.rs:340-392 [ecmult_wnaf] for a slice of length [len]: digits and number of
    significant positions *)
Definition ecmult_wnaf (len : Z) (a : scalar) (w : Z) : option (list Z * Z) :=
  dassert dbg (len <=? 256) ;;
  dassert dbg ((2 <=? w) && (w <=? 31)) ;;
  let* top := s_bits dbg a 255 1 in
  let* '(s, sign) := (if 0 <? top then let* m := s_neg dbg a in Some (m, -1) else Some (a, 1)) in
  let* '(wnaf, bit, carry, last) :=
    wnaf_loop (Z.to_nat len) s len w sign 0 0 (-1) (repeat 0 (Z.to_nat len)) in
  dassert dbg (carry =? 0) ;;
  (if dbg then let* t := high_bits_zero 256 s bit in dassert dbg t else Some tt) ;;
  Some (wnaf, last + 1).

(** core/src/ecmult.rs:431-444: the loop of [ecmult_wnaf_const] *)
Fixpoint wnaf_const_loop (fuel : nat) (w global_sign : Z) (s : scalar) (word u_last u : Z)
         (wnaf : list Z) : option (list Z * Z * Z * scalar) :=
  if word * w <? WNAF_BITS then
    match fuel with
    | O => None
    | S fuel' =>
        let* '(s, u) := s_shr_int dbg s w in
        let! even := b2z (Z.land u 1 =? 0) in
        let! sign := 2 * b2z (0 <? u_last) - 1 in
        let* u := ichk dbg (u + sign * even) in
        let* u_last := ichk dbg (u_last - sign * even * shl_i32 1 w) in
        let* v := ichk dbg (u_last * global_sign) in
        let* wnaf := upd wnaf word v in
        wnaf_const_loop fuel' w global_sign s (word + 1) u u wnaf
    end
  else Some (wnaf, word, u, s).

(** core/src/ecmult.rs:394-452 [ecmult_wnaf_const] for a slice of length [len]: digits and skew *)
Definition ecmult_wnaf_const (len : Z) (a : scalar) (w : Z) : option (list Z * Z) :=
  let! flip := s_is_high a in
  let! bit := xorb flip (negb (s_is_even a)) in
  let* neg_s := s_neg dbg a in
  let! not_neg_one := negb (s_is_one neg_s) in
  let* s := s_cadd_bit dbg a (b2z bit) not_neg_one in
  let! global_sign := if flip then -1 else 1 in
  let* s := s_cond_neg dbg s flip in
  let! global_sign := global_sign * (b2z not_neg_one * 2 - 1) in
  let! skew := if bit then 2 else 1 in
  let* '(s, u_last) := s_shr_int dbg s w in
  let* '(wnaf, word, u, s) :=
    wnaf_const_loop 257 w global_sign s 0 u_last 0 (repeat 0 (Z.to_nat len)) in
  let* v := ichk dbg (u * global_sign) in
  let* wnaf := upd wnaf word v in
  dassert dbg (s_is_zero s) ;;
  dassert dbg (word =? (WNAF_BITS + w - 1) / w) ;;
  Some (wnaf, skew).

(** core/src/ecmult.rs:469-486: the main loop of [ecmult], from [i = k-1] down to 0 *)
Fixpoint ecmult_loop (k : nat) (pre_g : list astorage) (pre_a : list affine) (z : field)
         (wnaf_na wnaf_ng : list Z) (bits_na bits_ng : Z) (r : jac) : option jac :=
  match k with
  | O => Some r
  | S k' =>
      let! i := Z.of_nat k' in
      let* r := j_double dbg r in
      let* n := idx wnaf_na i in
      let* r := (if (i <? bits_na) && negb (n =? 0) then
                   let* t := table_get_ge pre_a n WINDOW_A in j_add_ge_v dbg r t
                 else Some r) in
      let* n := idx wnaf_ng i in
      let* r := (if (i <? bits_ng) && negb (n =? 0) then
                   let* t := table_get_ge_storage pre_g n WINDOW_G in j_add_zinv_var dbg r t z
                 else Some r) in
      ecmult_loop k' pre_g pre_a z wnaf_na wnaf_ng bits_na bits_ng r
  end.

(** core/src/ecmult.rs:454-489 [ecmult]: na*a + ng*G *)
Definition ecmult (ctx : ecctx) (a : jac) (na ng : scalar) : option jac :=
  let '(Ctx pre_g) := ctx in
  let* '(wnaf_na, bits_na) := ecmult_wnaf 256 na WINDOW_A in
  let* '(pre_a, z) := odd_multiples_table_globalz_windowa a in
  let* '(wnaf_ng, bits_ng) := ecmult_wnaf 256 ng WINDOW_G in
  let! bits := if bits_na <? bits_ng then bits_ng else bits_na in
  let* r := ecmult_loop (Z.to_nat bits) pre_g pre_a z wnaf_na wnaf_ng bits_na bits_ng j_set_infinity in
  if j_inf r then Some r
  else let* zr := f_mul dbg (j_z r) z in Some (Ja (j_x r) (j_y r) zr false).

(** core/src/ecmult.rs:526-529: [k] calls of [double_nonzero_in_place] *)
Fixpoint double_nonzero_n (k : nat) (r : jac) : option jac :=
  match k with
  | O => Some r
  | S k' => let* r := j_double_nonzero_in_place dbg r r in double_nonzero_n k' r
  end.

(** core/src/ecmult.rs:525-535: the main loop of [ecmult_const]; [tmpa] keeps its value between iterations *)
Fixpoint ecmult_const_loop (k : nat) (pre_a : list affine) (wnaf : list Z) (tmpa : affine) (r : jac) : option jac :=
  match k with
  | O => Some r
  | S k' =>
      let* r := double_nonzero_n 4 r in
      let* n := idx wnaf (Z.of_nat k') in
      let* tmpa := table_get_ge_const tmpa pre_a n WINDOW_A in
      dassert dbg (negb (n =? 0)) ;;
      let* r := j_add_ge dbg r tmpa in
      ecmult_const_loop k' pre_a wnaf tmpa r
  end.

(** core/src/ecmult.rs:491-557 [ecmult_const]: scalar*a *)
Definition ecmult_const (a : affine) (sc : scalar) : option jac :=
  let* '(wnaf, skew) := ecmult_wnaf_const 65 sc (WINDOW_A - 1) in
  let* r := j_set_ge dbg a in
  let* '(pre_a, z) := odd_multiples_table_globalz_windowa r in
  let* pre_a := mapo (fun p => let* y := f_normalize_weak dbg (af_y p) in
                               Some (Af (af_x p) y (af_inf p))) pre_a in
  let* i := idx wnaf 64 in
  dassert dbg (negb (i =? 0)) ;;
  let* tmpa := table_get_ge_const af_default pre_a i WINDOW_A in
  let* r := j_set_ge dbg tmpa in
  let* r := ecmult_const_loop 64 pre_a wnaf tmpa r in
  let* rz := f_mul dbg (j_z r) z in
  let! r := Ja (j_x r) (j_y r) rz (j_inf r) in
  let* tmpj := j_set_ge dbg a in
  let* tmpj := j_double dbg tmpj in
  let* correction := af_set_gej dbg tmpj in
  let* c1 := af_to_storage dbg a in
  let* a2 := af_to_storage dbg correction in
  let! c1 := as_cmov c1 a2 (skew =? 2) in
  let* correction := af_neg dbg (af_from_storage c1) in
  j_add_ge dbg r correction.

(** core/src/ecmult.rs:571-573: the constant-time table look-up of [ecmult_gen] *)
Fixpoint gen_select (row : list astorage) (i bits : Z) (adds : astorage) : astorage :=
  match row with
  | [] => adds
  | p :: t => gen_select t (i + 1) bits (as_cmov adds p (i =? bits))
  end.

(** core/src/ecmult.rs:569-580: the loop of [ecmult_gen] over the rows [j], [j+1], ... *)
Fixpoint ecmult_gen_loop (prec : list (list astorage)) (j : Z) (gnb : scalar) (adds : astorage)
         (r : jac) : option jac :=
  match prec with
  | [] => Some r
  | row :: t =>
      let* bits := s_bits dbg gnb (j * 4) 4 in
      let! adds := gen_select row 0 bits adds in
      let* r := j_add_ge dbg r (af_from_storage adds) in
      ecmult_gen_loop t (j + 1) gnb adds r
  end.

(** core/src/ecmult.rs:560-582 [ecmult_gen]: gn*G *)
Definition ecmult_gen (ctx : genctx) (gn : scalar) : option jac :=
  let '(GCtx prec blind initial) := ctx in
  let* gnb := s_add dbg gn blind in
  ecmult_gen_loop prec 0 gnb as_default initial.

End Build.
