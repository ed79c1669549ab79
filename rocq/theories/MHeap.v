(** The construction of the two contexts, with its arrays, indices and the uninitialised heap block.

    MEcmult.v computes the tables as lists.  Here the same functions are written as the source has them:
    arrays that are overwritten in place, index arithmetic, bounds checks, and a block from the allocator
    whose contents are undefined until written.  [Undef] is undefined behaviour: reading (or handing out a
    reference to) a cell that was never written, dereferencing the null pointer of a failed allocation, or
    returning a block with cells never written. *)
From Verif Require Import Word MField MScalar MGroup MEcmult.

(** no code of its own: a value, a panic, or undefined behaviour *)
Inductive res (A : Type) := Val (a : A) | Panic | Undef.
Arguments Val {A} _. Arguments Panic {A}. Arguments Undef {A}.
(** no code of its own: sequencing *)
Definition bindR {A B} (r : res A) (f : A -> res B) : res B :=
  match r with Val a => f a | Panic => Panic | Undef => Undef end.
Notation "'let%' x ':=' e 'in' b" := (bindR e (fun x => b))
  (at level 200, x binder, e at level 100, b at level 200, right associativity).
(** a function without arrays: [None] is a panic (no lines of its own) *)
Definition ofo {A} (o : option A) : res A := match o with Some a => Val a | None => Panic end.

(** memory cells: [None] was never written *)
Notation cells A := (list (option A)).
(** [l[i]], read (core/src/ecmult.rs:93-135, 237, 282, core/src/group.rs:224-253) *)
Definition get {A} (l : cells A) (i : nat) : res A :=
  match nth_error l i with None => Panic | Some None => Undef | Some (Some a) => Val a end.
(** no code of its own: element [i] of a list replaced *)
Fixpoint upd {A} (l : list A) (i : nat) (v : A) : list A :=
  match l, i with
  | [], _ => []
  | _ :: t, O => v :: t
  | a :: t, S j => a :: upd t j v
  end.
(** [l[i] = v] (core/src/ecmult.rs:38, 74, 103-138, 235-237, 275-286, core/src/group.rs:225-253) *)
Definition set {A} (l : cells A) (i : nat) (v : A) : res (cells A) :=
  if Nat.ltb i (length l) then Val (upd l i (Some v)) else Panic.
(** [l[j][i] = v] (core/src/ecmult.rs:200, 253) *)
Definition set2 {A} (l : list (cells A)) (j i : nat) (v : A) : res (list (cells A)) :=
  match nth_error l j with
  | None => Panic
  | Some row => let% row' := set row i v in Val (upd l j row')
  end.
(** [for i in lo..lo + k] (core/src/ecmult.rs:37, 73, 102, 124, 198-199, 234-251, 281) *)
Fixpoint for_up {S} (k lo : nat) (body : nat -> S -> res S) (s : S) : res S :=
  match k with
  | O => Val s
  | Datatypes.S k' => let% s := body lo s in for_up k' (Datatypes.S lo) body s
  end.
(** every cell was written when [new_boxed] hands the block out (core/src/ecmult.rs:84, 257) *)
Fixpoint freeze {A} (l : cells A) : res (list A) :=
  match l with
  | [] => Val []
  | None :: _ => Undef
  | Some a :: t => let% r := freeze t in Val (a :: r)
  end.
(** [Vec]/array of [n] default elements (core/src/ecmult.rs:22-32, 99, 229-231) *)
Definition vec {A} (n : nat) (d : A) : cells A := repeat (Some d) n.

Section Build.
Variable dbg : bool.
(** [debug_assert!] (core/src/ecmult.rs:262-264, core/src/group.rs:218, 236) *)
Definition chk (b : bool) : res unit := ofo (dassert dbg b).

(** core/src/ecmult.rs:261-287 [odd_multiples_table] *)
Definition i_odd_multiples_table (prej : cells jac) (zr : cells field) (a : jac) : res (cells jac * cells field) :=
  let% _ := chk (Nat.eqb (length prej) (length zr)) in
  let% _ := chk (negb (Nat.eqb (length prej) 0)) in
  let% _ := chk (negb (j_inf a)) in
  let% d := ofo (j_double dbg a) in
  let d_ge := Af (j_x d) (j_y d) false in
  let% a_ge := ofo (af_set_gej_zinv dbg a (j_z d)) in
  let% prej := set prej 0 (Ja (af_x a_ge) (af_y a_ge) (j_z a) false) in
  let% zr := set zr 0 (j_z d) in
  let% '(prej, zr) := for_up (length prej - 1) 1 (fun i s =>
    let '(prej, zr) := s in
    let% p := get prej (i - 1) in
    let% old := get zr i in
    let% '(nx, z) := ofo (j_add_ge_var dbg p d_ge (Some old)) in
    let% prej := set prej i nx in
    let% zr := set zr i (match z with Some f => f | None => old end) in
    Val (prej, zr)) (prej, zr) in
  let% last := get prej (length prej - 1) in
  let% l := ofo (f_mul dbg (j_z last) (j_z d)) in
  let% prej := set prej (length prej - 1) (Ja (j_x last) (j_y last) l (j_inf last)) in
  Val (prej, zr).

(** core/src/group.rs:227-231: the loop of [set_table_gej_var] *)
Fixpoint i_table_down (i : nat) (r : cells affine) (a : cells jac) (zr : cells field) (zi : field) : res (cells affine) :=
  match i with
  | O => Val r
  | S j =>
      let% z := get zr i in
      let% zi := ofo (f_mul dbg zi z) in
      let% aj := get a j in
      let% q := ofo (af_set_gej_zinv dbg aj zi) in
      let% r := set r j q in
      i_table_down j r a zr zi
  end.
(** core/src/group.rs:217-233 [set_table_gej_var]; [r.len() - 1] of an empty slice overflows *)
Definition i_set_table_gej_var (r : cells affine) (a : cells jac) (zr : cells field) : res (cells affine) :=
  let% _ := chk (Nat.eqb (length r) (length a)) in
  match length r with
  | O => let% _ := chk false in Val r
  | S i =>
      let% al := get a i in
      let% zi := ofo (f_inv dbg (j_z al)) in
      let% q := ofo (af_set_gej_zinv dbg al zi) in
      let% r := set r i q in
      i_table_down i r a zr zi
  end.
(** core/src/group.rs:248-254: the loop of [globalz_set_table_gej]; [n] is [r.len()] *)
Fixpoint i_globalz_down (n i : nat) (r : cells affine) (a : cells jac) (zr : cells field) (zs : field) : res (cells affine) :=
  match i with
  | O => Val r
  | S j =>
      let% zs := (if Nat.eqb i (n - 1) then Val zs else let% z := get zr i in ofo (f_mul dbg zs z)) in
      let% aj := get a j in
      let% q := ofo (af_set_gej_zinv dbg aj zs) in
      let% r := set r j q in
      i_globalz_down n j r a zr zs
  end.
(** core/src/group.rs:235-256 [globalz_set_table_gej] *)
Definition i_globalz_set_table_gej (r : cells affine) (globalz : field) (a : cells jac) (zr : cells field) : res (cells affine * field) :=
  let% _ := chk (Nat.eqb (length r) (length a) && Nat.eqb (length a) (length zr)) in
  match length r with
  | O => let% _ := chk false in Val (r, globalz)
  | S i =>
      let% al := get a i in
      let% r := set r i (Af (j_x al) (j_y al) false) in
      let% zs := get zr i in
      let% r := i_globalz_down (S i) i r a zr zs in
      Val (r, j_z al)
  end.
(** core/src/ecmult.rs:289-300 [odd_multiples_table_globalz_windowa] *)
Definition i_odd_multiples_table_globalz_windowa (pre : cells affine) (globalz : field) (a : jac) : res (cells affine * field) :=
  let% '(prej, zr) := i_odd_multiples_table (vec ECMULT_TABLE_SIZE_A j_default) (vec ECMULT_TABLE_SIZE_A f_default) a in
  i_globalz_set_table_gej pre globalz prej zr.

(** core/src/ecmult.rs:20-40 [odd_multiples_table_storage_var]; the slice [pre] must be initialised *)
Definition i_odd_multiples_table_storage_var (pre : cells astorage) (a : jac) : res (cells astorage) :=
  let% _ := freeze pre in
  let% '(prej, zr) := i_odd_multiples_table (vec (length pre) j_default) (vec (length pre) f_default) a in
  let% prea := i_set_table_gej_var (vec (length pre) af_default) prej zr in
  for_up (length pre) 0 (fun i pre =>
    let% q := get prea i in
    let% st := ofo (af_to_storage dbg q) in
    set pre i st) pre.

(** core/src/ecmult.rs:64-85 [ECMultContext::new_boxed]; [null]: the allocator returned null *)
Definition h_ecmult_context_new (null : bool) : res ecctx :=
  if null then Undef else
  let block : cells astorage := repeat None ECMULT_TABLE_SIZE_G in
  let% pre_g := for_up ECMULT_TABLE_SIZE_G 0 (fun i l => set l i as_default) block in
  let% gj := ofo (j_set_ge dbg AFFINE_G) in
  let% pre_g := i_odd_multiples_table_storage_var pre_g gj in
  let% t := freeze pre_g in
  Val (Ctx t).

(** core/src/ecmult.rs:116-140 [inv_all_var] *)
Fixpoint i_inv_down (i : nat) (fields : cells field) (ret : cells field) (u : field) : res (cells field * field) :=
  match i with
  | O => Val (ret, u)
  | S k =>
      let% p := get ret k in
      let% r := ofo (f_mul dbg p u) in
      let% ret := set ret i r in
      let% f := get fields i in
      let% u := ofo (f_mul dbg u f) in
      i_inv_down k fields ret u
  end.
(** core/src/ecmult.rs:116-140 [inv_all_var]: the whole function *)
Definition i_inv_all_var (fields : cells field) : res (cells field) :=
  match length fields with
  | O => Val []
  | S n =>
      let% f0 := get fields 0 in
      let% ret := for_up n 1 (fun i ret =>
        let ret := ret ++ [Some f_default] in
        let% p := get ret (i - 1) in
        let% f := get fields i in
        let% v := ofo (f_mul dbg p f) in
        set ret i v) [Some f0] in
      let% last := get ret n in
      let% u := ofo (f_inv dbg last) in
      let% '(ret, u) := i_inv_down n fields ret u in
      set ret 0 u
  end.

(** core/src/ecmult.rs:90-110 [set_all_gej_var] *)
Definition i_set_all_gej_var (a : cells jac) : res (cells affine) :=
  let% az := for_up (length a) 0 (fun i (az : cells field) =>
    let% p := get a i in Val (if negb (j_inf p) then az ++ [Some (j_z p)] else az)) [] in
  let% azi := i_inv_all_var az in
  let% '(ret, count) := for_up (length a) 0 (fun i s =>
    let '(ret, count) := s in
    let% p := get a i in
    let% old := get ret i in
    let% ret := set ret i (Af (af_x old) (af_y old) (j_inf p)) in
    if negb (j_inf p) then
      let% zi := get azi count in
      let% q := ofo (af_set_gej_zinv dbg p zi) in
      let% ret := set ret i q in
      Val (ret, S count)
    else Val (ret, count)) (vec (length a) af_default, 0%nat) in
  Val ret.

(** core/src/ecmult.rs:228-246: the 1024 entries *)
Definition i_gen_prec (gj nums_gej : jac) : res (cells jac) :=
  let% '(precj, _, _) := for_up 64 0 (fun j s =>
    let '(precj, gbase, numsbase) := s in
    let% precj := set precj (j * 16) numsbase in
    let% precj := for_up 15 1 (fun i precj =>
      let% p := get precj (j * 16 + i - 1) in
      let% nx := ofo (j_add dbg p gbase) in
      set precj (j * 16 + i) nx) precj in
    let% gbase := for_up 4 0 (fun _ g => ofo (j_double dbg g)) gbase in
    let% numsbase := ofo (j_double dbg numsbase) in
    let% numsbase := (if Nat.eqb j 62 then let% m := ofo (j_neg dbg numsbase) in ofo (j_add dbg m nums_gej) else Val numsbase) in
    Val (precj, gbase, numsbase)) (vec 1024 j_default, gj, nums_gej) in
  Val precj.

(** the block of an [ECMultGenContext], core/src/ecmult.rs:162-166 *)
Record genblock := GB { gb_prec : list (cells astorage); gb_blind : option scalar; gb_initial : option jac }.
(** every cell of the table was written (core/src/ecmult.rs:257) *)
Fixpoint freeze_rows {A} (l : list (cells A)) : res (list (list A)) :=
  match l with
  | [] => Val []
  | c :: t => let% a := freeze c in let% r := freeze_rows t in Val (a :: r)
  end.
(** every cell of the block was written (core/src/ecmult.rs:257) *)
Definition freeze_gen (b : genblock) : res genctx :=
  let% p := freeze_rows (gb_prec b) in
  match gb_blind b, gb_initial b with
  | Some s, Some i => Val (GCtx p s i)
  | _, _ => Undef
  end.
(** core/src/ecmult.rs:188-258 [ECMultGenContext::new_boxed] *)
Definition h_ecmult_gen_context_new (null : bool) : res genctx :=
  if null then Undef else
  let block := GB (repeat (repeat None 16) 64) None None in
  let% prec := for_up 64 0 (fun j l => for_up 16 0 (fun i l => set2 l j i as_default) l) (gb_prec block) in
  let this := GB prec (Some GEN_BLIND) (Some GEN_INITIAL) in
  let% gj := ofo (j_set_ge dbg AFFINE_G) in
  let% '(nums_x, ok) := ofo (f_set_b32 dbg f_default NUMS_32) in
  let% _ := ofo (hassert ok) in
  let% '(nums_ge, ok) := ofo (af_set_xo_var dbg nums_x false) in
  let% _ := ofo (hassert ok) in
  let% nums_gej := ofo (j_set_ge dbg nums_ge) in
  let% nums_gej := ofo (j_add_ge_v dbg nums_gej AFFINE_G) in
  let% precj := i_gen_prec gj nums_gej in
  let% prec := i_set_all_gej_var precj in
  let% tab := for_up 64 0 (fun j l => for_up 16 0 (fun i l =>
    let% q := get prec (j * 16 + i) in
    let% pg := ofo (af_to_storage dbg q) in
    set2 l j i pg) l) (gb_prec this) in
  freeze_gen (GB tab (gb_blind this) (gb_initial this)).
End Build.
