(** Model of the build script and the table generators (build.rs, gen/ecmult/src/lib.rs,
    gen/genmult/src/lib.rs): the text of const.rs and const_gen.rs, and what the compiler makes of
    it where src/lib.rs:53-60 includes it.

    Files are character strings; creating, writing and flushing them always succeeds. *)
From Coq Require Import String Ascii.
From Verif Require Import Word MField MGroup MEcmult.
Open Scope string_scope.
Open Scope Z_scope.

(** The decimal digit [d], 0 <= d < 10 *)
Definition digit (d : Z) : ascii := ascii_of_nat (Z.to_nat (48 + d)).
(** Rust's [Display] for [u32]: decimal, no leading zeros ([{}] in gen/ecmult/src/lib.rs:15 and
    gen/genmult/src/lib.rs:21).  [fuel] bounds the number of digits minus one; 10 digits suffice. *)
Fixpoint dec (fuel : nat) (v : Z) (rest : string) : string :=
  let r := String (digit (v mod 10)) rest in
  match fuel with
  | O => r
  | S k => if v <? 10 then r else dec k (v / 10) r
  end.
(** the same from enough fuel: [{}] in gen/ecmult/src/lib.rs:15, gen/genmult/src/lib.rs:21 *)
Definition dec_u32 (v : Z) : string := dec 9 v "".

(** "d7, d6, ..., d0": gen/ecmult/src/lib.rs:16-17, gen/genmult/src/lib.rs:22-23 *)
Definition emit_limbs (f : fstorage) : string :=
  match f with Fs d0 d1 d2 d3 d4 d5 d6 d7 =>
    dec_u32 d7 ++ ", " ++ dec_u32 d6 ++ ", " ++ dec_u32 d5 ++ ", " ++ dec_u32 d4 ++ ", " ++
    dec_u32 d3 ++ ", " ++ dec_u32 d2 ++ ", " ++ dec_u32 d1 ++ ", " ++ dec_u32 d0
  end.
(** One table entry after its indentation: gen/ecmult/src/lib.rs:13-19, gen/genmult/src/lib.rs:20-24 *)
Definition emit_entry (a : astorage) : string :=
  match a with As x y =>
    "crate::curve::AffineStorage::new(crate::curve::FieldStorage::new(" ++ emit_limbs x ++
    "), crate::curve::FieldStorage::new(" ++ emit_limbs y ++ ")),"
  end.

(** gen/ecmult/src/lib.rs:11-20: the loop over the table *)
Fixpoint emit_entries (indent : string) (l : list astorage) : string :=
  match l with [] => "" | a :: t => indent ++ emit_entry a ++ emit_entries indent t end.
(** gen/ecmult/src/lib.rs:7-24 [generate_to]: the whole file *)
Definition emit_ecmult (pre_g : list astorage) : string := "[" ++ emit_entries "    " pre_g ++ "]".

(** gen/genmult/src/lib.rs:17-25: one row, [prec[j][i]] for [i] in 0..16; [k] entries remain *)
Fixpoint emit_row (prec : list (list astorage)) (j : Z) (k : nat) (i : Z) : option string :=
  match k with
  | O => Some ""
  | S k' =>
      let* row := idx prec j in
      let* pg := idx row i in
      let* r := emit_row prec j k' (i + 1) in
      Some ("        " ++ emit_entry pg ++ r)
  end.
(** gen/genmult/src/lib.rs:15-27: rows [j] in 0..64; [k] rows remain *)
Fixpoint emit_rows (prec : list (list astorage)) (k : nat) (j : Z) : option string :=
  match k with
  | O => Some ""
  | S k' =>
      let* row := emit_row prec j 16 0 in
      let* r := emit_rows prec k' (j + 1) in
      Some ("    [" ++ row ++ "    ]," ++ r)
  end.
(** gen/genmult/src/lib.rs:14-28 *)
Definition emit_genmult (prec : list (list astorage)) : option string :=
  let* s := emit_rows prec 64 0 in Some ("[" ++ s ++ "]").

Section Build.
Variable dbg : bool.
(** gen/ecmult/src/lib.rs:7-24 [generate_to], the content of const.rs (build.rs:6-9) *)
Definition const_rs : option string :=
  let* c := ecmult_context_new dbg in
  match c with Ctx t => Some (emit_ecmult t) end.
(** gen/genmult/src/lib.rs:9-29 [generate_to], the content of const_gen.rs (build.rs:11-14) *)
Definition const_gen_rs : option string :=
  let* c := ecmult_gen_context_new dbg in
  match c with GCtx prec _ _ => emit_genmult prec end.
End Build.

(** ** What the compiler makes of the text

    Values of the constant expressions that can occur: integer literals, calls of the two [const fn]
    constructors, array literals. (src/lib.rs:54, 60: the argument of [new_from_raw]) *)
Inductive value := VNum (v : Z) | VField (f : fstorage) | VPoint (a : astorage) | VArr (l : list value).
(** The Rust compiler, outside /repo: tokens of the text included at src/lib.rs:54, 60 *)
Inductive token := TNum (v : Z) | TPath (s : string) | TOpen | TClose | TLBr | TRBr | TComma.

(** The Rust compiler: decimal digits *)
Definition is_digit (c : ascii) : bool := let x := nat_of_ascii c in (Nat.leb 48 x && Nat.leb x 57)%bool.
(** characters of a path: letters, underscore and the colons of [::] (the Rust compiler) *)
Definition is_path (c : ascii) : bool :=
  let x := nat_of_ascii c in
  ((Nat.leb 65 x && Nat.leb x 90) || (Nat.leb 97 x && Nat.leb x 122) || Nat.eqb x 95 || Nat.eqb x 58)%bool.
(** The Rust compiler: brackets and commas *)
Definition punct (c : ascii) : option token :=
  if Ascii.eqb c "(" then Some TOpen else if Ascii.eqb c ")" then Some TClose else
  if Ascii.eqb c "[" then Some TLBr else if Ascii.eqb c "]" then Some TRBr else
  if Ascii.eqb c "," then Some TComma else None.

(** The lexer: between tokens, inside a number, inside a path. (The Rust compiler, outside /repo.) *)
Inductive lexst := LIdle | LNum (v : Z) | LPath (s : string).
(** The Rust compiler: the token being read, completed *)
Definition flush (st : lexst) : list token :=
  match st with LIdle => [] | LNum v => [TNum v] | LPath s => [TPath s] end.
(** no code of its own: tokens put in front of an optional list *)
Definition consl (l : list token) (o : option (list token)) : option (list token) :=
  match o with Some t => Some (l ++ t)%list | None => None end.
(** The Rust compiler: the whole text into tokens *)
Fixpoint lex (s : string) (st : lexst) : option (list token) :=
  match s with
  | EmptyString => Some (flush st)
  | String c t =>
      if is_digit c then
        let d := Z.of_nat (nat_of_ascii c) - 48 in
        match st with
        | LIdle => lex t (LNum d)
        | LNum v => lex t (LNum (10 * v + d))
        | LPath p => lex t (LPath (p ++ String c ""))
        end
      else if is_path c then
        match st with
        | LIdle => lex t (LPath (String c ""))
        | LNum _ => None
        | LPath p => lex t (LPath (p ++ String c ""))
        end
      else if Ascii.eqb c " " then consl (flush st) (lex t LIdle)
      else match punct c with
           | Some k => consl (flush st ++ [k])%list (lex t LIdle)
           | None => None
           end
  end.

(** The constructors: core/src/field.rs:1781-1793 [FieldStorage::new] takes the most significant limb
    first, core/src/group.rs:703-705 [AffineStorage::new]; a [u32] literal out of range does not compile. *)
Definition u32_lit (v : value) : option Z :=
  match v with VNum v => if (0 <=? v) && (v <? 2 ^ 32) then Some v else None | _ => None end.
(** core/src/field.rs:1781-1793 [FieldStorage::new], core/src/group.rs:703-705 [AffineStorage::new] *)
Definition call (path : string) (args : list value) : option value :=
  if String.eqb path "crate::curve::FieldStorage::new" then
    match args with
    | [a7; a6; a5; a4; a3; a2; a1; a0] =>
        let* d7 := u32_lit a7 in let* d6 := u32_lit a6 in let* d5 := u32_lit a5 in let* d4 := u32_lit a4 in
        let* d3 := u32_lit a3 in let* d2 := u32_lit a2 in let* d1 := u32_lit a1 in let* d0 := u32_lit a0 in
        Some (VField (Fs d0 d1 d2 d3 d4 d5 d6 d7))
    | _ => None
    end
  else if String.eqb path "crate::curve::AffineStorage::new" then
    match args with [VField x; VField y] => Some (VPoint (As x y)) | _ => None end
  else None.

(** The parser/evaluator: a stack of open brackets; each holds the function called ([None] for an array
    literal), the arguments so far (last first) and whether a comma is due before the next one. (The Rust compiler.) *)
Inductive frame := Fr (fn : option string) (args : list value) (sep : bool).
(** The Rust compiler: reading, after a function name, or finished *)
Inductive pst := PRun (stk : list frame) | PName (f : string) (stk : list frame) | PDone (v : value).
(** Deliver a completed value to the enclosing bracket. (The Rust compiler.) *)
Definition push (v : value) (stk : list frame) : option pst :=
  match stk with
  | [] => Some (PDone v)
  | Fr f args false :: t => Some (PRun (Fr f (v :: args) true :: t))
  | Fr _ _ true :: _ => None
  end.
(** The Rust compiler: a value may come next *)
Definition expects (stk : list frame) : bool := match stk with Fr _ _ true :: _ => false | _ => true end.
(** The Rust compiler: one token *)
Definition step (st : pst) (k : token) : option pst :=
  match st, k with
  | PRun stk, TNum v => push (VNum v) stk
  | PRun stk, TPath f => if expects stk then Some (PName f stk) else None
  | PName f stk, TOpen => Some (PRun (Fr (Some f) [] false :: stk))
  | PRun stk, TLBr => if expects stk then Some (PRun (Fr None [] false :: stk)) else None
  | PRun (Fr f args true :: stk), TComma => Some (PRun (Fr f args false :: stk))
  | PRun (Fr (Some f) args _ :: stk), TClose => let* v := call f (rev args) in push v stk
  | PRun (Fr None args _ :: stk), TRBr => push (VArr (rev args)) stk
  | _, _ => None
  end.
(** The Rust compiler: all tokens *)
Fixpoint steps (st : pst) (l : list token) : option pst :=
  match l with [] => Some st | k :: t => let* st := step st k in steps st t end.
(** The value of an included file. (src/lib.rs:54, 60: [include!]) *)
Definition include_value (txt : string) : option value :=
  let* toks := lex txt LIdle in
  let* st := steps (PRun []) toks in
  match st with PDone v => Some v | _ => None end.

(** Array types: every element has the element type, and the length is the declared one. (core/src/ecmult.rs:54, 175) *)
Fixpoint points (l : list value) : option (list astorage) :=
  match l with [] => Some [] | VPoint a :: t => let* r := points t in Some (a :: r) | _ => None end.
(** [[AffineStorage; len]], core/src/ecmult.rs:54, 175 *)
Definition point_array (len : nat) (v : value) : option (list astorage) :=
  match v with VArr l => let* r := points l in if Nat.eqb (length r) len then Some r else None | _ => None end.
(** [[[AffineStorage; len]; _]], core/src/ecmult.rs:175 *)
Fixpoint arrays (len : nat) (l : list value) : option (list (list astorage)) :=
  match l with [] => Some [] | v :: t => let* a := point_array len v in let* r := arrays len t in Some (a :: r) end.

(** src/lib.rs:53-54 with core/src/ecmult.rs:54-56 [ECMultContext::new_from_raw]; [None]: does not compile *)
Definition static_ecmult_context (txt : string) : option ecctx :=
  let* v := include_value txt in
  let* t := point_array ECMULT_TABLE_SIZE_G v in
  Some (Ctx t).
(** src/lib.rs:59-60 with core/src/ecmult.rs:175-181 [ECMultGenContext::new_from_raw] *)
Definition static_ecmult_gen_context (txt : string) : option genctx :=
  let* v := include_value txt in
  match v with
  | VArr l => let* rows := arrays 16 l in
              if Nat.eqb (length rows) 64 then Some (GCtx rows GEN_BLIND GEN_INITIAL) else None
  | _ => None
  end.
