(** The contexts compiled into the library are the contexts built at run time. *)
From Coq Require Import String Ascii.
From Verif Require Import Word MField MScalar MGroup MEcmult MGenSrc WP Spec FieldStore Ctx Ecmult Gen ApiGroup Mono.
Open Scope string_scope.
Open Scope list_scope.
Open Scope Z_scope.

Definition lx (s : string) (st : lexst) (toks : list token) (st' : lexst) : Prop :=
  forall t, lex (s ++ t)%string st = consl toks (lex t st').
Lemma consl_nil o : consl [] o = o. Proof. destruct o; reflexivity. Qed.
Lemma consl_app a b o : consl a (consl b o) = consl (a ++ b) o.
Proof. destruct o; cbn [consl]; [rewrite app_assoc|]; reflexivity. Qed.
Lemma str_app_assoc a b c : ((a ++ b) ++ c)%string = (a ++ (b ++ c))%string.
Proof. induction a as [|x a IH]; cbn; [reflexivity|]. f_equal. exact IH. Qed.
Lemma lx_app s1 s2 st st1 st2 a b : lx s1 st a st1 -> lx s2 st1 b st2 -> lx (s1 ++ s2) st (a ++ b) st2.
Proof. intros H K t. rewrite str_app_assoc, H, K, consl_app. reflexivity. Qed.
Lemma lx_nil st : lx "" st [] st. Proof. intros t. symmetry. apply consl_nil. Qed.

(** Reading back a decimal number. *)
Fixpoint pow10 (f : nat) : Z := match f with O => 10 | S k => 10 * pow10 k end.
Lemma digit_lex d t st : 0 <= d < 10 -> lex (String (digit d) t) st =
  match st with LIdle => lex t (LNum d) | LNum v => lex t (LNum (10 * v + d)) | LPath p => lex t (LPath (p ++ String (digit d) "")) end.
Proof.
  intros H. assert (C : d = 0 \/ d = 1 \/ d = 2 \/ d = 3 \/ d = 4 \/ d = 5 \/ d = 6 \/ d = 7 \/ d = 8 \/ d = 9) by lia.
  repeat (destruct C as [C | C]; [rewrite C; destruct st; reflexivity|]). rewrite C; destruct st; reflexivity.
Qed.
Lemma dec_lex f : forall v t, 0 <= v < pow10 f -> lex (dec f v t) LIdle = lex t (LNum v).
Proof.
  induction f as [|f IH]; intros v t H; cbn [dec pow10] in *.
  - pose proof (Z.mod_pos_bound v 10 ltac:(lia)). rewrite digit_lex by lia. rewrite Z.mod_small by lia. reflexivity.
  - pose proof (Z.mod_pos_bound v 10 ltac:(lia)). destruct (Z.ltb_spec v 10).
    + rewrite digit_lex by lia. rewrite Z.mod_small by lia. reflexivity.
    + rewrite IH by (split; [apply Z.div_pos; lia | apply Z.div_lt_upper_bound; lia]).
      rewrite digit_lex by lia. rewrite <- Z.div_mod by lia. reflexivity.
Qed.
Lemma dec_app f : forall v s t, (dec f v s ++ t)%string = dec f v (s ++ t).
Proof. induction f as [|f IH]; intros v s t; cbn [dec]; [reflexivity|]. destruct (v <? 10); [reflexivity|]. rewrite IH. reflexivity. Qed.
Definition u32b (v : Z) : Prop := 0 <= v < 2 ^ 32.
Lemma lx_dec v : u32b v -> lx (dec_u32 v) LIdle [] (LNum v).
Proof. intros H t. unfold dec_u32. rewrite dec_app, consl_nil. apply dec_lex. unfold u32b in H. cbn [pow10]. lia. Qed.

(** Tokens of an entry. *)
Definition limb_toks (f : fstorage) : list token :=
  match f with Fs d0 d1 d2 d3 d4 d5 d6 d7 =>
   [TNum d7; TComma; TNum d6; TComma; TNum d5; TComma; TNum d4; TComma; TNum d3; TComma; TNum d2; TComma; TNum d1; TComma; TNum d0] end.
Definition fnew : string := "crate::curve::FieldStorage::new".
Definition entry_toks (a : astorage) : list token :=
  match a with As x y =>
   [TPath "crate::curve::AffineStorage::new"; TOpen; TPath fnew; TOpen] ++ limb_toks x ++ [TClose; TComma; TPath fnew; TOpen] ++ limb_toks y ++ [TClose; TClose; TComma] end.
Definition limbs_ok (f : fstorage) : Prop :=
  match f with Fs d0 d1 d2 d3 d4 d5 d6 d7 => u32b d0 /\ u32b d1 /\ u32b d2 /\ u32b d3 /\ u32b d4 /\ u32b d5 /\ u32b d6 /\ u32b d7 end.
Definition entry_ok (a : astorage) : Prop := match a with As x y => limbs_ok x /\ limbs_ok y end.

Lemma lx_comma v : lx ", " (LNum v) [TNum v; TComma] LIdle.
Proof. intros t. cbn. rewrite consl_nil. reflexivity. Qed.
Lemma lex_limbs f t k ts : limbs_ok f -> (forall d, lex t (LNum d) = consl (TNum d :: k) ts) -> lex (emit_limbs f ++ t)%string LIdle = consl (limb_toks f ++ k) ts.
Proof.
  destruct f as [d0 d1 d2 d3 d4 d5 d6 d7]. intros (H0 & H1 & H2 & H3 & H4 & H5 & H6 & H7) K. unfold emit_limbs. rewrite !str_app_assoc.
  rewrite (lx_dec d7 H7), lx_comma, (lx_dec d6 H6), lx_comma, (lx_dec d5 H5), lx_comma, (lx_dec d4 H4), lx_comma,
    (lx_dec d3 H3), lx_comma, (lx_dec d2 H2), lx_comma, (lx_dec d1 H1), lx_comma, (lx_dec d0 H0), K.
  rewrite !consl_app. reflexivity.
Qed.
Lemma lx_entry a : entry_ok a -> lx (emit_entry a) LIdle (entry_toks a) LIdle.
Proof.
  destruct a as [x y]. intros [HX HY] t. unfold emit_entry. rewrite !str_app_assoc.
  assert (A : forall u, lex ("crate::curve::AffineStorage::new(crate::curve::FieldStorage::new(" ++ u)%string LIdle =
    consl [TPath "crate::curve::AffineStorage::new"; TOpen; TPath fnew; TOpen] (lex u LIdle)).
  { intros u. transitivity (consl [TPath "crate::curve::AffineStorage::new"; TOpen] (consl [TPath fnew; TOpen] (lex u LIdle))); [reflexivity | apply consl_app]. }
  rewrite A. rewrite (lex_limbs x _ [TClose; TComma; TPath fnew; TOpen] (lex (emit_limbs y ++ ")),"%string ++ t)%string LIdle) HX).
  - rewrite (lex_limbs y _ [TClose; TClose; TComma] (lex t LIdle) HY).
    + rewrite !consl_app. unfold entry_toks. rewrite <- !app_assoc. reflexivity.
    + intros d. transitivity (consl [TNum d; TClose] (consl [TClose] (consl [TComma] (lex t LIdle)))); [reflexivity|]. rewrite !consl_app. reflexivity.
  - intros d. set (u := (emit_limbs y ++ _)%string).
    transitivity (consl [TNum d; TClose] (consl [TComma] (consl [] (consl [TPath fnew; TOpen] (lex u LIdle))))); [reflexivity|]. rewrite !consl_app. reflexivity.
Qed.
Lemma lx_entries ind l : lx ind LIdle [] LIdle -> Forall entry_ok l -> lx (emit_entries ind l) LIdle (flat_map entry_toks l) LIdle.
Proof.
  intros HI. induction 1 as [|a l HA _ IH]; cbn [emit_entries flat_map]; [apply lx_nil|].
  apply (lx_app _ _ _ _ _ [] _ HI). apply (lx_app _ _ _ _ _ _ _ (lx_entry a HA) IH).
Qed.

(** Evaluating the tokens. *)
Lemma u32_lit_ok d : u32b d -> u32_lit (VNum d) = Some d.
Proof. intros H. unfold u32b in H. unfold u32_lit. destruct (Z.leb_spec 0 d), (Z.ltb_spec d (2 ^ 32)); cbn [andb]; try reflexivity; lia. Qed.
Lemma call_field d0 d1 d2 d3 d4 d5 d6 d7 : limbs_ok (Fs d0 d1 d2 d3 d4 d5 d6 d7) ->
  call fnew [VNum d7; VNum d6; VNum d5; VNum d4; VNum d3; VNum d2; VNum d1; VNum d0] = Some (VField (Fs d0 d1 d2 d3 d4 d5 d6 d7)).
Proof. intros (H0 & H1 & H2 & H3 & H4 & H5 & H6 & H7). unfold call. change (String.eqb fnew "crate::curve::FieldStorage::new") with true. cbv iota. rewrite !u32_lit_ok by assumption. reflexivity. Qed.
Lemma steps_cons st k l : steps st (k :: l) = bind (step st k) (fun st => steps st l). Proof. reflexivity. Qed.
Lemma run1 st k st' l : step st k = Some st' -> steps st (k :: l) = steps st' l.
Proof. intros H. cbn [steps]. rewrite H. reflexivity. Qed.
Lemma steps_limbs f stk rest : limbs_ok f -> expects stk = true ->
  steps (PRun stk) (TPath fnew :: TOpen :: limb_toks f ++ TClose :: rest) = bind (push (VField f) stk) (fun st => steps st rest).
Proof.
  destruct f as [d0 d1 d2 d3 d4 d5 d6 d7]. intros H E. cbn [limb_toks app]. rewrite (run1 _ _ (PName fnew stk)).
  2: destruct stk as [|[[f|] a []] ?]; try discriminate E; reflexivity.
  do 16 (erewrite run1; [|reflexivity]). cbn [steps step rev app]. rewrite (call_field _ _ _ _ _ _ _ _ H). reflexivity.
Qed.
Lemma steps_entry a args stk rest : entry_ok a ->
  steps (PRun (Fr None args false :: stk)) (entry_toks a ++ rest) = steps (PRun (Fr None (VPoint a :: args) false :: stk)) rest.
Proof.
  destruct a as [x y]. intros [HX HY]. unfold entry_toks. rewrite <- !app_assoc. cbn [app]. do 2 (erewrite run1; [|reflexivity]).
  rewrite (steps_limbs x) by (assumption || reflexivity). cbn [push bind]. erewrite run1; [|reflexivity].
  rewrite (steps_limbs y) by (assumption || reflexivity). cbn [push bind]. do 2 (erewrite run1; [|reflexivity]). reflexivity.
Qed.
Lemma steps_entries l : forall args stk rest, Forall entry_ok l ->
  steps (PRun (Fr None args false :: stk)) (flat_map entry_toks l ++ rest) = steps (PRun (Fr None (rev (map VPoint l) ++ args) false :: stk)) rest.
Proof.
  induction l as [|a l IH]; intros args stk rest H; cbn [flat_map map rev app]; [reflexivity|]. inversion_clear H.
  rewrite <- app_assoc, steps_entry, IH by assumption. rewrite <- app_assoc. reflexivity.
Qed.
Lemma points_map l : points (map VPoint l) = Some l.
Proof. induction l as [|a l IH]; cbn; [reflexivity|]. rewrite IH. reflexivity. Qed.
Lemma point_array_ok l len : length l = len -> point_array len (VArr (map VPoint l)) = Some l.
Proof. intros <-. unfold point_array. rewrite points_map. cbn [bind]. rewrite Nat.eqb_refl. reflexivity. Qed.

Lemma static_ecmult_ok t : length t = ECMULT_TABLE_SIZE_G -> Forall entry_ok t -> static_ecmult_context (emit_ecmult t) = Some (Ctx t).
Proof.
  intros L H. unfold static_ecmult_context, include_value, emit_ecmult.
  assert (E : lex ("[" ++ emit_entries "    " t ++ "]")%string LIdle = Some (TLBr :: flat_map entry_toks t ++ [TRBr])).
  { transitivity (consl [TLBr] (lex (emit_entries "    " t ++ "]")%string LIdle)); [reflexivity|].
    rewrite (lx_entries "    " t); [|intros u; cbn; rewrite !consl_nil; reflexivity | exact H]. reflexivity. }
  rewrite E. change (bind (Some ?x) ?f) with (f x). cbv beta. rewrite steps_cons. cbn [step expects]. change (bind (Some ?x) ?f) with (f x). cbv beta.
  rewrite steps_entries by exact H. rewrite steps_cons. cbn [step steps]. rewrite app_nil_r, rev_involutive. cbn [push]. do 3 (change (bind (Some ?x) ?f) with (f x); cbv beta iota).
  rewrite point_array_ok by exact L. reflexivity.
Qed.

(** The signing table. *)
Definition row_toks (r : list astorage) : list token := TLBr :: flat_map entry_toks r ++ [TRBr; TComma].
Definition rows_str (rows : list (list astorage)) : string := fold_right (fun r s => ("    [" ++ emit_entries "        " r ++ "    ]," ++ s)%string) ""%string rows.
Lemma idx_nat {A} (l : list A) i : idx l (Z.of_nat i) = nth_error l i.
Proof. unfold idx. destruct (Z.ltb_spec (Z.of_nat i) 0); [lia|]. rewrite Nat2Z.id. reflexivity. Qed.
Lemma emit_row_ok prec j row k : forall i, nth_error prec j = Some row -> (i + k = length row)%nat ->
  emit_row prec (Z.of_nat j) k (Z.of_nat i) = Some (emit_entries "        " (skipn i row)).
Proof.
  induction k as [|k IH]; intros i HJ HL; cbn [emit_row].
  - rewrite skipn_all2 by lia. reflexivity.
  - rewrite idx_nat, HJ. cbn [bind]. rewrite idx_nat. destruct (nth_error row i) as [a|] eqn:E; [|apply nth_error_None in E; lia].
    cbn [bind]. replace (Z.of_nat i + 1) with (Z.of_nat (S i)) by lia. rewrite IH by (assumption || lia). cbn [bind].
    f_equal. assert (S : skipn i row = a :: skipn (S i) row).
    { clear -E. revert i E. induction row as [|b row IH]; intros [|i] E; try discriminate E; [injection E as ->; reflexivity | exact (IH i E)]. }
    rewrite S. reflexivity.
Qed.
Lemma skipn_cons {A} (l : list A) : forall i a, nth_error l i = Some a -> skipn i l = a :: skipn (S i) l.
Proof. induction l as [|b l IH]; intros [|i] a E; try discriminate E; [injection E as ->; reflexivity | exact (IH i a E)]. Qed.
Lemma emit_rows_ok prec k : forall j, (j + k = length prec)%nat -> Forall (fun r => length r = 16%nat) prec ->
  emit_rows prec k (Z.of_nat j) = Some (rows_str (skipn j prec)).
Proof.
  induction k as [|k IH]; intros j HL HF; cbn [emit_rows].
  - rewrite skipn_all2 by lia. reflexivity.
  - destruct (nth_error prec j) as [row|] eqn:E; [|apply nth_error_None in E; lia].
    pose proof (proj1 (Forall_forall _ _) HF row (nth_error_In _ _ E)) as R. cbv beta in R.
    change 0 with (Z.of_nat 0). rewrite (emit_row_ok prec j row 16 0 E) by (rewrite R; reflexivity). cbn [bind].
    replace (Z.of_nat j + 1) with (Z.of_nat (S j)) by lia. rewrite IH by (assumption || lia). cbn [bind]. rewrite (skipn_cons prec j row E). reflexivity.
Qed.
Lemma lx_rows rows : Forall (Forall entry_ok) rows -> lx (rows_str rows) LIdle (flat_map row_toks rows) LIdle.
Proof.
  induction 1 as [|r rows HR _ IH]; cbn [rows_str fold_right flat_map]; [apply lx_nil|]. fold (rows_str rows).
  intros t. rewrite !str_app_assoc.
  assert (A : forall u, lex ("    [" ++ u)%string LIdle = consl [TLBr] (lex u LIdle)) by (intros u; cbn; rewrite !consl_nil; reflexivity).
  assert (B : forall u, lex ("    ]," ++ u)%string LIdle = consl [TRBr; TComma] (lex u LIdle)) by (intros u; transitivity (consl [] (consl [] (consl [] (consl [] (consl [TRBr] (consl [TComma] (lex u LIdle))))))); [reflexivity | rewrite !consl_app; reflexivity]).
  rewrite A, (lx_entries "        " r); [|intros u; cbn; rewrite !consl_nil; reflexivity | exact HR]. rewrite B, IH, !consl_app. unfold row_toks. cbn [app]. rewrite <- !app_assoc. reflexivity.
Qed.
Lemma steps_rows rows : forall args rest, Forall (Forall entry_ok) rows ->
  steps (PRun [Fr None args false]) (flat_map row_toks rows ++ rest) = steps (PRun [Fr None (rev (map (fun r => VArr (map VPoint r)) rows) ++ args) false]) rest.
Proof.
  induction rows as [|r rows IH]; intros args rest H; cbn [flat_map map rev app]; [reflexivity|]. inversion_clear H.
  unfold row_toks at 1. cbn [app]. rewrite steps_cons. cbn [step expects bind]. rewrite <- !app_assoc.
  rewrite steps_entries by assumption. cbn [app]. do 2 (erewrite run1; [|reflexivity]). rewrite app_nil_r, rev_involutive.
  rewrite IH by assumption. reflexivity.
Qed.
Lemma arrays_ok rows : Forall (fun r => length r = 16%nat) rows -> arrays 16 (map (fun r => VArr (map VPoint r)) rows) = Some rows.
Proof. induction 1 as [|r rows HR _ IH]; cbn [map arrays]; [reflexivity|]. rewrite (point_array_ok r 16 HR). cbn [bind]. rewrite IH. reflexivity. Qed.
Lemma static_genmult_ok prec : length prec = 64%nat -> Forall (fun r => length r = 16%nat) prec -> Forall (Forall entry_ok) prec ->
  exists txt, emit_genmult prec = Some txt /\ static_ecmult_gen_context txt = Some (GCtx prec GEN_BLIND GEN_INITIAL).
Proof.
  intros L R H. exists ("[" ++ rows_str prec ++ "]")%string. split.
  - unfold emit_genmult. change 0 with (Z.of_nat 0). rewrite emit_rows_ok by (rewrite ?L; assumption || reflexivity). reflexivity.
  - unfold static_ecmult_gen_context, include_value.
    assert (E : lex ("[" ++ rows_str prec ++ "]")%string LIdle = Some (TLBr :: flat_map row_toks prec ++ [TRBr])).
    { transitivity (consl [TLBr] (lex (rows_str prec ++ "]")%string LIdle)); [reflexivity|]. rewrite (lx_rows prec H). reflexivity. }
    rewrite E. change (bind (Some ?x) ?f) with (f x). cbv beta. rewrite steps_cons. cbn [step expects]. change (bind (Some ?x) ?f) with (f x). cbv beta.
    rewrite steps_rows by exact H. rewrite steps_cons. cbn [step steps]. rewrite app_nil_r, rev_involutive. cbn [push]. do 3 (change (bind (Some ?x) ?f) with (f x); cbv beta iota).
    rewrite (arrays_ok prec R). cbn [bind]. rewrite L. reflexivity.
Qed.
Lemma limbs_of_ok f : fs_ok f -> limbs_ok f.
Proof. destruct f. unfold fs_ok, u32x8, limbs_ok, u32b, u32. lia. Qed.
Lemma stored_entry s P : stored_at s P -> entry_ok s.
Proof. destruct s as [x y]. intros (X & Y & _). split; apply limbs_of_ok; assumption. Qed.
Lemma builds_same {A} (f : bool -> option A) : ref (f true) (f false) -> (forall d, exists c, f d = Some c) -> forall d d', f d = f d'.
Proof.
  intros R E. destruct (E true) as [c HT]. pose proof (R c HT) as HF. intros [] []; congruence.
Qed.
Lemma ctx_same dbg dbg' : ecmult_context_new dbg = ecmult_context_new dbg'.
Proof. revert dbg dbg'. apply builds_same; [apply ecmult_context_new_ref|]. intros d. destruct (C54_contexts_pf d) as [(c & H & _) _]. exists c. exact H. Qed.
Lemma gctx_same dbg dbg' : ecmult_gen_context_new dbg = ecmult_gen_context_new dbg'.
Proof. revert dbg dbg'. apply builds_same; [apply ecmult_gen_context_new_ref|]. intros d. destruct (C54_contexts_pf d) as [_ (c & H & _)]. exists c. exact H. Qed.

(** The verification context a [static-context] library is compiled with (from the text its build script writes) is
    the one built at run time, whichever build modes the build script and the library use; it is a valid context. *)
Lemma C67_static_verify_context_pf : forall dbg dbg', exists txt c, const_rs dbg = Some txt /\ static_ecmult_context txt = Some c /\ ecmult_context_new dbg' = Some c /\ verify_ctx c.
Proof.
  intros dbg dbg'. destruct (C54_contexts_pf dbg) as [(c & H & V) _]. unfold const_rs. rewrite (ctx_same dbg' dbg), H. change (bind (Some ?x) ?f) with (f x). cbv beta.
  destruct c as [t]. exists (emit_ecmult t), (Ctx t). split; [reflexivity|]. destruct V as [L V]. split; [|split; [reflexivity | split; assumption]].
  apply static_ecmult_ok; [unfold ECMULT_TABLE_SIZE_G; lia|]. apply Forall_forall. intros s I. destruct (In_nth_error _ _ I) as [i HI]. exact (stored_entry _ _ (V i s HI)).
Qed.
Lemma gen_prec_only dbg c : ecmult_gen_context_new dbg = Some c -> exists prec, c = GCtx prec GEN_BLIND GEN_INITIAL.
Proof.
  unfold ecmult_gen_context_new. intros H.
  repeat match type of H with
  | bind ?o _ = Some _ => let E := fresh "E" in destruct o as [?|] eqn:E; [change (bind (Some ?x) ?f) with (f x) in H; cbv beta in H | discriminate H]
  | (let (_, _) := ?q in _) = Some _ => destruct q
  end.
  injection H as <-. eexists. reflexivity.
Qed.
(** The same for the signing context. *)
Lemma C67_static_gen_context_pf : forall dbg dbg', exists txt c, const_gen_rs dbg = Some txt /\ static_ecmult_gen_context txt = Some c /\ ecmult_gen_context_new dbg' = Some c /\ gen_ctx c.
Proof.
  intros dbg dbg'. destruct (C54_contexts_pf dbg) as [_ (c & H & V)]. unfold const_gen_rs. rewrite (gctx_same dbg' dbg), H. change (bind (Some ?x) ?f) with (f x). cbv beta.
  destruct (gen_prec_only dbg c H) as [prec ->]. pose proof V as V'. destruct V as (b & I & Bs & _ & _ & _ & LB & _ & LP & R & _).
  assert (RR : forall row, In row prec -> length row = 16%nat /\ Forall entry_ok row).
  { intros row IR. destruct (In_nth_error _ _ IR) as [j HJ]. assert (LJ : (j < length Bs)%nat) by (rewrite LB, <- LP; apply nth_error_Some; rewrite HJ; discriminate).
    apply nth_error_Some in LJ. destruct (nth_error Bs j) as [B|] eqn:EB; [|contradiction]. destruct (R j row B HJ EB) as [L16 HS]. split; [exact L16|].
    apply Forall_forall. intros s IS. destruct (In_nth_error _ _ IS) as [i HI]. exact (stored_entry _ _ (HS i s HI)). }
  destruct (static_genmult_ok prec LP) as (txt & ET & ES).
  - apply Forall_forall. intros row IR. apply (RR row IR).
  - apply Forall_forall. intros row IR. apply (RR row IR).
  - exists txt, (GCtx prec GEN_BLIND GEN_INITIAL). split; [exact ET|]. split; [exact ES|]. split; [reflexivity | exact V'].
Qed.
(** The emitted text means the table it was printed from, for every table of 32-bit limbs of the declared shape. *)
Lemma C67_text_round_trip_pf : (forall t, Z.of_nat (length t) = 16384 -> (forall a, In a t -> entry_ok a) -> static_ecmult_context (emit_ecmult t) = Some (Ctx t)) /\
  (forall prec, length prec = 64%nat -> (forall r, In r prec -> length r = 16%nat /\ forall a, In a r -> entry_ok a) ->
     exists txt, emit_genmult prec = Some txt /\ static_ecmult_gen_context txt = Some (GCtx prec GEN_BLIND GEN_INITIAL)).
Proof.
  split.
  - intros t L H. apply static_ecmult_ok; [unfold ECMULT_TABLE_SIZE_G; lia | apply Forall_forall; exact H].
  - intros prec L H. apply static_genmult_ok; [exact L | |]; apply Forall_forall; intros r IR; destruct (H r IR) as [L16 HE]; [exact L16 | apply Forall_forall; exact HE].
Qed.
(** An entry with extreme limbs, as written and as read back. *)
Lemma C67_text_round_trip_example_pf : entry_ok (As (Fs 0 1 2 3 4 5 6 4294967295) (Fs 10 0 0 0 0 0 0 0)) /\
  emit_ecmult [As (Fs 0 1 2 3 4 5 6 4294967295) (Fs 10 0 0 0 0 0 0 0)] =
    "[    crate::curve::AffineStorage::new(crate::curve::FieldStorage::new(4294967295, 6, 5, 4, 3, 2, 1, 0), crate::curve::FieldStorage::new(0, 0, 0, 0, 0, 0, 0, 10)),]"%string /\
  include_value "[ crate::curve::FieldStorage::new(0, 0, 0, 0, 0, 0, 0, 4294967296) ]" = None /\ include_value "[1 2]" = None.
Proof. split; [unfold entry_ok, limbs_ok, u32b; lia|]. repeat split; reflexivity. Qed.
