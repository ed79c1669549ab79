(** How much work the functions on points do: numbers of point doublings, point additions, field inversions, square roots and scalar inversions. *)
From Coq Require Import Znumtheory Field.
From Verif Require Import Word MField MScalar MGroup MEcmult MEcdsa MCore MApi MCost CostLib WP FieldMul FieldNorm Spec Fp Bits FieldOps FieldCodec FieldStore ScalarMul ScalarOps ScalarMore ScalarBits Denote Unred Curve Group Chain Order Jac JacOps Table Ecmult Lift Gen Key Ctx ApiScalar ApiPub ApiGroup Ecdsa ApiEcdsa ApiKeys ApiGen ApiEq ApiBij.

(** Number of nonzero entries. *)
Definition nonzeros (l : list Z) : Z := Z.of_nat (length (filter (fun d => negb (d =? 0)) l)).
(** At most this many doublings, additions, field inversions, square roots and scalar inversions. *)
Definition within (c : cost) (d a i q s : Z) : Prop := c_dbl c <= d /\ c_add c <= a /\ c_inv c <= i /\ c_sqrt c <= q /\ c_sinv c <= s.

(** * Reasoning about costs *)
Definition cw {A} (m : option (A * cost)) (Q : A -> cost -> Prop) : Prop := forall a c, m = Some (a, c) -> Q a c.
Lemma cw_bind {A B} (m : option (A * cost)) (f : A -> option (B * cost)) Q : cw m (fun a c => cw (f a) (fun b c' => Q b (cadd c c'))) -> cw (bindc m f) Q.
Proof.
  intros H b c E. unfold bindc in E. destruct m as [[a c1]|]; [|discriminate E]. destruct (f a) as [[b' c2]|] eqn:F; [|discriminate E].
  injection E as <- <-. exact (H a c1 eq_refl b' c2 F).
Qed.
Lemma cw_call {A} c (o : option A) (Q : A -> cost -> Prop) : (forall a, o = Some a -> Q a c) -> cw (call c o) Q.
Proof. intros H a c' E. destruct o as [x|]; [|discriminate E]. cbn [call option_map] in E. injection E as <- <-. apply H. reflexivity. Qed.
Lemma cw_ret {A} (a : A) (Q : A -> cost -> Prop) : Q a cost0 -> cw (ret a) Q.
Proof. intros H b c E. unfold ret in E. injection E as <- <-. exact H. Qed.
Lemma cw_use {A} (m : option (A * cost)) (P Q : A -> cost -> Prop) : cw m P -> (forall a c, P a c -> Q a c) -> cw m Q.
Proof. intros H K a c E. apply K, H, E. Qed.
Lemma cadd_C d a i q s d' a' i' q' s' : cadd (Cost d a i q s) (Cost d' a' i' q' s') = Cost (d + d') (a + a') (i + i') (q + q') (s + s').
Proof. reflexivity. Qed.
Ltac cst := unfold cost0; rewrite ?cadd_C.
Ltac cfin := cst; clear; f_equal; lia.
Ltac cl := lazymatch goal with
  | |- cw (free ?o) ?Q => refine (cw_call cost0 o Q _)
  | |- cw (adbl ?o) ?Q => refine (cw_call (Cost 1 0 0 0 0) o Q _)
  | |- cw (anadd ?o) ?Q => refine (cw_call (Cost 0 1 0 0 0) o Q _)
  | |- cw (aninv ?o) ?Q => refine (cw_call (Cost 0 0 1 0 0) o Q _)
  | |- cw (asqrt ?o) ?Q => refine (cw_call (Cost 0 0 0 1 0) o Q _)
  | |- cw (asinv ?o) ?Q => refine (cw_call (Cost 0 0 0 0 1) o Q _)
  | |- cw (af_set_gej_c ?d ?x) ?Q => refine (cw_call (Cost 0 0 1 0 0) (af_set_gej d x) Q _)
  end.
Ltac fr := apply cw_bind; cl; intros.

Definition b2z (b : bool) : Z := if b then 1 else 0.
Fixpoint cnt (f : nat -> bool) (k : nat) : Z := match k with 0%nat => 0 | Datatypes.S k' => cnt f k' + b2z (f k') end.
Definition live (l : list Z) (bits : Z) (i : nat) : bool := (Z.of_nat i <? bits) && negb (nth i l 0 =? 0).

Lemma idx_nth l k d : idx l (Z.of_nat k) = Some d -> nth k l 0 = d.
Proof. unfold idx. destruct (Z.ltb_spec (Z.of_nat k) 0); [discriminate|]. rewrite Nat2Z.id. intros H0. apply nth_error_nth. exact H0. Qed.

Section C.
Variable dbg : bool.
Lemma odd_loop_cost k : forall prev d, cw (odd_mult_loop_c dbg k prev d) (fun _ c => c = Cost 0 (Z.of_nat k) 0 0 0).
Proof.
  induction k as [|k IH]; intros prev d; cbn [odd_mult_loop_c]; [apply cw_ret; reflexivity|]. fr. destruct a as [nx z]. apply cw_bind. eapply cw_use; [apply IH|]. intros [pj zr] c ->. apply cw_ret. cfin.
Qed.
Lemma windowa_cost a : cw (odd_multiples_table_globalz_windowa_c dbg a) (fun _ c => c = Cost 1 7 0 0 0).
Proof.
  unfold odd_multiples_table_globalz_windowa_c. apply cw_bind. unfold odd_multiples_table_c. do 4 fr. unfold ECMULT_TABLE_SIZE_A. cbv beta iota zeta. apply cw_bind. eapply cw_use; [apply odd_loop_cost|].
  intros [pj zr] c ->. fr. apply cw_ret. cl. intros. cfin.
Qed.
Lemma ecmult_loop_cost k : forall pg pa z wa wg ba bg r, cw (ecmult_loop_c dbg k pg pa z wa wg ba bg r) (fun _ c => c = Cost (Z.of_nat k) (cnt (live wa ba) k + cnt (live wg bg) k) 0 0 0).
Proof.
  induction k as [|k IH]; intros; cbn [ecmult_loop_c]; [apply cw_ret; reflexivity|]. cbv zeta. fr. fr. apply cw_bind. cbn [cnt]. unfold live at 2 4. rewrite (idx_nth wa k a0 H0).
  eapply (cw_use _ (fun _ c => c = Cost 0 (b2z ((Z.of_nat k <? ba) && negb (a0 =? 0))) 0 0 0)).
  { destruct ((Z.of_nat k <? ba) && negb (a0 =? 0)); [fr; cl; intros; reflexivity | apply cw_ret; reflexivity]. }
  intros r1 c1 ->. apply cw_bind. cl. intros a1 H1. apply cw_bind. rewrite (idx_nth wg k a1 H1).
  eapply (cw_use _ (fun _ c => c = Cost 0 (b2z ((Z.of_nat k <? bg) && negb (a1 =? 0))) 0 0 0)).
  { destruct ((Z.of_nat k <? bg) && negb (a1 =? 0)); [fr; cl; intros; reflexivity | apply cw_ret; reflexivity]. }
  intros r2 c2 ->. eapply cw_use; [apply IH|]. intros _ c ->. cfin.
Qed.
Lemma cnt_ext f g k : (forall i, (i < k)%nat -> f i = g i) -> cnt f k = cnt g k.
Proof. induction k as [|k IH]; intros H; [reflexivity|]. cbn [cnt]. rewrite IH, H by lia || (intros; apply H; lia). reflexivity. Qed.
Lemma nonzeros_app a b : nonzeros (a ++ b) = nonzeros a + nonzeros b.
Proof. unfold nonzeros. rewrite filter_app, app_length, Nat2Z.inj_add. reflexivity. Qed.
Lemma cnt_nz l k : (k <= length l)%nat -> cnt (fun i => negb (nth i l 0 =? 0)) k = nonzeros (firstn k l).
Proof.
  induction k as [|k IH]; intros H; [reflexivity|]. cbn [cnt]. rewrite IH by lia. destruct (nth_error l k) as [d|] eqn:E; [|apply nth_error_None in E; lia].
  rewrite (nth_error_nth l k 0 E). assert (FS : firstn (S k) l = firstn k l ++ [d]).
  { clear -E. revert k E. induction l as [|x l IH]; intros [|k] E; try discriminate E; [injection E as ->; reflexivity|]. cbn [nth_error] in E. cbn [firstn app]. f_equal. apply (IH k E). }
  rewrite FS, nonzeros_app. f_equal. unfold nonzeros. cbn [filter]. destruct (negb (d =? 0)); reflexivity.
Qed.
Lemma nonzeros_0 l : (forall d, In d l -> d = 0) -> nonzeros l = 0.
Proof. intros H. unfold nonzeros. induction l as [|x l IH]; [reflexivity|]. cbn [filter]. rewrite (H x) by (left; reflexivity). cbn. apply IH. intros d I. apply H. right. exact I. Qed.
Lemma cnt_live l b k : (k <= length l)%nat -> b <= Z.of_nat k -> (forall i, b <= Z.of_nat i -> nth i l 0 = 0) -> cnt (live l b) k = nonzeros l.
Proof.
  intros L B Z0. rewrite (cnt_ext (live l b) (fun i => negb (nth i l 0 =? 0))).
  - rewrite cnt_nz by exact L. rewrite <- (firstn_skipn k l) at 2. rewrite nonzeros_app, (nonzeros_0 (skipn k l)); [lia|]. intros d I. destruct (In_nth _ _ 0 I) as (i & HI & <-).
    assert (NS : nth i (skipn k l) 0 = nth (k + i) l 0) by (rewrite <- (firstn_skipn k l) at 2; rewrite app_nth2; rewrite firstn_length_le by exact L; [f_equal; lia | lia]). rewrite NS. apply Z0. lia.
  - intros i _. unfold live. destruct (Z.ltb_spec (Z.of_nat i) b) as [LT|GE]; [reflexivity|]. rewrite (Z0 i GE). reflexivity.
Qed.
(** Nonzero entries at distance [w] or more. *)
Lemma nonzeros_spaced w : 1 <= w -> forall m l, (length l <= m)%nat -> (forall i j, (i < j)%nat -> nth i l 0 <> 0 -> nth j l 0 <> 0 -> Z.of_nat i + w <= Z.of_nat j) -> w * nonzeros l <= Z.of_nat (length l) + w - 1.
Proof.
  intros W. induction m as [|m IH]; intros l L SP.
  { destruct l; [|cbn in L; lia]. change (nonzeros []) with 0. cbn [length]. lia. }
  destruct l as [|x l]; [change (nonzeros []) with 0; cbn [length]; lia|]. cbn [length] in L. destruct (Z.eqb_spec x 0) as [->|NX].
  - assert (E : nonzeros (0 :: l) = nonzeros l) by reflexivity. rewrite E. cbn [length]. assert (w * nonzeros l <= Z.of_nat (length l) + w - 1); [|lia]. apply IH; [lia|]. intros i j IJ A B. pose proof (SP (S i) (S j) ltac:(lia) A B). lia.
  - assert (E : nonzeros (x :: l) = 1 + nonzeros l) by (unfold nonzeros; cbn [filter]; apply Z.eqb_neq in NX; rewrite NX; cbn [negb length]; lia). rewrite E.
    set (q := Nat.min (Z.to_nat (w - 1)) (length l)). assert (F0 : nonzeros (firstn q l) = 0).
    { apply nonzeros_0. intros d I. destruct (In_nth _ _ 0 I) as (i & HI & <-). rewrite firstn_length in HI. assert (NI : nth i (firstn q l) 0 = nth i l 0) by (rewrite <- (firstn_skipn q l) at 2; rewrite app_nth1 by (rewrite firstn_length; lia); reflexivity).
      rewrite NI. destruct (Z.eq_dec (nth i l 0) 0) as [|N0]; [assumption|]. pose proof (SP 0%nat (S i) ltac:(lia) NX N0). lia. }
    rewrite <- (firstn_skipn q l) at 1. rewrite nonzeros_app, F0.
    assert (K : w * nonzeros (skipn q l) <= Z.of_nat (length (skipn q l)) + w - 1).
    { apply IH; [rewrite skipn_length; lia|]. assert (NS : forall i, nth i (skipn q l) 0 = nth (q + i) l 0).
      { intros i. rewrite <- (firstn_skipn q l) at 2. rewrite app_nth2; rewrite firstn_length_le by lia; [f_equal; lia | lia]. }
      intros i j IJ A B. rewrite NS in A, B. pose proof (SP (S (q + i)) (S (q + j)) ltac:(lia) A B). lia. }
    rewrite skipn_length in K. cbn [length]. destruct (Nat.le_gt_cases (Z.to_nat (w - 1)) (length l)) as [LE|GT].
    + assert (q = Z.to_nat (w - 1)) by lia. nia.
    + assert (q = length l) by lia. assert (skipn q l = []) as S0 by (apply skipn_all2; lia). rewrite S0. change (nonzeros []) with 0. lia.
Qed.
Lemma C55_count dbg' a w l b : 0 <= a < n -> 2 <= w <= 30 -> ecmult_wnaf dbg' 256 (scalar_of a) w = Some (l, b) -> w * nonzeros l <= 256 + w - 1 /\ 0 <= b <= 256.
Proof.
  intros A W E. destruct (C55_wnaf_pf dbg' a w A ltac:(lia) ltac:(lia)) as (l' & b' & E' & L & B & _ & _ & _ & SP). rewrite E in E'. apply some_inv in E'. injection E' as <- <-.
  split; [|exact B]. pose proof (nonzeros_spaced w ltac:(lia) 256 l ltac:(lia) SP) as K. rewrite L in K. exact K.
Qed.
(** The double multiplication: the number of doublings and additions is one more than the longer recoding and seven more than the nonzero digits. *)
Lemma ecmult_cost ctx a na ng : 0 <= na < n -> 0 <= ng < n -> cw (ecmult_c dbg ctx a (scalar_of na) (scalar_of ng)) (fun _ c => exists l1 b1 l2 b2,
  ecmult_wnaf dbg 256 (scalar_of na) 5 = Some (l1, b1) /\ ecmult_wnaf dbg 256 (scalar_of ng) 16 = Some (l2, b2) /\ c = Cost (1 + Z.max b1 b2) (7 + nonzeros l1 + nonzeros l2) 0 0 0).
Proof.
  intros A B. destruct ctx as [pg]. unfold ecmult_c. change WINDOW_A with 5. change WINDOW_G with 16.
  destruct (C55_wnaf_pf dbg na 5 A ltac:(lia) ltac:(lia)) as (l1 & b1 & E1 & L1 & B1 & _ & Z1 & _). destruct (C55_wnaf_pf dbg ng 16 B ltac:(lia) ltac:(lia)) as (l2 & b2 & E2 & L2 & B2 & _ & Z2 & _).
  rewrite E1, E2. apply cw_bind. cl. intros p0 H0. apply some_inv in H0. subst p0. apply cw_bind. eapply cw_use; [apply windowa_cost|]. intros [pa z] c ->.
  apply cw_bind. cl. intros p1 H1. apply some_inv in H1. subst p1. cbv zeta. apply cw_bind. eapply cw_use; [apply ecmult_loop_cost|]. intros r c ->.
  assert (EM : (if b1 <? b2 then b2 else b1) = Z.max b1 b2) by (destruct (Z.ltb_spec b1 b2); lia). rewrite EM.
  rewrite (cnt_live l1), (cnt_live l2), Z2Nat.id by (lia || assumption).
  destruct (j_inf r); [apply cw_ret | fr; apply cw_ret]; exists l1, b1, l2, b2; (split; [reflexivity|]; split; [reflexivity|]; cfin).
Qed.
Lemma ecmult_bound ctx a na ng : 0 <= na < n -> 0 <= ng < n -> cw (ecmult_c dbg ctx a (scalar_of na) (scalar_of ng)) (fun _ c => within c 257 75 0 0 0).
Proof.
  intros A B. eapply cw_use; [apply ecmult_cost; assumption|]. intros _ c (l1 & b1 & l2 & b2 & E1 & E2 & ->).
  destruct (C55_count dbg na 5 l1 b1 A ltac:(lia) E1). destruct (C55_count dbg ng 16 l2 b2 B ltac:(lia) E2). unfold within. cbn [c_dbl c_add c_inv c_sqrt c_sinv]. lia.
Qed.
Lemma double_n_cost k : forall r, cw (double_nonzero_n_c dbg k r) (fun _ c => c = Cost (Z.of_nat k) 0 0 0 0).
Proof. induction k as [|k IH]; intros r; cbn [double_nonzero_n_c]; [apply cw_ret; reflexivity|]. fr. eapply cw_use; [apply IH|]. intros _ c ->. cfin. Qed.
Lemma const_loop_cost k : forall pa w t r, cw (ecmult_const_loop_c dbg k pa w t r) (fun _ c => c = Cost (4 * Z.of_nat k) (Z.of_nat k) 0 0 0).
Proof.
  induction k as [|k IH]; intros pa w t r; [apply cw_ret; reflexivity|]. change (ecmult_const_loop_c dbg (S k) pa w t r) with
    (let+ r := double_nonzero_n_c dbg 4 r in let+ n := free (idx w (Z.of_nat k)) in let+ tmpa := free (table_get_ge_const dbg t pa n WINDOW_A) in
     let+ _ := free (dassert dbg (negb (n =? 0))) in let+ r := anadd (j_add_ge dbg r tmpa) in ecmult_const_loop_c dbg k pa w tmpa r).
  apply cw_bind. eapply cw_use; [apply double_n_cost|]. intros r1 c ->. do 4 fr. eapply cw_use; [apply IH|]. intros _ c ->. cfin.
Qed.
Lemma ecmult_const_cost a s : cw (ecmult_const_c dbg a s) (fun _ c => c = Cost 258 72 1 0 0).
Proof.
  unfold ecmult_const_c. apply cw_bind. cl. intros [w sk] _. fr. apply cw_bind. eapply cw_use; [apply windowa_cost|]. intros [pa z] c ->. do 5 fr. apply cw_bind.
  eapply cw_use; [apply const_loop_cost|]. intros r c ->. cbv zeta. do 7 fr. cl. intros. cfin.
Qed.
Lemma gen_loop_cost prec : forall j g adds r, cw (ecmult_gen_loop_c dbg prec j g adds r) (fun _ c => c = Cost 0 (Z.of_nat (length prec)) 0 0 0).
Proof. induction prec as [|row prec IH]; intros; cbn [ecmult_gen_loop_c length]; [apply cw_ret; reflexivity|]. cbv zeta. do 2 fr. eapply cw_use; [apply IH|]. intros _ c ->. cfin. Qed.
(** The number of rows of a table for multiples of the generator. *)
Definition rows (ctx : genctx) : Z := match ctx with GCtx prec _ _ => Z.of_nat (length prec) end.
Lemma gen_cost ctx k : cw (ecmult_gen_c dbg ctx k) (fun _ c => c = Cost 0 (rows ctx) 0 0 0).
Proof. destruct ctx as [prec b i]. cbn [ecmult_gen_c rows]. fr. eapply cw_use; [apply gen_loop_cost|]. intros _ c ->. cfin. Qed.
Lemma sign_raw_cost ctx d m k : cw (sign_raw_c dbg ctx d m k) (fun _ c => c = Cost 0 (rows ctx) 1 0 1).
Proof.
  unfold sign_raw_c. apply cw_bind. eapply cw_use; [apply gen_cost|]. intros rp c ->. do 4 fr. apply cw_bind. cl. intros [sr ov] _. do 7 fr.
  match goal with |- context [s_is_zero ?x] => destruct (s_is_zero x); [apply cw_ret; cfin|]; destruct (s_is_high x); [fr; apply cw_ret; cfin | apply cw_ret; cfin] end.
Qed.
End C.

Lemma rows_64 ctx : gen_ctx ctx -> rows ctx = 64.
Proof. destruct ctx as [prec b i]. intros (b' & I & Bs & _ & _ & _ & _ & _ & L & _). cbn [rows]. rewrite L. reflexivity. Qed.
Lemma cw_erase {A} (m : option (A * cost)) (o : A) Q : cres m = Some o -> cw m Q -> exists c, m = Some (o, c) /\ Q o c.
Proof. intros E H. destruct m as [[a c]|]; [|discriminate E]. cbn [cres option_map fst] in E. apply some_inv in E. subst o. exists c. split; [reflexivity | apply H; reflexivity]. Qed.
Lemma within_le c c' d a i q s d' a' i' q' s' : within c d a i q s -> c' = Cost d' a' i' q' s' -> within (cadd c' c) (d' + d) (a' + a) (i' + i) (q' + q) (s' + s).
Proof. intros (A & B & C & D & E) ->. unfold within, cadd. cbn [c_dbl c_add c_inv c_sqrt c_sinv]. lia. Qed.
Lemma cost0_add c : cadd cost0 c = c. Proof. destruct c. reflexivity. Qed.
Lemma add_cost0 c : cadd c cost0 = c. Proof. destruct c as [d a i q s]. unfold cost0. rewrite cadd_C. f_equal; lia. Qed.

(** * Verification *)
Lemma verify_cost dbg ctx k z r s : 0 <= r < n -> 0 <= s < n -> 0 <= z < n -> cw (verify_raw_c dbg ctx (scalar_of r) (scalar_of s) k (scalar_of z)) (fun _ c =>
  if (r =? 0) || (s =? 0) then c = cost0 else exists c' r', ecmult_c dbg ctx r' (scalar_of ((inv_mod n s * r) mod n)) (scalar_of ((inv_mod n s * z) mod n)) = Some c' /\ c = cadd (Cost 0 0 0 0 1) (snd c')).
Proof.
  intros R S Z. pose proof n_pos as NP. pose proof n_lt as NL. unfold verify_raw_c. rewrite !s_is_zero_eq by lia. destruct ((r =? 0) || (s =? 0)); [apply cw_ret; reflexivity|].
  pose proof (inv_mod_range n s ltac:(lia)) as IR. rewrite s_inv_eq by lia. apply cw_bind. cl. intros a H0. apply some_inv in H0. subst a. rewrite !s_mul_eq by lia.
  apply cw_bind. cl. intros a H0. apply some_inv in H0. subst a. apply cw_bind. cl. intros a H0. apply some_inv in H0. subst a. fr. apply cw_bind. intros pr c E.
  assert (K : forall c0, c0 = cost0 -> exists c' r', ecmult_c dbg ctx r' (scalar_of ((inv_mod n s * r) mod n)) (scalar_of ((inv_mod n s * z) mod n)) = Some c' /\
     cadd (Cost 0 0 0 0 1) (cadd cost0 (cadd cost0 (cadd cost0 (cadd c c0)))) = cadd (Cost 0 0 0 0 1) (snd c')).
  { intros c0 ->. exists (pr, c), a. split; [exact E|]. rewrite !cost0_add, add_cost0. reflexivity. }
  clear E. destruct (j_inf pr); [apply cw_ret; apply K; reflexivity|]. apply cw_bind. cl. intros [xr ok] _. fr.
  match goal with |- context [if ?e then _ else _] => destruct e end; [apply cw_ret; apply K; reflexivity|]. fr. match goal with |- context [if ?e then _ else _] => destruct e end; [apply cw_ret; apply K; reflexivity|].
  do 2 fr. match goal with |- context [if ?e then _ else _] => destruct e end; apply cw_ret; apply K; reflexivity.
Qed.

(** * Recovery *)
Lemma recover_cost dbg ctx z r s id : 0 <= r < n -> 0 <= s < n -> 0 <= z < n -> cw (recover_raw_c dbg ctx (scalar_of r) (scalar_of s) id (scalar_of z)) (fun o c =>
  (c = cost0 /\ o = Err InvalidSignature) \/ (c = Cost 0 0 0 1 0 /\ o = Err InvalidSignature) \/
  exists c' r' b, ecmult_c dbg ctx r' (scalar_of ((inv_mod n r * s) mod n)) (scalar_of ((- ((inv_mod n r * z) mod n)) mod n)) = Some c' /\ c = cadd (Cost 0 0 (b2z b) 1 1) (snd c') /\ (b = false -> o = Err InvalidSignature)).
Proof.
  intros R S Z. pose proof n_pos as NP. pose proof n_lt as NL. unfold recover_raw_c. fr. rewrite !s_is_zero_eq by lia. destruct ((r =? 0) || (s =? 0)); [apply cw_ret; left; split; reflexivity|].
  apply cw_bind. cl. intros [fx ov] _. fr. fr. match goal with |- context [match ?o with Some _ => _ | None => _ end] => destruct o as [f|] end; [|apply cw_ret; left; split; reflexivity].
  apply cw_bind. cl. intros [x ok] _. destruct (negb ok); [apply cw_ret; right; left; split; [cfin | reflexivity]|]. apply cw_bind. cl. intros xj _.
  pose proof (inv_mod_range n r ltac:(lia)) as IR. rewrite s_inv_eq by lia. apply cw_bind. cl. intros v V. apply some_inv in V. subst v. rewrite !s_mul_eq by lia.
  apply cw_bind. cl. intros v V. apply some_inv in V. subst v. rewrite s_neg_eq by (apply Z.mod_pos_bound; lia). apply cw_bind. cl. intros v V. apply some_inv in V. subst v. apply cw_bind. cl. intros v V. apply some_inv in V. subst v.
  apply cw_bind. intros qj c E. apply cw_bind. unfold af_set_gej_var_c.
  eapply (cw_use _ (fun k c1 => c1 = Cost 0 0 (b2z (negb (j_inf qj))) 0 0 /\ (j_inf qj = true -> af_inf k = true))).
  { unfold af_set_gej_var. destruct (j_inf qj); cl; intros k K; (split; [reflexivity|]); intros J; [apply some_inv in K; subst k; reflexivity | discriminate J]. }
  intros k c1 [-> HK]. destruct (af_inf k); apply cw_ret; right; right; exists (qj, c), xj, (negb (j_inf qj)); (split; [exact E|]); destruct c as [d ad i q sn]; cbn [snd]; (split; [cfin|]); intros NB; [reflexivity|].
  apply negb_false_iff in NB. discriminate (HK NB).
Qed.

(** * Tweaks, keys, key agreement, combination *)
Lemma tweak_add_cost dbg ctx k t : 0 <= t < n -> cw (pk_tweak_add_assign_c dbg ctx k (scalar_of t)) (fun o c => exists c' r', ecmult_c dbg ctx r' (scalar_of 1) (scalar_of t) = Some c' /\ c = cadd (Cost 0 0 (match snd o with Ok _ => 1 | Err _ => 0 end) 0 0) (snd c')).
Proof.
  intros HT. unfold pk_tweak_add_assign_c. apply cw_bind. cl. intros a _. cbv zeta. rewrite <- scalar_of_1. apply cw_bind. intros r c E. destruct (j_inf r).
  - apply cw_ret. exists (r, c), a. split; [exact E|]. destruct c as [d ad i q sn]. cbn [snd]. cfin.
  - fr. apply cw_ret. exists (r, c), a. split; [exact E|]. destruct c as [d ad i q sn]. cbn [snd]. cfin.
Qed.
Lemma tweak_mul_cost dbg ctx k t : 0 <= t < n -> cw (pk_tweak_mul_assign_c dbg ctx k (scalar_of t)) (fun _ c => if t =? 0 then c = cost0 else exists c' r', ecmult_c dbg ctx r' (scalar_of t) (scalar_of 0) = Some c' /\ c = cadd (Cost 0 0 1 0 0) (snd c')).
Proof.
  intros HT. pose proof n_lt as NL. unfold pk_tweak_mul_assign_c. rewrite s_is_zero_eq by lia. destruct (t =? 0); [apply cw_ret; reflexivity|]. cbv zeta. apply cw_bind. cl. intros a _. change (s_from_int 0) with (scalar_of 0). apply cw_bind. intros r c E.
  fr. apply cw_ret. exists (r, c), a. split; [exact E|]. destruct c as [d ad i q sn]. cbn [snd]. cfin.
Qed.
Lemma combine_loop_cost dbg keys : forall q, cw (combine_loop_c dbg q keys) (fun _ c => c = Cost 0 (Z.of_nat (length keys)) 0 0 0).
Proof. induction keys as [|k keys IH]; intros q; cbn [combine_loop_c length]; [apply cw_ret; reflexivity|]. fr. eapply cw_use; [apply IH|]. intros _ c ->. cfin. Qed.

(** * C90 *)
Lemma C90_same_results_pf : forall dbg,
  (forall ctx a na ng, cres (ecmult_c dbg ctx a na ng) = ecmult dbg ctx a na ng) /\
  (forall ctx r s k z, cres (verify_raw_c dbg ctx r s k z) = verify_raw dbg ctx r s k z) /\
  (forall ctx r s id z, cres (recover_raw_c dbg ctx r s id z) = recover_raw dbg ctx r s id z) /\
  (forall ctx d z k, cres (sign_raw_c dbg ctx d z k) = sign_raw dbg ctx d z k) /\
  (forall drbg fuel ctx z d, cores (sign_c dbg drbg fuel ctx z d) = sign dbg drbg fuel ctx z d) /\
  (forall D P d, cres (ecdh_raw_c dbg D P d) = ecdh_raw dbg D P d) /\
  (forall ctx d, cres (pk_from_secret_key_c dbg ctx d) = pk_from_secret_key dbg ctx d) /\
  (forall ctx k t, cres (pk_tweak_add_assign_c dbg ctx k t) = pk_tweak_add_assign dbg ctx k t) /\
  (forall ctx k t, cres (pk_tweak_mul_assign_c dbg ctx k t) = pk_tweak_mul_assign dbg ctx k t) /\
  (forall keys, cres (pk_combine_c dbg keys) = pk_combine dbg keys).
Proof.
  intros dbg. split; [exact (ecmult_erase dbg)|]. split; [exact (verify_erase dbg)|]. split; [exact (recover_erase dbg)|]. split; [exact (sign_raw_erase_c dbg)|]. split; [exact (sign_erase_c dbg)|].
  split; [exact (ecdh_erase_c dbg)|]. split; [exact (from_secret_erase dbg)|]. split; [exact (tweak_add_erase dbg)|]. split; [exact (tweak_mul_erase dbg) | exact (combine_erase dbg)].
Qed.

(** The double multiplication, whatever the table and the point: one doubling and seven additions for the table of odd multiples, then one doubling per digit of the longer
    recoding and one addition per nonzero digit; recodings have at most 256 digits and at most 52 and 16 nonzero ones. *)
Lemma C90_double_multiplication_pf : forall dbg ctx a na ng r c, 0 <= na < n -> 0 <= ng < n -> ecmult_c dbg ctx a (scalar_of na) (scalar_of ng) = Some (r, c) ->
  exists l1 b1 l2 b2, ecmult_wnaf dbg 256 (scalar_of na) 5 = Some (l1, b1) /\ ecmult_wnaf dbg 256 (scalar_of ng) 16 = Some (l2, b2) /\
    c = Cost (1 + Z.max b1 b2) (7 + nonzeros l1 + nonzeros l2) 0 0 0 /\ b1 <= 256 /\ b2 <= 256 /\ nonzeros l1 <= 52 /\ nonzeros l2 <= 16.
Proof.
  intros dbg ctx a na ng r c A B E. destruct (ecmult_cost dbg ctx a na ng A B r c E) as (l1 & b1 & l2 & b2 & E1 & E2 & HC). exists l1, b1, l2, b2. split; [exact E1|]. split; [exact E2|]. split; [exact HC|].
  destruct (C55_count dbg na 5 l1 b1 A ltac:(lia) E1). destruct (C55_count dbg ng 16 l2 b2 B ltac:(lia) E2). lia.
Qed.

(** Verification of any signature with any key and table. *)
Lemma C90_verify_pf : forall dbg ctx k z r s b c, 0 <= r < n -> 0 <= s < n -> 0 <= z < n -> verify_raw_c dbg ctx (scalar_of r) (scalar_of s) k (scalar_of z) = Some (b, c) -> within c 257 75 0 0 1.
Proof.
  intros dbg ctx k z r s b c R S Z E. pose proof n_pos as NP. pose proof (verify_cost dbg ctx k z r s R S Z b c E) as K. cbv beta in K. destruct ((r =? 0) || (s =? 0)); [subst c; unfold within; cbn; lia|].
  destruct K as ([r0 c'] & r' & E' & ->). cbn [snd]. exact (within_le c' _ 257 75 0 0 0 0 0 0 0 1 (ecmult_bound dbg ctx r' _ _ ltac:(apply Z.mod_pos_bound; lia) ltac:(apply Z.mod_pos_bound; lia) r0 c' E') eq_refl).
Qed.
(** Recovery, for any id. *)
Lemma C90_recover_pf : forall dbg ctx z r s id o c, 0 <= r < n -> 0 <= s < n -> 0 <= z < n -> recover_raw_c dbg ctx (scalar_of r) (scalar_of s) id (scalar_of z) = Some (o, c) -> within c 257 75 1 1 1.
Proof.
  intros dbg ctx z r s id o c R S Z E. pose proof n_pos as NP. destruct (recover_cost dbg ctx z r s id R S Z o c E) as [[-> _]|[[-> _]|([r0 c'] & r' & b & E' & -> & _)]]; [unfold within; cbn; lia | unfold within; cbn; lia|].
  cbn [snd]. pose proof (within_le c' _ 257 75 0 0 0 0 0 (b2z b) 1 1 (ecmult_bound dbg ctx r' _ _ ltac:(apply Z.mod_pos_bound; lia) ltac:(apply Z.mod_pos_bound; lia) r0 c' E') eq_refl) as W.
  unfold within in *. destruct b; cbn [b2z] in *; lia.
Qed.
Lemma wnaf_1 dbg : exists l, ecmult_wnaf dbg 256 (scalar_of 1) 5 = Some (l, 1) /\ nonzeros l = 1.
Proof. eexists. split; [destruct dbg; vm_compute; reflexivity | vm_compute; reflexivity]. Qed.
Lemma wnaf_0 dbg : exists l, ecmult_wnaf dbg 256 (scalar_of 0) 16 = Some (l, 0) /\ nonzeros l = 0.
Proof. eexists. split; [destruct dbg; vm_compute; reflexivity | vm_compute; reflexivity]. Qed.
(** Tweaking a public key, with any tweak, key and table. *)
Lemma C90_public_tweaks_pf : forall dbg ctx k t o c, 0 <= t < n ->
  (pk_tweak_add_assign_c dbg ctx k (scalar_of t) = Some (o, c) -> within c 257 24 1 0 0) /\ (pk_tweak_mul_assign_c dbg ctx k (scalar_of t) = Some (o, c) -> within c 257 59 1 0 0).
Proof.
  intros dbg ctx k t o c HT. pose proof n_pos as NP. assert (H1 : 0 <= 1 < n) by vmr. assert (H0 : 0 <= 0 < n) by lia. split; intros E.
  - destruct (tweak_add_cost dbg ctx k t HT o c E) as ([r0 c'] & r' & E' & ->). destruct (C90_double_multiplication_pf dbg ctx r' 1 t r0 c' H1 HT E') as (l1 & b1 & l2 & b2 & E1 & _ & -> & B1 & B2 & _ & N2).
    destruct (wnaf_1 dbg) as (l & EL & NL). rewrite E1 in EL. apply some_inv in EL. injection EL as <- ->. rewrite NL. cbn [snd]. rewrite cadd_C. unfold within. cbn [c_dbl c_add c_inv c_sqrt c_sinv]. destruct (snd o); lia.
  - pose proof (tweak_mul_cost dbg ctx k t HT o c E) as K. cbv beta in K. destruct (t =? 0); [subst c; unfold within; cbn; lia|]. destruct K as ([r0 c'] & r' & E' & ->).
    destruct (C90_double_multiplication_pf dbg ctx r' t 0 r0 c' HT H0 E') as (l1 & b1 & l2 & b2 & _ & E2 & -> & B1 & B2 & N1 & _).
    destruct (wnaf_0 dbg) as (l & EL & NL). rewrite E2 in EL. apply some_inv in EL. injection EL as <- ->. rewrite NL. cbn [snd]. rewrite cadd_C. unfold within. cbn [c_dbl c_add c_inv c_sqrt c_sinv]. lia.
Qed.
(** One addition per key, and one inversion unless the sum is the point at infinity. *)
Lemma C90_combine_pf : forall dbg keys o c, pk_combine_c dbg keys = Some (o, c) -> c = Cost 0 (Z.of_nat (length keys)) (match o with Ok _ => 1 | Err _ => 0 end) 0 0.
Proof.
  intros dbg keys. assert (K : cw (pk_combine_c dbg keys) (fun o c => c = Cost 0 (Z.of_nat (length keys)) (match o with Ok _ => 1 | Err _ => 0 end) 0 0)); [|intros o c E; exact (K o c E)].
  unfold pk_combine_c. apply cw_bind. eapply cw_use; [apply combine_loop_cost|]. intros q c ->. destruct (j_inf q); [apply cw_ret; cfin|]. fr. apply cw_ret. cfin.
Qed.
(** Where secrets are involved the numbers are fixed: they do not depend on the key, the nonce, the message or the point. *)
Lemma C90_secrets_pf : forall dbg ctx d z k D P c, gen_ctx ctx ->
  (forall o, pk_from_secret_key_c dbg ctx d = Some (o, c) -> c = Cost 0 64 1 0 0) /\
  (forall o, sign_raw_c dbg ctx d z k = Some (o, c) -> c = Cost 0 64 1 0 1) /\
  (forall o, ecdh_raw_c dbg D P d = Some (Some o, c) -> c = Cost 258 72 2 0 0).
Proof.
  intros dbg ctx d z k D P c HC. apply rows_64 in HC. split; [|split]; intros o E.
  - rewrite <- HC. revert o c E. change (cw (pk_from_secret_key_c dbg ctx d) (fun _ c => c = Cost 0 (rows ctx) 1 0 0)). unfold pk_from_secret_key_c. apply cw_bind. eapply cw_use; [apply gen_cost|]. intros r c ->. cl. intros. cfin.
  - rewrite <- HC. exact (sign_raw_cost dbg ctx d z k o c E).
  - assert (K : cw (ecdh_raw_c dbg D P d) (fun o c => match o with Some _ => c = Cost 258 72 2 0 0 | None => c = cost0 end)); [|exact (K (Some o) c E)].
    unfold ecdh_raw_c. destruct (s_is_zero d); [apply cw_ret; reflexivity|]. apply cw_bind. eapply cw_use; [apply ecmult_const_cost|]. intros r c0 ->. do 5 fr. apply cw_ret. cfin.
Qed.

(** The range of nonces. *)
Definition in_range (v : Z) : bool := (1 <=? v) && (v <? n).
(** The number of blocks among those from [i] to [j] that are in the range of nonces. *)
Definition tries (gen : nat -> list Z) (i j : nat) : Z := Z.of_nat (length (filter (fun l => in_range (nonce gen l)) (seq i (j + 1 - i)))).
Lemma tries_one gen i : tries gen i i = b2z (in_range (nonce gen i)).
Proof. unfold tries. replace (i + 1 - i)%nat with 1%nat by lia. cbn [seq filter]. destruct (in_range (nonce gen i)); reflexivity. Qed.
Lemma tries_next gen i j : (i < j)%nat -> tries gen i j = b2z (in_range (nonce gen i)) + tries gen (S i) j.
Proof. intros H. unfold tries. replace (j + 1 - i)%nat with (S (j + 1 - S i)) by lia. cbn [seq filter]. destruct (in_range (nonce gen i)); cbn [length b2z]; lia. Qed.
Lemma loop_step_c dbg f gen i ctx sk m c : sign_loop_c dbg (S f) gen i ctx sk m c =
  match s_set_b32 dbg (gen i) with None => Panic | Some (nc, ov) => if negb ov && negb (s_is_zero nc) then
    match sign_raw_c dbg ctx sk m nc with None => Panic | Some (Ok (r, s, rid), c') => Done ((Sig r s, rid), cadd c c') | Some (Err _, c') => sign_loop_c dbg f gen (S i) ctx sk m (cadd c c') end
    else sign_loop_c dbg f gen (S i) ctx sk m c end.
Proof. reflexivity. Qed.
Lemma done_pair {A B} (a a' : A) (b b' : B) : Done (a, b) = Done (a', b') -> a = a' /\ b = b'. Proof. intros H. injection H as -> ->. split; reflexivity. Qed.
Lemma sign_loop_cost dbg gen ctx d z : gen_ctx ctx -> stream gen -> 0 <= d < n -> 0 <= z < n -> forall f i c0 v c,
  sign_loop_c dbg f gen i ctx (scalar_of d) (scalar_of z) c0 = Done (v, c) -> exists j, (i <= j < i + f)%nat /\ (forall l, (i <= l < j)%nat -> ~ usable d z (nonce gen l)) /\ usable d z (nonce gen j) /\
    c = cadd c0 (Cost 0 (64 * tries gen i j) (tries gen i j) 0 (tries gen i j)).
Proof.
  intros HC HS D Z. pose proof (rows_64 ctx HC) as R64. induction f as [|f IH]; intros i c0 v c H; [discriminate H|]. rewrite loop_step_c in H. destruct (HS i) as [L B]. pose proof (nonce_range gen i HS) as NR. rewrite s_set_b32_eq in H by assumption.
  fold (nonce gen i) in H. pose proof n_pos as NP. pose proof n_lt as NL. rewrite s_is_zero_eq in H by (pose proof (Z.mod_pos_bound (nonce gen i) n ltac:(lia)); lia).
  assert (SKIP : forall c1, sign_loop_c dbg f gen (S i) ctx (scalar_of d) (scalar_of z) c1 = Done (v, c) -> ~ usable d z (nonce gen i) -> c1 = cadd c0 (Cost 0 (64 * b2z (in_range (nonce gen i))) (b2z (in_range (nonce gen i))) 0 (b2z (in_range (nonce gen i)))) ->
    exists j, (i <= j < i + S f)%nat /\ (forall l, (i <= l < j)%nat -> ~ usable d z (nonce gen l)) /\ usable d z (nonce gen j) /\ c = cadd c0 (Cost 0 (64 * tries gen i j) (tries gen i j) 0 (tries gen i j))).
  { intros c1 H1 NU HC1. destruct (IH (S i) c1 v c H1) as (j & J & NUS & U & HCC). exists j. split; [lia|]. split; [|split; [exact U|]].
    - intros l HL. destruct (Nat.eq_dec l i) as [->|N]; [exact NU | apply NUS; lia].
    - rewrite HCC, HC1, (tries_next gen i j) by lia. destruct c0 as [d0 a0 i0 q0 s0]. rewrite !cadd_C. clear. f_equal; lia. }
  clear IH. destruct (Z.leb_spec n (nonce gen i)) as [GE|LT]; cbn [negb andb] in H.
  { apply (SKIP c0 H); [intros (K & _); lia|]. unfold in_range. rewrite (proj2 (Z.ltb_ge _ _) GE), andb_false_r. symmetry. apply add_cost0. }
  rewrite Z.mod_small in H by lia. destruct (Z.eqb_spec (nonce gen i) 0) as [E0|NZ]; cbn [negb] in H.
  { apply (SKIP c0 H); [intros (K & _); lia|]. unfold in_range. rewrite E0. symmetry. apply add_cost0. }
  assert (IR : in_range (nonce gen i) = true) by (apply andb_true_intro; split; [apply Z.leb_le; lia | apply Z.ltb_lt; lia]). rewrite IR in SKIP.
  pose proof (sign_raw_cases dbg ctx d z (nonce gen i) HC D Z ltac:(lia)) as CS. pose proof (sign_raw_cost dbg ctx (scalar_of d) (scalar_of z) (scalar_of (nonce gen i))) as CC.
  pose proof (sign_raw_erase_c dbg ctx (scalar_of d) (scalar_of z) (scalar_of (nonce gen i))) as ER.
  destruct (sign_raw_c dbg ctx (scalar_of d) (scalar_of z) (scalar_of (nonce gen i))) as [[o c']|]; [|discriminate H]. cbn [cres option_map fst] in ER. specialize (CC o c' eq_refl). cbv beta in CC. rewrite R64 in CC. subst c'.
  rewrite <- ER in CS. destruct CS as [(_ & _ & K)|[(_ & U & r & s & id & _ & K)|(_ & NU & K)]].
  - discriminate K.
  - apply some_inv in K. subst o. apply done_pair in H. destruct H as [_ <-]. exists i. split; [lia|]. split; [intros l HL; lia|]. split; [exact U|]. rewrite tries_one, IR. reflexivity.
  - apply some_inv in K. subst o. apply (SKIP _ H NU). reflexivity.
Qed.
(** Signing: one multiplication with its inversion and one inversion of a scalar for every block in the range of nonces up to the first usable one. *)
Lemma C90_sign_pf : forall dbg drbg fuel ctx d z v c, gen_ctx ctx -> 0 <= d < n -> 0 <= z < n -> let gen := drbg (be_bytes 32 d) (be_bytes 32 z) in stream gen ->
  sign_c dbg drbg fuel ctx (scalar_of z) (scalar_of d) = Done (v, c) ->
  exists j, (j < fuel)%nat /\ (forall l, (l < j)%nat -> ~ usable d z (nonce gen l)) /\ usable d z (nonce gen j) /\ c = Cost 0 (64 * tries gen 0 j) (tries gen 0 j) 0 (tries gen 0 j) /\ 1 <= tries gen 0 j <= Z.of_nat j + 1.
Proof.
  intros dbg drbg fuel ctx d z v c HC D Z gen HS H. pose proof n_lt as NL. unfold sign_c in H. rewrite !s_b32_eq in H by lia. fold gen in H.
  destruct (sign_loop_cost dbg gen ctx d z HC HS D Z fuel 0 cost0 v c H) as (j & J & NU & U & HCC). exists j. split; [lia|]. split; [intros l HL; apply NU; lia|]. split; [exact U|]. split; [rewrite HCC; apply cost0_add|].
  unfold tries. rewrite Nat.sub_0_r. split.
  - assert (IN : In j (filter (fun l => in_range (nonce gen l)) (seq 0 (j + 1)))). { apply filter_In. split; [apply in_seq; lia|]. destruct U as (K & _). apply andb_true_intro. split; [apply Z.leb_le; lia | apply Z.ltb_lt; lia]. }
    destruct (filter (fun l => in_range (nonce gen l)) (seq 0 (j + 1))) as [|x l]; [destruct IN|]. cbn [length]. lia.
  - assert (FL : forall (l : list nat) (f : nat -> bool), (length (filter f l) <= length l)%nat). { intros l f. induction l as [|x l IH]; [apply le_n|]. cbn [filter length]. destruct (f x); cbn [length]; lia. }
    pose proof (FL (seq 0 (j + 1)) (fun l => in_range (nonce gen l))) as K. rewrite seq_length in K. lia.
Qed.

(** * The bounds are attained *)
(** 2^255 - (1 + 2^5 + ... + 2^250), whose recoding of width 5 has 52 nonzero digits, and 2^15 + 2^31 + ... + 2^255, whose recoding of width 16 has 16. *)
Definition wide5 : Z := 2 ^ 255 - (2 ^ 255 - 1) / 31.
Definition wide16 : Z := 2 ^ 15 * ((2 ^ 256 - 1) / 65535).
Lemma wide_5 dbg : exists l, ecmult_wnaf dbg 256 (scalar_of wide5) 5 = Some (l, 256) /\ nonzeros l = 52.
Proof. eexists. split; [destruct dbg; vm_compute; reflexivity | vm_compute; reflexivity]. Qed.
Lemma wide_16 dbg : exists l, ecmult_wnaf dbg 256 (scalar_of wide16) 16 = Some (l, 256) /\ nonzeros l = 16.
Proof. eexists. split; [destruct dbg; vm_compute; reflexivity | vm_compute; reflexivity]. Qed.
Lemma wide5_rng : 1 <= wide5 < n. Proof. vmr. Qed.
Lemma wide16_rng : 1 <= wide16 < n. Proof. vmr. Qed.
Lemma inv_mod_1 : inv_mod n 1 = 1.
Proof. pose proof (inv_mod_ok n 1 prime_n n_lt ltac:(vm_compute; discriminate)) as H. pose proof (inv_mod_range n 1 n_pos) as R. rewrite Z.mul_1_r, Z.mod_small in H by exact R. exact H. Qed.
Lemma ecmult_at dbg ctx a na ng l1 b1 l2 b2 r c : 0 <= na < n -> 0 <= ng < n -> ecmult_wnaf dbg 256 (scalar_of na) 5 = Some (l1, b1) -> ecmult_wnaf dbg 256 (scalar_of ng) 16 = Some (l2, b2) ->
  ecmult_c dbg ctx a (scalar_of na) (scalar_of ng) = Some (r, c) -> c = Cost (1 + Z.max b1 b2) (7 + nonzeros l1 + nonzeros l2) 0 0 0.
Proof.
  intros A B E1 E2 E. destruct (ecmult_cost dbg ctx a na ng A B r c E) as (l1' & b1' & l2' & b2' & E1' & E2' & ->). rewrite E1 in E1'. rewrite E2 in E2'. apply some_inv in E1'. apply some_inv in E2'. injection E1' as <- <-. injection E2' as <- <-. reflexivity.
Qed.
Lemma ecmult_wide dbg ctx a r c : ecmult_c dbg ctx a (scalar_of wide5) (scalar_of wide16) = Some (r, c) -> c = Cost 257 75 0 0 0.
Proof.
  intros E. destruct (wide_5 dbg) as (l1 & E1 & N1). destruct (wide_16 dbg) as (l2 & E2 & N2). pose proof wide5_rng. pose proof wide16_rng.
  rewrite (ecmult_at dbg ctx a wide5 wide16 l1 256 l2 256 r c ltac:(lia) ltac:(lia) E1 E2 E), N1, N2. reflexivity.
Qed.
Definition wide_key : Z := (wide5 + wide16) mod n.
Definition wide_z : Z := (- (gx * wide16)) mod n.
Definition wide_s : Z := (gx * wide5) mod n.
Lemma eq_modn a b k : a = b + k * n -> a mod n = b mod n.
Proof. intros ->. apply Z_mod_plus_full. Qed.
Lemma gx_inv : (inv_mod n gx * gx) mod n = 1.
Proof. apply inv_mod_ok; [exact prime_n | exact n_lt | vm_compute; discriminate]. Qed.
Lemma wide_u2 : (inv_mod n gx * wide_s) mod n = wide5.
Proof.
  pose proof n_pos as NP. pose proof wide5_rng. unfold wide_s. rewrite Zmult_mod_idemp_r, Z.mul_assoc, <- Zmult_mod_idemp_l, gx_inv, Z.mul_1_l. apply Z.mod_small. lia.
Qed.
Lemma wide_u1 : (- ((inv_mod n gx * wide_z) mod n)) mod n = wide16.
Proof.
  pose proof n_pos as NP. pose proof wide16_rng. unfold wide_z. rewrite Zmult_mod_idemp_r. replace (inv_mod n gx * - (gx * wide16)) with (- (inv_mod n gx * gx * wide16)) by ring.
  rewrite <- Z.sub_0_l, Zminus_mod_idemp_r. replace (0 - - (inv_mod n gx * gx * wide16)) with (inv_mod n gx * gx * wide16) by ring. rewrite <- Zmult_mod_idemp_l, gx_inv, Z.mul_1_l. apply Z.mod_small. lia.
Qed.
Lemma wide_sig : wide_s = (inv_mod n 1 * (wide_z + gx * wide_key)) mod n.
Proof.
  pose proof n_pos as NP. rewrite inv_mod_1, Z.mul_1_l. unfold wide_z, wide_key, wide_s. rewrite Zplus_mod_idemp_l, <- Zplus_mod_idemp_r, Zmult_mod_idemp_r, Zplus_mod_idemp_r. f_equal; ring.
Qed.
Lemma wide_rngs : 1 <= wide_key < n /\ 0 <= wide_z < n /\ 1 <= wide_s < n /\ 1 <= gx < n.
Proof. split; [vmr|]. split; [vmr|]. split; vmr. Qed.
Lemma wide_recover dbg ctx : verify_ctx ctx -> exists id k, 0 <= id < 4 /\ recover dbg ctx (scalar_of wide_z) (Sig (scalar_of gx) (scalar_of wide_s)) id = Some (Ok k).
Proof.
  intros HC. destruct wide_rngs as (RK & RZ & RS & RG). destruct C53_ecmult_gen_example_pf as (gc & _ & HG). destruct (C21_from_secret_key_pf dbg gc wide_key HG RK) as (k & _ & _ & KA & NI).
  assert (V : ecdsa_valid (smul wide_key G) wide_z gx wide_s).
  { apply (valid_nonce wide_key wide_z gx wide_s RK ltac:(lia) ltac:(lia)). split; [lia|]. split; [lia|]. exists 1. split; [vmr|]. exists gx, gy. split; [exact smul_1_G|]. split; [vmr | exact wide_sig]. }
  apply (verify_true dbg ctx k _ wide_z gx wide_s HC KA NI ltac:(lia) ltac:(lia) RZ) in V.
  destruct (C26_recovery_complete_pf dbg dbg ctx ctx wide_z gx wide_s k _ HC HC ltac:(lia) ltac:(lia) RZ KA NI V) as (id & RI & (k' & E & _) & _). exists id, k'. split; [exact RI | exact E].
Qed.
(** Every bound above is reached, in both builds, with a right table and the generator as the key. *)
Lemma C90_attained_pf : exists ctx r z, verify_ctx ctx /\ 1 <= r < n /\ 0 <= z < n /\ exists r' s' z' t5 t16, 1 <= r' < n /\ 1 <= s' < n /\ 0 <= z' < n /\ 1 <= t5 < n /\ 1 <= t16 < n /\ forall dbg,
  (exists b, verify_raw_c dbg ctx (scalar_of r) (scalar_of 1) AFFINE_G (scalar_of z) = Some (b, Cost 257 75 0 0 1)) /\
  (exists id k, recover_raw_c dbg ctx (scalar_of r') (scalar_of s') id (scalar_of z') = Some (Ok k, Cost 257 75 1 1 1)) /\
  (exists k, pk_tweak_add_assign_c dbg ctx AFFINE_G (scalar_of t16) = Some ((k, Ok tt), Cost 257 24 1 0 0)) /\
  (exists k, pk_tweak_mul_assign_c dbg ctx AFFINE_G (scalar_of t5) = Some ((k, Ok tt), Cost 257 59 1 0 0)).
Proof.
  destruct C51_ecmult_example_pf as ((ctx & _ & HC) & _). destruct C52_ecmult_const_example_pf as (HK & NI & _). destruct wide_rngs as (RK & RZ & RS & RG). pose proof wide5_rng as R5. pose proof wide16_rng as R16.
  exists ctx, wide5, wide16. split; [exact HC|]. split; [exact R5|]. split; [lia|]. exists gx, wide_s, wide_z, wide5, wide16. split; [exact RG|]. split; [exact RS|]. split; [exact RZ|]. split; [exact R5|]. split; [exact R16|].
  assert (H1 : 0 <= 1 < n) by vmr. assert (H0 : 0 <= 0 < n) by vmr. assert (R5' : 0 <= wide5 < n) by lia. assert (R16' : 0 <= wide16 < n) by lia. intros dbg. split; [|split; [|split]].
  - destruct (C22_verify_pf dbg ctx AFFINE_G G wide16 wide5 1 HC HK NI R5' H1 R16') as (b & EB & _). unfold verify in EB. cbn [sig_r sig_s] in EB. rewrite <- verify_erase in EB.
    destruct (cw_erase _ b _ EB (verify_cost dbg ctx AFFINE_G wide16 wide5 1 R5' H1 R16')) as (c & E & K). exists b. rewrite E. f_equal. f_equal.
    assert (NZ : (wide5 =? 0) || (1 =? 0) = false) by (rewrite (proj2 (Z.eqb_neq wide5 0)) by lia; reflexivity). rewrite NZ, inv_mod_1, !Z.mul_1_l, !Z.mod_small in K by assumption.
    destruct K as ([r0 c'] & r' & E' & ->). rewrite (ecmult_wide dbg ctx r' r0 c' E'). reflexivity.
  - destruct (wide_recover dbg ctx HC) as (id & k & RI & E). unfold recover in E. cbn [sig_r sig_s] in E. rewrite <- recover_erase in E.
    destruct (cw_erase _ (Ok k) _ E (recover_cost dbg ctx wide_z gx wide_s id ltac:(lia) ltac:(lia) RZ)) as (c & EC & [[_ K]|[[_ K]|([r0 c'] & r' & b & E' & -> & KB)]]); [discriminate K | discriminate K|].
    rewrite wide_u1, wide_u2 in E'. rewrite (ecmult_wide dbg ctx r' r0 c' E') in EC. destruct b; [|discriminate (KB eq_refl)]. exists id, k. exact EC.
  - assert (NI' : padd G (smul wide16 G) <> Inf). { intros K. rewrite <- (smul_1 G) in K at 1 by exact (proj1 C56_cyclic_example_pf). rewrite smulG_add in K by lia. apply (smulG_nz (1 + wide16)); [vmr | exact K]. }
    destruct (proj2 (C34_public_tweak_add_pf dbg ctx AFFINE_G G wide16 HC HK NI R16') NI') as (k & E & _). rewrite <- tweak_add_erase in E.
    destruct (cw_erase _ _ _ E (tweak_add_cost dbg ctx AFFINE_G wide16 R16')) as (c & EC & [r0 c'] & r' & E' & ->). exists k. rewrite EC. f_equal. f_equal. destruct (wnaf_1 dbg) as (l1 & E1 & N1). destruct (wide_16 dbg) as (l2 & E2 & N2).
    cbn [snd]. rewrite (ecmult_at dbg ctx r' 1 wide16 l1 1 l2 256 r0 c' H1 R16' E1 E2 E'), N1, N2. reflexivity.
  - destruct (proj2 (C35_public_tweak_mul_pf dbg ctx AFFINE_G G wide5 HC HK NI R5') ltac:(lia)) as (k & E & _). rewrite <- tweak_mul_erase in E.
    destruct (cw_erase _ _ _ E (tweak_mul_cost dbg ctx AFFINE_G wide5 R5')) as (c & EC & K). rewrite (proj2 (Z.eqb_neq wide5 0)) in K by lia. destruct K as ([r0 c'] & r' & E' & ->). exists k. rewrite EC. f_equal. f_equal.
    destruct (wnaf_0 dbg) as (l2 & E2 & N2). destruct (wide_5 dbg) as (l1 & E1 & N1). cbn [snd]. rewrite (ecmult_at dbg ctx r' wide5 0 l1 256 l2 0 r0 c' R5' H0 E1 E2 E'), N1, N2. reflexivity.
Qed.
(** That tweaking a public key takes the same work for every tweak is false, so these functions are not meant for secret tweaks. *)
Lemma C90_fixed_tweak_work_refuted_pf : exists ctx t1 t2, verify_ctx ctx /\ 1 <= t1 < n /\ 1 <= t2 < n /\ forall dbg, exists k1 k2 k3 k4,
  pk_tweak_mul_assign_c dbg ctx AFFINE_G (scalar_of t1) = Some ((k1, Ok tt), Cost 257 59 1 0 0) /\ pk_tweak_mul_assign_c dbg ctx AFFINE_G (scalar_of t2) = Some ((k2, Ok tt), Cost 2 8 1 0 0) /\
  pk_tweak_add_assign_c dbg ctx AFFINE_G (scalar_of wide16) = Some ((k3, Ok tt), Cost 257 24 1 0 0) /\ pk_tweak_add_assign_c dbg ctx AFFINE_G (scalar_of t2) = Some ((k4, Ok tt), Cost 2 9 1 0 0).
Proof.
  destruct C51_ecmult_example_pf as ((ctx & _ & HC) & _). destruct C52_ecmult_const_example_pf as (HK & NI & _). pose proof wide5_rng as R5. pose proof wide16_rng as R16.
  assert (H1 : 0 <= 1 < n) by vmr. assert (H0 : 0 <= 0 < n) by vmr. assert (R5' : 0 <= wide5 < n) by lia. assert (R16' : 0 <= wide16 < n) by lia.
  assert (MUL : forall dbg t l1 b1, 0 <= t < n -> t <> 0 -> ecmult_wnaf dbg 256 (scalar_of t) 5 = Some (l1, b1) -> 0 <= b1 -> exists k, pk_tweak_mul_assign_c dbg ctx AFFINE_G (scalar_of t) = Some ((k, Ok tt), Cost (1 + b1) (7 + nonzeros l1) 1 0 0)).
  { intros dbg t l1 b1 RT NZ E1 B1. destruct (proj2 (C35_public_tweak_mul_pf dbg ctx AFFINE_G G t HC HK NI RT) NZ) as (k & E & _). rewrite <- tweak_mul_erase in E.
    destruct (cw_erase _ _ _ E (tweak_mul_cost dbg ctx AFFINE_G t RT)) as (c & EC & K). rewrite (proj2 (Z.eqb_neq t 0) NZ) in K. destruct K as ([r0 c'] & r' & E' & ->). exists k. rewrite EC. f_equal. f_equal.
    destruct (wnaf_0 dbg) as (l2 & E2 & N2). cbn [snd]. rewrite (ecmult_at dbg ctx r' t 0 l1 b1 l2 0 r0 c' RT H0 E1 E2 E'), N2, cadd_C. rewrite Z.max_l by exact B1. f_equal; lia. }
  assert (ADD : forall dbg t l2 b2, 0 <= t < n - 1 -> ecmult_wnaf dbg 256 (scalar_of t) 16 = Some (l2, b2) -> 1 <= b2 -> exists k, pk_tweak_add_assign_c dbg ctx AFFINE_G (scalar_of t) = Some ((k, Ok tt), Cost (1 + b2) (8 + nonzeros l2) 1 0 0)).
  { intros dbg t l2 b2 RT E2 B2. assert (RT' : 0 <= t < n) by lia. assert (NI' : padd G (smul t G) <> Inf). { intros K. rewrite <- (smul_1 G) in K at 1 by exact (proj1 C56_cyclic_example_pf). rewrite smulG_add in K by lia. apply (smulG_nz (1 + t)); [lia | exact K]. }
    destruct (proj2 (C34_public_tweak_add_pf dbg ctx AFFINE_G G t HC HK NI RT') NI') as (k & E & _). rewrite <- tweak_add_erase in E.
    destruct (cw_erase _ _ _ E (tweak_add_cost dbg ctx AFFINE_G t RT')) as (c & EC & [r0 c'] & r' & E' & ->). exists k. rewrite EC. f_equal. f_equal. destruct (wnaf_1 dbg) as (l1 & E1 & N1).
    cbn [snd]. rewrite (ecmult_at dbg ctx r' 1 t l1 1 l2 b2 r0 c' H1 RT' E1 E2 E'), N1, cadd_C. rewrite Z.max_r by exact B2. f_equal; lia. }
  exists ctx, wide5, 1. split; [exact HC|]. split; [exact R5|]. split; [vmr|]. intros dbg. destruct (wide_5 dbg) as (l5 & E5 & N5). destruct (wide_16 dbg) as (l16 & E16 & N16). destruct (wnaf_1 dbg) as (l1 & E1 & N1).
  assert (W1 : exists l, ecmult_wnaf dbg 256 (scalar_of 1) 16 = Some (l, 1) /\ nonzeros l = 1) by (eexists; split; [destruct dbg; vm_compute; reflexivity | vm_compute; reflexivity]). destruct W1 as (l1' & E1' & N1').
  destruct (MUL dbg wide5 l5 256 R5' ltac:(lia) E5 ltac:(lia)) as (k1 & M1). destruct (MUL dbg 1 l1 1 H1 ltac:(lia) E1 ltac:(lia)) as (k2 & M2).
  destruct (ADD dbg wide16 l16 256 ltac:(vmr) E16 ltac:(lia)) as (k3 & M3). destruct (ADD dbg 1 l1' 1 ltac:(vmr) E1' ltac:(lia)) as (k4 & M4). rewrite N5 in M1. rewrite N1 in M2. rewrite N16 in M3. rewrite N1' in M4.
  exists k1, k2, k3, k4. split; [exact M1|]. split; [exact M2|]. split; [exact M3 | exact M4].
Qed.

(** * Examples *)
Lemma C90_double_multiplication_example_pf : exists ctx j, verify_ctx ctx /\ jac_at j G /\ 0 <= n - 1 < n /\ forall dbg, exists r c, ecmult_c dbg ctx j (scalar_of (n - 1)) (scalar_of (n - 1)) = Some (r, c).
Proof.
  destruct C51_ecmult_example_pf as ((ctx & _ & HC) & (j & HJ) & _ & R). exists ctx, j. split; [exact HC|]. split; [exact HJ|]. split; [exact R|]. intros dbg.
  destruct (C51_ecmult_pf dbg ctx j G (n - 1) (n - 1) HC HJ ltac:(discriminate) R R) as (r & E & _). rewrite <- ecmult_erase in E. destruct (ecmult_c dbg ctx j (scalar_of (n - 1)) (scalar_of (n - 1))) as [[r0 c]|]; [|discriminate E]. exists r0, c. reflexivity.
Qed.
Lemma C90_verify_example_pf : exists ctx r z, verify_ctx ctx /\ 0 <= r < n /\ 0 <= 1 < n /\ 0 <= z < n /\ forall dbg, exists b c, verify_raw_c dbg ctx (scalar_of r) (scalar_of 1) AFFINE_G (scalar_of z) = Some (b, c).
Proof.
  destruct C90_attained_pf as (ctx & r & z & HC & R & Z & r' & s' & z' & t5 & t16 & _ & _ & _ & _ & _ & H). exists ctx, r, z. split; [exact HC|]. split; [lia|]. split; [vmr|]. split; [exact Z|].
  intros dbg. destruct (H dbg) as ((b & E) & _). exists b, (Cost 257 75 0 0 1). exact E.
Qed.
Lemma C90_recover_example_pf : exists ctx r s z, verify_ctx ctx /\ 0 <= r < n /\ 0 <= s < n /\ 0 <= z < n /\ forall dbg, exists id k c, recover_raw_c dbg ctx (scalar_of r) (scalar_of s) id (scalar_of z) = Some (Ok k, c).
Proof.
  destruct C90_attained_pf as (ctx & r1 & z1 & HC & _ & _ & r & s & z & t5 & t16 & R & S & Z & _ & _ & H). exists ctx, r, s, z. split; [exact HC|]. split; [lia|]. split; [lia|]. split; [exact Z|].
  intros dbg. destruct (H dbg) as (_ & (id & k & E) & _). exists id, k, (Cost 257 75 1 1 1). exact E.
Qed.
Lemma C90_public_tweaks_example_pf : exists ctx t, verify_ctx ctx /\ 0 <= t < n /\ forall dbg, (exists o c, pk_tweak_add_assign_c dbg ctx AFFINE_G (scalar_of t) = Some (o, c)) /\ exists o c, pk_tweak_mul_assign_c dbg ctx AFFINE_G (scalar_of t) = Some (o, c).
Proof.
  destruct C90_fixed_tweak_work_refuted_pf as (ctx & t1 & t & HC & _ & RT & H). exists ctx, t. split; [exact HC|]. split; [lia|]. intros dbg. destruct (H dbg) as (k1 & k2 & k3 & k4 & _ & E2 & _ & E4).
  split; [exists (k4, Ok tt), (Cost 2 9 1 0 0); exact E4 | exists (k2, Ok tt), (Cost 2 8 1 0 0); exact E2].
Qed.
Lemma C90_combine_example_pf : forall dbg, (exists k c, pk_combine_c dbg [AFFINE_G; AFFINE_G] = Some (Ok k, c)) /\ exists e c, pk_combine_c dbg [] = Some (Err e, c).
Proof. intros dbg. destruct dbg; (split; [eexists; eexists; vm_compute; reflexivity | eexists; eexists; vm_compute; reflexivity]). Qed.
Lemma C90_secrets_example_pf : exists ctx, gen_ctx ctx /\ forall dbg D, (exists o c, pk_from_secret_key_c dbg ctx (scalar_of (n - 1)) = Some (o, c)) /\ (exists o c, sign_raw_c dbg ctx (scalar_of 1) (scalar_of 1) (scalar_of 1) = Some (o, c)) /\
  exists o c, ecdh_raw_c dbg D AFFINE_G (scalar_of (n - 1)) = Some (Some o, c).
Proof.
  destruct C53_ecmult_gen_example_pf as (gc & _ & HG). exists gc. split; [exact HG|]. intros dbg D. assert (R : 1 <= n - 1 < n) by vmr. assert (H1 : 0 <= 1 < n) by vmr. assert (K1 : 1 <= 1 < n) by vmr. split; [|split].
  - destruct (C21_from_secret_key_pf dbg gc (n - 1) HG R) as (k & E & _). rewrite <- from_secret_erase in E. destruct (pk_from_secret_key_c dbg gc (scalar_of (n - 1))) as [[o c]|]; [|discriminate E]. exists o, c. reflexivity.
  - pose proof (sign_raw_erase_c dbg gc (scalar_of 1) (scalar_of 1) (scalar_of 1)) as ER. destruct (sign_raw_cases dbg gc 1 1 1 HG H1 H1 K1) as [(_ & W & _)|[(_ & _ & r & s & id & _ & E)|(_ & _ & E)]]; [elim (wraps_1 W)| |];
      rewrite <- ER in E; (destruct (sign_raw_c dbg gc (scalar_of 1) (scalar_of 1) (scalar_of 1)) as [[o c]|]; [|discriminate E]); exists o, c; reflexivity.
  - destruct (proj2 (C37_ecdh_pf dbg D AFFINE_G G (n - 1) (proj1 C52_ecmult_const_example_pf) ltac:(discriminate) ltac:(lia)) ltac:(lia)) as (x & y & _ & E). unfold shared_secret_new in E. rewrite <- ecdh_erase_c in E.
    destruct (ecdh_raw_c dbg D AFFINE_G (scalar_of (n - 1))) as [[[o|] c]|]; [exists o, c; reflexivity | discriminate E | discriminate E].
Qed.
(** A stream whose first block is in range but gives s = 0, so that two nonces are tried. *)
Definition two_tries : nat -> list Z := fun i => be_bytes 32 (if Nat.eqb i 0 then 1 else 2).
Lemma C90_sign_example_pf : exists ctx z, gen_ctx ctx /\ 0 <= 1 < n /\ 0 <= z < n /\ stream two_tries /\ forall dbg, exists v, sign_c dbg (fun _ _ => two_tries) 2 ctx (scalar_of z) (scalar_of 1) = Done (v, Cost 0 128 2 0 2).
Proof.
  destruct C53_ecmult_gen_example_pf as (gc & _ & HG). assert (H1 : 0 <= 1 < n) by vmr. assert (RZ : 0 <= n - gx < n) by vmr. assert (ST : stream two_tries) by (intros i; apply be32_bytes). exists gc, (n - gx).
  split; [exact HG|]. split; [exact H1|]. split; [exact RZ|]. split; [exact ST|]. intros dbg.
  assert (N0 : nonce two_tries 0 = 1) by (vm_compute; reflexivity). assert (N1 : nonce two_tries 1 = 2) by (vm_compute; reflexivity).
  assert (S2 : exists x y, smul 2 G = Aff x y /\ (n - gx + x mod n * 1) mod n <> 0 /\ x < n) by (eexists; eexists; split; [vm_compute; reflexivity | split; [vm_compute; discriminate | vmr]]).
  destruct S2 as (x2 & y2 & P2 & U2 & L2).
  assert (U : usable 1 (n - gx) (nonce two_tries 1)) by (rewrite N1; split; [vmr|]; exists x2, y2; split; [exact P2 | exact U2]).
  assert (NU : ~ usable 1 (n - gx) (nonce two_tries 0)) by (rewrite N0; intros (_ & x & y & P & Q); rewrite smul_1_G in P; injection P as <- <-; apply Q; vm_compute; reflexivity).
  destruct (C29_first_usable_pf dbg (fun _ _ => two_tries) 2 gc 1 (n - gx) 1 HG H1 RZ ST ltac:(lia)) as (r & s & id & _ & E).
  - intros l HL. replace l with 0%nat by lia. exact NU.
  - exact U.
  - right. intros l HL. destruct (Nat.eq_dec l 0) as [->|NL]; [rewrite N0; exact wraps_1|]. replace l with 1%nat by lia. rewrite N1. intros (_ & x & y & P & Q). rewrite P2 in P. injection P as <- <-. lia.
  - rewrite <- sign_erase_c in E. destruct (sign_c dbg (fun _ _ => two_tries) 2 gc (scalar_of (n - gx)) (scalar_of 1)) as [[v c]| |] eqn:EC; [|discriminate E|discriminate E].
    destruct (C90_sign_pf dbg (fun _ _ => two_tries) 2 gc 1 (n - gx) v c HG H1 RZ ST EC) as (j & J & NUJ & UJ & HC & _). exists v. f_equal. f_equal. rewrite HC.
    assert (j = 1%nat) as ->. { destruct j as [|[|j]]; [contradiction (NU UJ) | reflexivity | lia]. }
    assert (T : tries two_tries 0 1 = 2) by (rewrite (tries_next two_tries 0 1) by lia; rewrite tries_one, N0, N1; vm_compute; reflexivity). rewrite T. reflexivity.
Qed.
