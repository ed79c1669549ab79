(** Proofs about the traces of MTrace.v. *)
From Coq Require Import Znumtheory Field.
From Verif Require Import Word MField MScalar MGroup MEcmult MEcdsa MApi MTrace WP FieldMul FieldNorm FieldZero Spec Fp Bits FieldOps FieldCodec FieldStore
  ScalarMul ScalarOps ScalarMore ScalarBits Denote Curve Group Chain OrderCert Order Jac JacOps Lift Table Wnaf WnafC Ecmult Gen Endo.

(** ** Erasure: forgetting the trace gives the functions of the model *)
Lemma er_bind {A B} (t : T A) (f : A -> T B) (o : option A) (g : A -> option B) :
  snd t = o -> (forall a, snd (f a) = g a) -> snd (bindT t f) = bind o g.
Proof. intros <- H. destruct t as [e [a|]]; cbn; [apply H | reflexivity]. Qed.
Lemma er_ev {B} (e : event) (f : unit -> T B) o : snd (f tt) = o -> snd (bindT (ev e) f) = o.
Proof. exact (fun h => h). Qed.
Lemma er_branch {B} (b : bool) (f : bool -> T B) o : snd (f b) = o -> snd (bindT (branch b) f) = o.
Proof. exact (fun h => h). Qed.

Section B.
Variable dbg : bool.
Lemma t_add_ge_erase a b : snd (t_add_ge dbg a b) = j_add_ge dbg a b.
Proof.
  unfold t_add_ge, j_add_ge. do 14 (apply er_bind; [reflexivity|]; intros ?). apply er_branch.
  repeat (apply er_bind; [reflexivity|]; intros ?). reflexivity.
Qed.
Lemma t_double_nonzero_erase s a : snd (t_double_nonzero dbg s a) = j_double_nonzero_in_place dbg s a.
Proof. reflexivity. Qed.
Lemma t_gen_select_erase row : forall j i bits adds, snd (t_gen_select row j i bits adds) = Some (gen_select row i bits adds).
Proof. induction row as [|p t IH]; intros; [reflexivity|]. cbn [t_gen_select gen_select]. do 2 apply er_ev. apply IH. Qed.
Lemma t_ecmult_gen_loop_erase prec : forall j g adds r, snd (t_ecmult_gen_loop dbg prec j g adds r) = ecmult_gen_loop dbg prec j g adds r.
Proof.
  induction prec as [|row t IH]; intros; [reflexivity|]. cbn [t_ecmult_gen_loop ecmult_gen_loop]. apply er_ev.
  apply er_bind; [reflexivity|]. intros bits. apply er_bind; [apply t_gen_select_erase|]. intros a. apply er_bind; [apply t_add_ge_erase|]. intros r'. apply IH.
Qed.
Lemma t_ecmult_gen_erase ctx gn : snd (t_ecmult_gen dbg ctx gn) = ecmult_gen dbg ctx gn.
Proof. destruct ctx. unfold t_ecmult_gen, ecmult_gen. apply er_bind; [reflexivity|]. intros g. apply t_ecmult_gen_loop_erase. Qed.
Lemma t_pk_from_secret_key_erase ctx sk : snd (t_pk_from_secret_key dbg ctx sk) = pk_from_secret_key dbg ctx sk.
Proof. unfold t_pk_from_secret_key, pk_from_secret_key. apply er_bind; [apply t_ecmult_gen_erase|]. intros pj. reflexivity. Qed.
Lemma t_sign_raw_erase ctx d m k : snd (t_sign_raw dbg ctx d m k) = sign_raw dbg ctx d m k.
Proof.
  unfold t_sign_raw, sign_raw. apply er_bind; [apply t_ecmult_gen_erase|]. intros rp.
  do 4 (apply er_bind; [reflexivity|]; intros ?). apply er_bind; [reflexivity|]. intros [sigr overflow]. cbn [fst snd].
  do 8 (apply er_bind; [reflexivity|]; intros ?). apply er_branch.
  match goal with |- context [s_is_zero ?s] => destruct (s_is_zero s) end; [reflexivity|]. apply er_branch.
  match goal with |- context [s_is_high ?s] => destruct (s_is_high s) end; [|reflexivity].
  apply er_bind; [reflexivity|]. intros ?. reflexivity.
Qed.
Lemma t_wnaf_const_loop_erase fuel : forall w gs s word ul u l,
  snd (t_wnaf_const_loop dbg fuel w gs s word ul u l) = wnaf_const_loop dbg fuel w gs s word ul u l.
Proof.
  induction fuel as [|fuel IH]; intros; cbn [t_wnaf_const_loop wnaf_const_loop]; apply er_branch; destruct (word * w <? WNAF_BITS); try reflexivity.
  apply er_bind; [reflexivity|]. intros [s' u']. cbn [fst snd]. do 5 (apply er_bind; [reflexivity|]; intros ?). apply er_ev. apply er_bind; [reflexivity|]. intros ?. apply IH.
Qed.
Lemma t_ecmult_wnaf_const_erase len a w : snd (t_ecmult_wnaf_const dbg len a w) = ecmult_wnaf_const dbg len a w.
Proof.
  unfold t_ecmult_wnaf_const, ecmult_wnaf_const. do 9 (apply er_bind; [reflexivity|]; intros ?).
  apply er_bind; [reflexivity|]. intros [s ul]. cbn [fst snd]. apply er_bind; [apply t_wnaf_const_loop_erase|]. intros [[[l word] u] s'].
  apply er_bind; [reflexivity|]. intros v. apply er_ev. repeat (apply er_bind; [reflexivity|]; intros ?). reflexivity.
Qed.
Lemma t_cmov_loop_erase pre : forall m i x y, snd (t_cmov_loop pre m i x y) = Some (cmov_loop pre m i x y).
Proof. induction pre as [|p t IH]; intros; [reflexivity|]. cbn [t_cmov_loop cmov_loop]. apply er_ev. apply IH. Qed.
Lemma t_table_get_ge_const_erase r pre d w : snd (t_table_get_ge_const dbg r pre d w) = table_get_ge_const dbg r pre d w.
Proof.
  unfold t_table_get_ge_const, table_get_ge_const. do 3 (apply er_bind; [reflexivity|]; intros ?).
  apply er_bind; [apply t_cmov_loop_erase|]. intros [x y]. cbn [fst snd]. do 2 (apply er_bind; [reflexivity|]; intros ?). reflexivity.
Qed.
Lemma t_double_nonzero_n_erase k : forall r, snd (t_double_nonzero_n dbg k r) = double_nonzero_n dbg k r.
Proof. induction k as [|k IH]; intros; [reflexivity|]. cbn [t_double_nonzero_n double_nonzero_n]. apply er_bind; [reflexivity|]. intros r'. apply IH. Qed.
Lemma t_ecmult_const_loop_erase k pre l : forall ta r, snd (t_ecmult_const_loop dbg k pre l ta r) = ecmult_const_loop dbg k pre l ta r.
Proof.
  induction k as [|k IH]; intros; [reflexivity|]. cbn [t_ecmult_const_loop ecmult_const_loop].
  apply er_bind; [apply t_double_nonzero_n_erase|]. intros r1. apply er_bind; [reflexivity|]. intros d.
  apply er_bind; [apply t_table_get_ge_const_erase|]. intros ta'. apply er_bind; [reflexivity|]. intros _. apply er_bind; [apply t_add_ge_erase|]. intros r2. apply IH.
Qed.
Lemma t_ecmult_const_erase a sc : snd (t_ecmult_const dbg a sc) = ecmult_const dbg a sc.
Proof.
  unfold t_ecmult_const, ecmult_const. apply er_bind; [apply t_ecmult_wnaf_const_erase|]. intros [l skew]. cbn [fst snd]. apply er_ev.
  apply er_bind; [reflexivity|]. intros r. apply er_bind; [reflexivity|]. intros [pre z]. cbn [fst snd].
  do 3 (apply er_bind; [reflexivity|]; intros ?). apply er_bind; [apply t_table_get_ge_const_erase|]. intros ta. apply er_bind; [reflexivity|]. intros r1.
  apply er_bind; [apply t_ecmult_const_loop_erase|]. intros r2. do 2 (apply er_bind; [reflexivity|]; intros ?). apply er_ev.
  do 7 (apply er_bind; [reflexivity|]; intros ?). apply t_add_ge_erase.
Qed.
Lemma t_ecdh_raw_erase D a s : snd (t_ecdh_raw dbg D a s) = ecdh_raw dbg D a s.
Proof.
  unfold t_ecdh_raw, ecdh_raw. apply er_branch. destruct (s_is_zero s); [reflexivity|]. apply er_bind; [apply t_ecmult_const_erase|]. intros res.
  repeat (apply er_bind; [reflexivity|]; intros ?). reflexivity.
Qed.

(** ** Reasoning about a run and its trace *)
Definition wpt {A} (t : T A) (e : list event) (Q : A -> Prop) : Prop := exists a, t = (e, Some a) /\ Q a.
Lemma wpt_ret {A} (a : A) (Q : A -> Prop) : Q a -> wpt (retT a) [] Q.
Proof. intros H. exists a. split; [reflexivity | exact H]. Qed.
Lemma wpt_bind {A C} (t : T A) (f : A -> T C) e1 e2 (P : A -> Prop) (Q : C -> Prop) :
  wpt t e1 P -> (forall a, P a -> wpt (f a) e2 Q) -> wpt (bindT t f) (e1 ++ e2) Q.
Proof. intros (a & -> & HP) H. destruct (H a HP) as (c & EC & HQ). exists c. cbn [bindT]. rewrite EC. split; [reflexivity | exact HQ]. Qed.
Lemma wpt_lift {A C} (o : option A) (f : A -> T C) e (P : A -> Prop) (Q : C -> Prop) :
  wp o P -> (forall a, P a -> wpt (f a) e Q) -> wpt (bindT (lift o) f) e Q.
Proof. intros H K. apply wp_inv in H. destruct H as (a & -> & HP). exact (wpt_bind (lift (Some a)) f [] e P Q (ex_intro _ a (conj eq_refl HP)) K). Qed.
Lemma wpt_val {A C} (a : A) (f : A -> T C) e (Q : C -> Prop) : wpt (f a) e Q -> wpt (bindT (lift (Some a)) f) e Q.
Proof. intros H. apply (wpt_lift _ _ _ (eq a)); [reflexivity|]. intros ? <-. exact H. Qed.
Lemma wpt_ev {C} v (f : unit -> T C) e (Q : C -> Prop) : wpt (f tt) e Q -> wpt (bindT (ev v) f) (v :: e) Q.
Proof. intros (c & EC & HQ). exists c. unfold bindT, ev. rewrite EC. split; [reflexivity | exact HQ]. Qed.
Lemma wpt_branch {C} b (f : bool -> T C) e (Q : C -> Prop) : wpt (f b) e Q -> wpt (bindT (branch b) f) (EBranch b :: e) Q.
Proof. intros (c & EC & HQ). exists c. unfold bindT, branch. rewrite EC. split; [reflexivity | exact HQ]. Qed.
Lemma wpt_load {A C} (l : list A) i a (f : A -> T C) e (Q : C -> Prop) : idx l i = Some a -> wpt (f a) e Q -> wpt (bindT (load l i) f) (EIndex i :: e) Q.
Proof. intros HI (c & EC & HQ). exists c. unfold bindT, load. rewrite HI, EC. split; [reflexivity | exact HQ]. Qed.
Lemma wpt_of {A} (t : T A) e (Q : A -> Prop) : fst t = e -> wp (snd t) Q -> wpt t e Q.
Proof. intros <- H. apply wp_inv in H. destruct H as (a & E0 & HQ). exists a. split; [destruct t; cbn in *; congruence | exact HQ]. Qed.
Lemma wpt_mono {A} (t : T A) e (P Q : A -> Prop) : wpt t e P -> (forall a, P a -> Q a) -> wpt t e Q.
Proof. intros (a & E0 & H) K. exists a. split; [exact E0 | apply K, H]. Qed.
Lemma wpt_fst {A} (t : T A) e (Q : A -> Prop) : wpt t e Q -> fst t = e.
Proof. intros (a & -> & _). reflexivity. Qed.

(** ** The branch of [add_ge] *)
Lemma feqb_eq a b : feqb a b = true <-> a = b.
Proof. destruct (feqb_spec a b); split; intros; try assumption; try reflexivity; try contradiction; discriminate. Qed.
Definition quiet {A} (t : T A) : Prop := fst t = [].
Lemma quiet_lift {A C} (o : option A) (f : A -> T C) : (forall a, quiet (f a)) -> quiet (bindT (lift o) f).
Proof. intros H. destruct o; [apply H | reflexivity]. Qed.
Definition tr (o : option bool) : list event := match o with Some b => [EBranch b] | None => [] end.
Lemma tr_lift {A C} (o : option A) (f : A -> T C) g : (forall a, fst (f a) = tr (g a)) -> fst (bindT (lift o) f) = tr (bind o g).
Proof. intros H. destruct o; [apply H | reflexivity]. Qed.
Definition add_ge_m (a : jac) (b : affine) : option bool :=
  let* _ := dassert dbg (negb (af_inf b)) in
  let* zz := f_sqr dbg (j_z a) in
  let* u1 := f_normalize_weak dbg (j_x a) in
  let* u2 := f_mul dbg (af_x b) zz in
  let* s1 := f_normalize_weak dbg (j_y a) in
  let* s2 := f_mul dbg (af_y b) zz in
  let* s2 := f_mul dbg s2 (j_z a) in
  let* t := f_add dbg u1 u2 in
  let* m := f_add dbg s1 s2 in
  let* rr := f_sqr dbg t in
  let* m_alt := f_neg dbg u2 1 in
  let* tt0 := f_mul dbg u1 m_alt in
  let* rr := f_add dbg rr tt0 in
  f_normalizes_to_zero dbg m.
Lemma t_add_ge_fst a b : fst (t_add_ge dbg a b) = tr (add_ge_m a b).
Proof.
  unfold t_add_ge, add_ge_m. do 13 (apply tr_lift; intros ?).
  match goal with |- fst (bindT (lift ?o) _) = _ => destruct o as [mz|]; [|reflexivity] end.
  change (fst (bindT (lift (Some mz)) ?f)) with (fst (f mz)). cbv beta. unfold bindT at 1, branch. cbn [fst tr app]. f_equal.
  repeat (apply quiet_lift; intros ?). reflexivity.
Qed.
Lemma add_ge_m_ok u a b A B xa ya xb yb : jokw dbg u a A -> aok 6 u b B -> af_inf b = false -> j_inf a = false ->
  pt A = FAff xa ya -> pt B = FAff xb yb -> wp (add_ge_m a b) (fun c => c = feqb (ya + yb)%F f0).
Proof.
  intros HA HB IB IA PA PB. unfold add_ge_m. apply wp_dassert; [rewrite IB; reflexivity|].
  apply aok_elim in HB. destruct HA as (x1 & y1 & z1 & X1 & Y1 & Z1 & HA). destruct HB as (x2 & y2 & X2 & Y2 & HB).
  rewrite IB in HB. rewrite IA in HA. unfold wok in X1, Y1.
  fs. eapply wp_bind; [exact X1|]. cbv beta. intros u1 U1. fs. eapply wp_bind; [exact Y1|]. cbv beta. intros s1 S1. do 8 fs.
  eapply wp_mono; [eapply f_normalizes_to_zero_rep; fr|]. cbv beta. intros c ->.
  destruct HA as [NA EA]. destruct HB as [NB EB]. rewrite PA in EA. rewrite PB in EB. injection EA as EAx EAy. injection EB as EBx EBy.
  assert (NZ : z1 <> f0) by (intros E0; apply NA; rewrite E0; ring).
  rewrite EAy, EBy. apply Bool.eq_iff_eq_true. rewrite !feqb_eq. split; intros HZ.
  - transitivity ((y1 + y2 * (z1 * z1) * z1) / (z1 * u * (z1 * u) * (z1 * u)))%F; [field; auto|]. rewrite HZ. field. auto.
  - transitivity ((y1 / (z1 * u * (z1 * u) * (z1 * u)) + y2 / (u * u * u)) * (z1 * u * (z1 * u) * (z1 * u)))%F; [field; auto|]. rewrite HZ. ring.
Qed.
Lemma t_add_ge_ok u a b A B xa ya xb yb : jokw dbg u a A -> aok 6 u b B -> af_inf b = false -> j_inf a = false ->
  pt A = FAff xa ya -> pt B = FAff xb yb -> wpt (t_add_ge dbg a b) [EBranch (feqb (ya + yb)%F f0)] (fun r => jok u r (eadd A B)).
Proof.
  intros HA HB IB IA PA PB. apply wpt_of.
  - rewrite t_add_ge_fst. pose proof (add_ge_m_ok u a b A B xa ya xb yb HA HB IB IA PA PB) as H. apply wp_inv in H. destruct H as (c & -> & ->). reflexivity.
  - rewrite t_add_ge_erase. apply j_add_ge_ok; assumption.
Qed.
Lemma not_e0 A : A <> e0 -> exists x y, pt A = FAff x y.
Proof. intros H. destruct (pt A) as [|x y] eqn:E0; [exfalso; apply H, pt_inj, E0 | eauto]. Qed.
Lemma emul_neq0 k A : A <> e0 -> k mod n <> 0 -> emul k A <> e0.
Proof. intros N K E0. apply K. apply emul_eq0 in E0; assumption. Qed.
Lemma t_add_ge_mul u a b P k d c : P <> e0 -> jok u a (emul k P) -> aok 6 u b (emul d P) -> af_inf b = false ->
  k mod n <> 0 -> d mod n <> 0 -> (c = true <-> opp_y k d) ->
  wpt (t_add_ge dbg a b) [EBranch c] (fun r => jok u r (emul (k + d) P)).
Proof.
  intros N HA HB IB K D HC. destruct (not_e0 _ (emul_neq0 _ _ N K)) as (xa & ya & PA). destruct (not_e0 _ (emul_neq0 _ _ N D)) as (xb & yb & PB).
  assert (IA : j_inf a = false) by (apply (jok_fin _ _ _ HA), emul_neq0; assumption).
  assert (CE : c = feqb (ya + yb)%F f0).
  { apply Bool.eq_iff_eq_true. rewrite HC, feqb_eq. symmetry. exact (opp_y_mul P k d _ _ _ _ N PA PB). }
  rewrite CE, emul_add. apply (t_add_ge_ok u a b _ _ xa ya xb yb (jok_w _ _ _ _ HA) HB IB IA PA PB).
Qed.

(** ** The recoding: its trace is fixed *)
Fixpoint wnaf_events (k : nat) (word : Z) : list event :=
  match k with
  | O => [EBranch false]
  | S k' => EBranch true :: EIndex word :: wnaf_events k' (word + 1)
  end.
Lemma lift_inv {A C} (o : option A) (f : A -> T C) q : snd (bindT (lift o) f) = Some q -> exists a, o = Some a /\ snd (f a) = Some q /\ bindT (lift o) f = f a.
Proof. destruct o as [a|]; cbn; intros H; [|discriminate H]. exists a. split; [reflexivity|]. split; [exact H|]. destruct (f a). reflexivity. Qed.
Lemma ev_fst {C} v (f : unit -> T C) : fst (bindT (ev v) f) = v :: fst (f tt). Proof. reflexivity. Qed.
Lemma branch_fst {C} b (f : bool -> T C) : fst (bindT (branch b) f) = EBranch b :: fst (f b). Proof. reflexivity. Qed.
Lemma t_wnaf_const_loop_fst k : forall fuel gs s word ul u l q, word = 64 - Z.of_nat k -> 0 <= word ->
  snd (t_wnaf_const_loop dbg fuel 4 gs s word ul u l) = Some q ->
  fst (t_wnaf_const_loop dbg fuel 4 gs s word ul u l) = wnaf_events k word /\ snd (fst (fst q)) = 64.
Proof.
  induction k as [|k IH]; intros [|fuel] gs s word ul u l q W W0 H; cbn [t_wnaf_const_loop] in *; rewrite branch_fst; change (snd (bindT (branch ?b) ?f)) with (snd (f b)) in H; cbv beta in *.
  1, 2: rewrite (proj2 (Z.ltb_ge (word * 4) WNAF_BITS)) in * by (change WNAF_BITS with 256; lia); injection H as <-; split; [reflexivity | cbn [fst snd]; lia].
  1: rewrite (proj2 (Z.ltb_lt (word * 4) WNAF_BITS)) in * by (change WNAF_BITS with 256; lia); discriminate H.
  rewrite (proj2 (Z.ltb_lt (word * 4) WNAF_BITS)) in * by (change WNAF_BITS with 256; lia).
  do 6 (apply lift_inv in H; destruct H as (? & _ & H & ->); cbv beta in H).
  change (snd (bindT (ev ?v) ?f)) with (snd (f tt)) in H. rewrite ev_fst. cbv beta in *. apply lift_inv in H; destruct H as (? & _ & H & ->).
  apply (IH fuel _ _ (word + 1) _ _ _ _ ltac:(lia) ltac:(lia)) in H. destruct H as [-> E0]. split; [reflexivity | exact E0].
Qed.
Definition recode_events : list event := wnaf_events 64 0 ++ [EIndex 64].
Lemma t_ecmult_wnaf_const_fst a q : snd (t_ecmult_wnaf_const dbg 65 a 4) = Some q -> fst (t_ecmult_wnaf_const dbg 65 a 4) = recode_events.
Proof.
  unfold t_ecmult_wnaf_const. intros H. do 10 (apply lift_inv in H; destruct H as (? & _ & H & ->); cbv beta in H).
  match type of H with snd (bindT ?t ?f) = _ => set (F := f) in *; destruct t as [e [r|]] eqn:ET end; [|discriminate H].
  match type of ET with t_wnaf_const_loop _ ?fu _ ?g ?s _ ?ul ?u ?l = _ => pose proof (t_wnaf_const_loop_fst 64 fu g s 0 ul u l r eq_refl ltac:(lia)) as K end. rewrite ET in K. specialize (K eq_refl). destruct K as [K1 K2]. cbn [fst] in K1. subst e.
  change (fst (bindT (?e, Some r) F)) with (e ++ fst (F r)). change (snd (bindT (?e, Some r) F)) with (snd (F r)) in H. unfold recode_events. f_equal.
  destruct r as [[[l word] u] s']. cbn [fst snd] in K2. subst word. unfold F in *.
  apply lift_inv in H. destruct H as (? & _ & H & ->). cbv beta in H. change (snd (bindT (ev ?v) ?f)) with (snd (f tt)) in H. rewrite ev_fst. f_equal. cbv beta in *.
  do 3 (apply lift_inv in H; destruct H as (? & _ & H & ->); cbv beta in H). reflexivity.
Qed.
Lemma t_ecmult_wnaf_const_ok a : 0 <= a < n ->
  wpt (t_ecmult_wnaf_const dbg 65 (scalar_of a) 4) recode_events (fun '(l, skew) =>
    Z.of_nat (length l) = 65 /\ (skew = 1 \/ skew = 2) /\
    (forall i, 0 <= i < 65 -> odd15 (digit l i)) /\ - n < wsum 16 l < n /\ (wsum 16 l) mod n = (a + skew) mod n /\
    2 * Z.abs (wsum 16 l) <= n + 1 /\ skew = wskew a).
Proof.
  intros HA. pose proof (ecmult_wnaf_const_full dbg a HA) as H. rewrite <- t_ecmult_wnaf_const_erase in H. apply wpt_of; [|exact H].
  apply wp_inv in H. destruct H as (q & H & _). exact (t_ecmult_wnaf_const_fst _ _ H).
Qed.

(** ** Table look-ups and doublings: fixed *)
Fixpoint index_events (k : nat) (m : Z) : list event := match k with O => [] | S k' => EIndex m :: index_events k' (m + 1) end.
Lemma t_cmov_loop_fst pre : forall m i x y, fst (t_cmov_loop pre m i x y) = index_events (length pre) m.
Proof. induction pre as [|p t IH]; intros; [reflexivity|]. cbn [t_cmov_loop length index_events]. rewrite ev_fst. f_equal. apply IH. Qed.
Lemma bindT_quiet {A C} (t : T A) (f : A -> T C) : (forall a, quiet (f a)) -> fst (bindT t f) = fst t.
Proof. intros H. destruct t as [e [a|]]; [|reflexivity]. cbn. rewrite (H a), app_nil_r. reflexivity. Qed.
Lemma t_table_get_ge_const_ok v t A r d : Forall2 (aokc v) t (odds A 8 1) -> odd15 d ->
  wpt (t_table_get_ge_const dbg r t d 5) (index_events 8 0) (fun a => aok 6 v a (emul d A) /\ af_inf a = false).
Proof.
  intros H O. pose proof (table_get_ge_const_ok dbg v t A r d H O) as K. rewrite <- t_table_get_ge_const_erase in K. apply wpt_of; [|exact K].
  apply wp_inv in K. destruct K as (a & K & _). unfold t_table_get_ge_const in *. do 3 (apply lift_inv in K; destruct K as (? & _ & K & ->); cbv beta in K).
  rewrite bindT_quiet; [|intros xy; repeat (apply quiet_lift; intros ?); reflexivity]. rewrite t_cmov_loop_fst.
  pose proof (Forall2_len _ _ _ H) as L. rewrite odds_len in L. rewrite L. reflexivity.
Qed.
Fixpoint dbl_events (k : nat) : list event := match k with O => [] | S k' => EBranch false :: dbl_events k' end.
Lemma t_double_nonzero_n_ok v k : forall r m A, jok v r (emul m A) -> j_inf r = false ->
  wpt (t_double_nonzero_n dbg k r) (dbl_events k) (fun r' => jok v r' (emul (2 ^ Z.of_nat k * m) A) /\ j_inf r' = false).
Proof.
  induction k; intros r m A H I.
  - apply wpt_ret. rewrite Z.mul_1_l. split; assumption.
  - cbn [t_double_nonzero_n dbl_events]. change (EBranch false :: dbl_events k) with ([EBranch false] ++ dbl_events k). eapply wpt_bind.
    { unfold t_double_nonzero. rewrite I. apply wpt_branch. apply wpt_of; [reflexivity|]. apply j_double_nonzero_ok; [exact H | exact I]. }
    cbv beta. intros r1 [R1 I1].
    rewrite <- emul_double in R1. eapply wpt_mono; [apply (IHk r1 (2 * m) A R1 I1)|]. cbv beta. intros r2 [R2 I2]. split; [|exact I2].
    rewrite Nat2Z.inj_succ, Z.pow_succ_r by lia. replace (2 * 2 ^ Z.of_nat k * m) with (2 ^ Z.of_nat k * (2 * m)) by ring. exact R2.
Qed.
End B.

(** ** In the main loop of [ecmult_const] the branch of [add_ge] never goes to the right *)
Lemma no_opp q d : odd15 d -> 2 * Z.abs (16 * q) <= n + 40 -> ~ opp_y (16 * q) d.
Proof.
  intros [O R] B H. assert (NP := n_pos).
  assert (X : exists c t, (c = 1 \/ c = lambda \/ c = n - 1 - lambda) /\ 16 * q + c * d = t * n).
  { destruct H as [H|[H|H]]; apply Z.mod_divide in H; try lia; destruct H as [t H].
    - exists 1, t. split; [auto | lia].
    - exists lambda, t. auto.
    - exists (n - 1 - lambda), t. auto. }
  destruct X as (c & t & HC & E0). clear H NP. rewrite n_eq in *. unfold lambda in *.
  assert (DD : d = -15 \/ d = -13 \/ d = -11 \/ d = -9 \/ d = -7 \/ d = -5 \/ d = -3 \/ d = -1 \/ d = 1 \/ d = 3 \/ d = 5 \/ d = 7 \/ d = 9 \/ d = 11 \/ d = 13 \/ d = 15).
  { revert O R. clear. intros. Z.to_euclidean_division_equations; lia. }
  clear O R.
  repeat (destruct DD as [-> | DD]; [destruct HC as [-> | [-> | ->]]; lia|]). subst d. destruct HC as [-> | [-> | ->]]; lia.
Qed.
