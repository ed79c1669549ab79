(** The generator table of [ECMultGenContext] and multiplication of the generator. *)
From Coq Require Import Znumtheory Field.
From Verif Require Import Word MField MScalar MGroup MEcmult WP FieldMul FieldNorm FieldZero Spec Fp Bits FieldOps FieldCodec FieldStore
  ScalarMul ScalarOps ScalarMore ScalarBits Denote Unred Curve Group Chain OrderCert Order Jac JacOps Lift Table Wnaf Ecmult GenChain GenCert.

(** ** Simultaneous inversion *)
Fixpoint fprod (l : list F) : F := match l with [] => f1 | e :: t => (fprod t * e)%F end.
Lemma fprod_neq0 l : Forall (fun e => e <> f0) l -> fprod l <> f0.
Proof. induction 1; [exact f1_neq_f0 | apply fmul_neq0; assumption]. Qed.
(** running products, longest first *)
Fixpoint rpok (rp : list field) (l : list F) : Prop :=
  match rp, l with
  | [], [] => True
  | q :: rp', e :: l' => frep 6 q (fprod (e :: l')) /\ rpok rp' l'
  | _, _ => False
  end.
Lemma rpok_len rp : forall l, rpok rp l -> length rp = length l.
Proof. induction rp as [|q rp IH]; intros [|e l] H; try contradiction; [reflexivity|]. cbn. f_equal. apply IH, H. Qed.

Lemma finv_neq0 e : e <> f0 -> finv e <> f0.
Proof. intros H K. apply f1_neq_f0. rewrite <- (finv_l e H), K. ring. Qed.
Lemma classicE (A : E) : A = e0 \/ A <> e0.
Proof. destruct (pt A) eqn:H; [left; apply pt_inj; exact H | right; intros ->; discriminate H]. Qed.

(** ** Rows of the table *)
Fixpoint gpts (N Q : E) (k : nat) (i : Z) : list E :=
  match k with O => [] | S k' => eadd N (emul i Q) :: gpts N Q k' (i + 1) end.
Fixpoint grows (bs : list E) (j : Z) : list (list E) :=
  match bs with [] => [] | b :: t => gpts b (emul (16 ^ j) eG) 16 0 :: grows t (j + 1) end.
Fixpoint esum (l : list E) : E := match l with [] => e0 | a :: t => eadd a (esum t) end.
Lemma gpts_len N Q k : forall i, length (gpts N Q k i) = k.
Proof. induction k; intros; [reflexivity|]. cbn. f_equal. apply IHk. Qed.
Lemma gpts_nth N Q k : forall i m, (m < k)%nat -> nth_error (gpts N Q k i) m = Some (eadd N (emul (i + Z.of_nat m) Q)).
Proof.
  induction k; intros i m H; [lia|]. destruct m; cbn [gpts nth_error].
  - cbn [Z.of_nat]. rewrite Z.add_0_r. reflexivity.
  - rewrite IHk by lia. do 3 f_equal. lia.
Qed.
Lemma grows_len bs : forall j, length (grows bs j) = length bs.
Proof. induction bs; intros; [reflexivity|]. cbn. f_equal. apply IHbs. Qed.

(** A Jacobian triple whose x and y only need to be normalizable: limbs within 32 units, not marked normalized. *)
Definition loose (f : field) : Prop := fok 6 f \/ (lim31 f /\ f_norm f = false).
Definition jlok (j : jac) (A : E) : Prop :=
  loose (j_x j) /\ loose (j_y j) /\ fok 6 (j_z j) /\ if j_inf j then A = e0 else jpt (fe (j_x j)) (fe (j_y j)) (fe (j_z j)) A.
Lemma loose_wok dbg f : loose f -> wok dbg f (fe f).
Proof. intros [H|[H N]]; [apply f_normalize_weak_rep; apply fok_frep in H; fr | apply f_normalize_weak_lim; assumption]. Qed.
Lemma jlok_w dbg j A : jlok j A -> jokw dbg f1 j A.
Proof.
  intros (X & Y & Z & H). exists (fe (j_x j)), (fe (j_y j)), (fe (j_z j)). split; [apply loose_wok, X|]. split; [apply loose_wok, Y|].
  split; [apply fok_frep, Z|]. destruct (j_inf j); [exact H | apply jpt_mul1, H].
Qed.

(** A generator context: row j holds b_j + i*16^j*G, and the initial value together with the b_j cancels the blinding. *)
Definition gctx_ok (c : genctx) : Prop :=
  match c with GCtx prec blind ini => exists b I bs, blind = scalar_of b /\ 0 <= b < n /\ jlok ini I /\ length bs = 64%nat /\
    Forall2 (Forall2 asok) prec (grows bs 0) /\ eadd I (esum bs) = eopp (emul b eG) end.

Section B.
Variable dbg : bool.

Lemma run_products_ok l : forall es, Forall2 (frep 6) l es -> forall prev acc res, rpok acc res -> frep 6 prev (fprod res) ->
  wp (run_products dbg prev l acc) (fun r => rpok r (rev es ++ res)).
Proof.
  induction 1 as [|f e l es H _ IH]; intros prev acc res HA HP; [exact HA|]. cbn [run_products]. fs.
  cbn [rev]. rewrite <- app_assoc. cbn [app]. apply IH; [|cbn [fprod]; fr]. cbn [rpok fprod]. split; [fr | exact HA].
Qed.
Definition invs (f : field) (e : F) : Prop := frep 1 f (finv e).
Lemma inv_down_ok rf : forall res, Forall2 (frep 6) rf res -> rf <> [] -> Forall (fun e => e <> f0) res ->
  forall rp u acc accE, rpok rp (tl res) -> frep 1 u (finv (fprod res)) -> Forall2 invs acc accE ->
  wp (inv_down dbg rp rf u acc) (fun r => Forall2 invs r (rev res ++ accE)).
Proof.
  induction rf as [|fj rf IH]; intros res HR NE NZ rp u acc accE HP HU HA; [contradiction|].
  inversion HR as [|? e ? res' He Hres]; subst. inversion NZ as [|? ? NE0 NZ']; subst. cbn [tl] in *.
  destruct rf as [|f2 rf'].
  - inversion Hres; subst. destruct rp; [|contradiction HP]. cbn [inv_down]. apply wp_some. cbn [rev app]. constructor; [|exact HA]. destruct HU as [HU E0]. split; [exact HU|]. rewrite E0.
    cbn [fprod]. f_equal. ring.
  - inversion Hres as [|? e2 ? res2 He2 Hres2]; subst. destruct rp as [|q rp']; [contradiction HP|]. cbn [rpok] in HP. destruct HP as [HQ HP]. cbn [inv_down].
    assert (NP : fprod res2 <> f0 /\ e2 <> f0) by (inversion NZ'; split; [apply fprod_neq0|]; assumption). destruct NP as [NP1 NP2]. fs. fs. change (rev (e :: e2 :: res2)) with (rev (e2 :: res2) ++ [e]). rewrite <- app_assoc. cbn [app].
    specialize (IH (e2 :: res2) Hres ltac:(discriminate) NZ' rp'). cbn [tl] in IH. apply IH; [exact HP | |].
    + match goal with H : frep 1 ?x _ |- frep 1 ?x _ => destruct H as [HX EX]; split; [exact HX | rewrite EX] end. cbn [fprod] in *. field. repeat (split; [assumption|]); assumption.
    + constructor; [|exact HA]. match goal with H : frep 1 ?x _ |- invs ?x _ => destruct H as [HX EX]; split; [exact HX | rewrite EX] end.
      cbn [fprod] in *. field. repeat (split; [assumption|]); assumption.
Qed.
Lemma Forall2_rev {X Y} (R : X -> Y -> Prop) l m : Forall2 R l m -> Forall2 R (rev l) (rev m).
Proof. induction 1; [constructor|]. cbn [rev]. apply Forall2_app; [assumption | repeat constructor; assumption]. Qed.
Lemma inv_all_var_ok l es : Forall2 (frep 6) l es -> Forall (fun e => e <> f0) es -> wp (inv_all_var dbg l) (fun r => Forall2 invs r es).
Proof.
  intros H NZ. unfold inv_all_var. destruct H as [|f e l es H HL]; [constructor|].
  eapply wp_bind. { apply (run_products_ok l es HL f [f] [e]); [split; [|exact I] |]; (destruct H as [H E0]; split; [exact H | rewrite E0; cbn [fprod]; ring]). }
  cbv beta. intros rp RP. assert (RV : rev es ++ [e] = rev (e :: es)) by reflexivity. rewrite RV in RP.
  assert (ND : Forall (fun x => x <> f0) (rev (e :: es))) by (apply Forall_rev; exact NZ).
  pose proof (Forall2_rev _ _ _ (Forall2_cons _ _ H HL)) as HR.
  assert (LR : length (rev (e :: es)) <> O) by (rewrite rev_length; discriminate).
  rewrite <- (rev_involutive (e :: es)). destruct (rev (e :: es)) as [|g res] eqn:ER; [elim LR; reflexivity|].
  destruct rp as [|q rp]; [contradiction RP|]. destruct RP as [HQ RP]. cbn [rpok] in *.
  fs. rewrite <- (app_nil_r (rev (g :: res))). eapply inv_down_ok; [exact HR | | exact ND | exact RP | eassumption | constructor].
  intros K. apply (f_equal (@length field)) in K. rewrite rev_length in K. discriminate K.
Qed.

(** ** Conversion of the whole table to affine coordinates *)
Lemma set_all_loop_ok a : forall As, Forall2 (jok f1) a As -> forall azi,
  Forall2 invs azi (map (fun j => fe (j_z j)) (filter (fun q => negb (j_inf q)) a)) -> wp (set_all_loop dbg a azi) (fun r => Forall2 (aok 1 f1) r As).
Proof.
  induction 1 as [|j A a As H _ IH]; intros azi HZ; [constructor|]. cbn [set_all_loop filter] in *.
  destruct (j_inf j) eqn:I; cbn [negb] in HZ.
  - eapply wp_bind; [apply IH; exact HZ|]. cbv beta. intros r R. apply wp_some. constructor; [|exact R].
    pose proof (fcrep1 _ _ fcrep_default) as D. eapply aok_intro; [exact D | exact D |]. apply (jok_inf _ _ _ H), I.
  - cbn [map] in HZ. inversion HZ as [|zi ? azi' ? HI HZ']; subst.
    assert (NZ : fe (j_z j) <> f0).
    { pose proof H as HH. destruct HH as (_ & _ & _ & P). rewrite I in P. destruct P as [P _]. intros E0. apply P. rewrite E0. ring. }
    eapply wp_bind; [apply (af_set_gej_zinv_ok dbg f1 f1 (finv (fe (j_z j)))); [exact H | fr | |]|].
    + apply finv_neq0. exact NZ.
    + intros _. field. exact NZ.
    + cbv beta. intros q (Q & _). eapply wp_bind; [apply IH; exact HZ'|]. cbv beta. intros r R. apply wp_some. constructor; assumption.
Qed.
Lemma set_all_gej_var_ok a As : Forall2 (jok f1) a As -> wp (set_all_gej_var dbg a) (fun r => Forall2 (aok 1 f1) r As).
Proof.
  intros H. unfold set_all_gej_var. change (bind (Some ?x) ?f) with (f x). cbv beta.
  eapply wp_bind; [|cbv beta; intros azi HZ; eapply set_all_loop_ok; [exact H | exact HZ]].
  apply inv_all_var_ok.
  - induction H as [|j A a As H _ IH]; [constructor|]. cbn [filter]. destruct (j_inf j); cbn [negb]; [exact IH|].
    cbn [map]. constructor; [|exact IH]. apply fok_frep, H.
  - induction H as [|j A a As H _ IH]; [constructor|]. cbn [filter]. destruct (j_inf j) eqn:I; cbn [negb]; [exact IH|].
    cbn [map]. constructor; [|exact IH]. destruct H as (_ & _ & _ & P). rewrite I in P. destruct P as [P _]. intros E0. apply P. rewrite E0. ring.
Qed.

(** ** The rows *)
Lemma gen_row_ok N Q k : forall i prev gbase, jok f1 prev (eadd N (emul i Q)) -> jok f1 gbase Q ->
  wp (gen_row dbg k prev gbase) (fun r => Forall2 (jok f1) r (gpts N Q k (i + 1))).
Proof.
  induction k; intros i prev gbase HP HG; [constructor|]. cbn [gen_row gpts].
  eapply wp_bind; [apply j_add_ok; [exact HP | exact HG]|]. cbv beta. intros nx NX.
  rewrite <- eadd_assoc in NX. rewrite <- (emul_1 Q) in NX at 2. rewrite <- emul_add in NX.
  eapply wp_bind; [apply (IHk (i + 1)); [exact NX | exact HG]|]. cbv beta. intros r R. apply wp_some. constructor; assumption.
Qed.
(** the multiple of the base point in row j *)
Definition bmul (j : Z) : Z := if j <? 63 then 2 ^ j else 1 - 2 ^ 63.
Fixpoint bases (N : E) (k : nat) (j : Z) : list E := match k with O => [] | S k' => emul (bmul j) N :: bases N k' (j + 1) end.
Lemma bases_len N k : forall j, length (bases N k j) = k.
Proof. induction k; intros; [reflexivity|]. cbn. f_equal. apply IHk. Qed.

Lemma gen_rows_ok N nums_gej : jok f1 nums_gej N -> forall k j gbase nb, 0 <= j -> j + Z.of_nat k = 64 ->
  (k <> O -> jok f1 gbase (emul (16 ^ j) eG) /\ jok f1 nb (emul (bmul j) N)) ->
  wp (gen_rows dbg k j gbase nb nums_gej) (fun r => Forall2 (Forall2 (jok f1)) r (grows (bases N k j) j)).
Proof.
  intros HN. induction k; intros j gbase nb J0 JK H; [constructor|]. destruct (H ltac:(discriminate)) as [HG HB]. clear H.
  cbn [gen_rows bases grows]. eapply wp_bind.
  { apply (gen_row_ok (emul (bmul j) N) (emul (16 ^ j) eG) 15 0); [rewrite emul_0, eadd_0_r; exact HB | exact HG]. }
  cbv beta. intros row ROW.
  eapply wp_bind; [apply j_double_ok; exact HG|]. cbv beta. intros g1 [G1 _].
  eapply wp_bind; [apply j_double_ok; exact G1|]. cbv beta. intros g2 [G2 _].
  eapply wp_bind; [apply j_double_ok; exact G2|]. cbv beta. intros g3 [G3 _].
  eapply wp_bind; [apply j_double_ok; exact G3|]. cbv beta. intros g4 [G4 _].
  assert (G16 : jok f1 g4 (emul (16 ^ (j + 1)) eG)).
  { rewrite <- !emul_add in G4. rewrite Z.pow_add_r, Z.pow_1_r by lia.
    replace (16 ^ j * 16) with (16 ^ j + 16 ^ j + (16 ^ j + 16 ^ j) + (16 ^ j + 16 ^ j + (16 ^ j + 16 ^ j)) +
      (16 ^ j + 16 ^ j + (16 ^ j + 16 ^ j) + (16 ^ j + 16 ^ j + (16 ^ j + 16 ^ j)))) by ring. exact G4. }
  eapply wp_bind; [apply j_double_ok; exact HB|]. cbv beta. intros nb1 [NB1 _]. rewrite <- emul_double in NB1.
  eapply (wp_bind _ _ (fun r => (k <> O -> jok f1 r (emul (bmul (j + 1)) N)))).
  { destruct (Z.eqb_spec j 62) as [->|NJ].
    - eapply wp_bind; [apply j_neg_ok; exact NB1|]. cbv beta. intros m [M _]. eapply wp_mono; [apply j_add_ok; [exact M | exact HN]|].
      cbv beta. intros r R _. rewrite <- emul_opp in R. rewrite <- (emul_1 N) in R at 2. rewrite <- emul_add in R. exact R.
    - apply wp_some. intros NK. destruct k; [contradiction|]. unfold bmul in *. rewrite (proj2 (Z.ltb_lt j 63)) in NB1 by lia.
      rewrite (proj2 (Z.ltb_lt (j + 1) 63)) by lia. rewrite <- Z.pow_succ_r in NB1 by lia. exact NB1. }
  cbv beta. intros nb2 NB2. eapply wp_bind; [apply (IHk (j + 1)); [lia | lia | intros NK; split; [exact G16 | apply NB2, NK]]|].
  cbv beta. intros rest R. apply wp_some. constructor; [|exact R]. cbn [gpts]. constructor; [rewrite emul_0, eadd_0_r; exact HB | exact ROW].
Qed.

(** ** No entry is the point at infinity *)
Lemma onc_Z x y q m : y * y - (x * x * x + 7) = q * m -> m = p -> onc (FAff (toF x) (toF y)).
Proof.
  intros H ->. apply onc_eq. apply fsub_eq0. change b7 with (toF 7). rewrite <- !toF_mul, <- toF_add, <- toF_sub, H. apply toF_qp.
Qed.
Lemma nums_curve_on : onc (FAff (toF nums_x) (toF nums_y)).
Proof. exact (onc_Z _ _ _ _ nums_curve (eq_sym p_eq)). Qed.
Definition numsE : E := mkE _ nums_curve_on.
Definition baseE : E := eadd numsE eG.
Lemma baseE_rel : zrel numsG baseE.
Proof. apply (astep_ok (nums_x, nums_y) (gx, gy) _ _ numsE eG eq_refl eq_refl numsG_step). Qed.
Lemma pow2_mod j : 0 <= j < 255 -> 2 ^ j mod n <> 0.
Proof.
  intros H. assert (0 < 2 ^ j < 2 ^ 255) by (split; [apply Z.pow_pos_nonneg; lia | apply Z.pow_lt_mono_r; lia]). pose proof n_big.
  rewrite Z.mod_small by lia. lia.
Qed.
Lemma entry_neq0 j i : 0 <= j < 64 -> 0 <= i < 16 -> eadd (emul (bmul j) baseE) (emul i (emul (16 ^ j) eG)) <> e0.
Proof.
  intros J I0. pose proof (rows_chk_ok _ _ gen_chain baseE_rel (gx, gy) _ eG eq_refl gen_run) as [HQ HR].
  change (Z.of_nat (length gen_chain)) with 63 in *. unfold bmul. destruct (Z.ltb_spec j 63) as [L|L].
  - specialize (HR j i ltac:(lia) I0). intros E0. apply HR.
    assert (E1 : emul (2 ^ j) (eadd baseE (emul (i * 8 ^ j) eG)) = e0).
    { rewrite emul_eadd, <- emul_mul. rewrite <- emul_mul in E0. rewrite <- E0. do 2 f_equal. change 16 with (2 * 8). rewrite Z.pow_mul_l. ring. }
    destruct (classicE (eadd baseE (emul (i * 8 ^ j) eG))) as [K|K]; [exact K|].
    apply emul_eq0 in E1; [|exact K]. elim (pow2_mod j ltac:(lia) E1).
  - assert (j = 63) as -> by lia.
    pose proof (dbls_ok _ _ _ _ HQ q_run) as H252. change (Z.of_nat (length q_chain)) with 63 in H252. rewrite <- emul_mul in H252.
    pose proof (dbls_ok _ _ _ _ baseE_rel n_run) as H63. change (Z.of_nat (length n_chain)) with 63 in H63.
    pose proof (astep_ok _ _ _ _ _ _ baseE_rel (zneg_ok _ _ H63) last_step) as HL.
    rewrite <- (emul_1 baseE) in HL at 1. rewrite <- emul_sub in HL.
    destruct last_run as [r LR]. destruct (row_chk_ok _ _ _ _ _ _ HL H252 LR) as [_ HI]. exact (HI i I0).
Qed.

Lemma gpts_neq0 N Q k : forall i, (forall m, i <= m < i + Z.of_nat k -> eadd N (emul m Q) <> e0) -> Forall (fun A => A <> e0) (gpts N Q k i).
Proof.
  induction k; intros i H; [constructor|]. cbn [gpts]. constructor; [apply H; lia | apply IHk; intros m Hm; apply H; lia].
Qed.
Lemma grows_neq0 k : forall j, 0 <= j -> j + Z.of_nat k = 64 -> Forall (fun A => A <> e0) (concat (grows (bases baseE k j) j)).
Proof.
  induction k; intros j J0 JK; [constructor|]. cbn [bases grows concat]. apply Forall_app. split.
  - apply gpts_neq0. intros m Hm. apply entry_neq0; lia.
  - apply IHk; lia.
Qed.

(** ** Splitting into rows *)
Lemma Forall2_inv {X Y} (R : X -> Y -> Prop) x y l m : Forall2 R (x :: l) (y :: m) -> R x y /\ Forall2 R l m.
Proof. inversion 1; auto. Qed.
Lemma Forall2_len {X Y} (R : X -> Y -> Prop) l m : Forall2 R l m -> length l = length m.
Proof. induction 1; [reflexivity | cbn; congruence]. Qed.
Lemma rows16_ok (rows : list (list E)) : Forall (fun r => length r = 16%nat) rows -> forall st, Forall2 asok st (concat rows) ->
  Forall2 (Forall2 asok) (rows16 (length rows) st) rows.
Proof.
  induction 1 as [|r rows L _ IH]; intros st H; [constructor|]. cbn [length rows16 concat] in *.
  apply Forall2_app_inv_r in H. destruct H as (s1 & s2 & H1 & H2 & ->).
  assert (L1 : length s1 = 16%nat) by (rewrite <- L; exact (Forall2_len _ _ _ H1)).
  constructor.
  - replace (firstn 16 (s1 ++ s2)) with s1; [exact H1|]. rewrite <- L1, firstn_app, Nat.sub_diag, firstn_all, firstn_O, app_nil_r. reflexivity.
  - replace (skipn 16 (s1 ++ s2)) with s2; [apply IH, H2|]. rewrite <- L1, skipn_app, Nat.sub_diag, skipn_all. reflexivity.
Qed.
Lemma grows_len16 bs : forall j, Forall (fun r => length r = 16%nat) (grows bs j).
Proof. induction bs; intros; constructor; [apply gpts_len | apply IHbs]. Qed.
Lemma Forall2_concat {X Y} (R : X -> Y -> Prop) l m : Forall2 (Forall2 R) l m -> Forall2 R (concat l) (concat m).
Proof. induction 1; [constructor | apply Forall2_app; assumption]. Qed.
Lemma Forall2_Forall_r {X Y} (R : X -> Y -> Prop) (P : Y -> Prop) l m : Forall2 R l m -> Forall P m -> Forall2 (fun x y => R x y /\ P y) l m.
Proof. induction 1; intros F; inversion F; constructor; auto. Qed.

(** ** Sums of bases *)
Fixpoint bsum (k : nat) (j : Z) : Z := match k with O => 0 | S k' => bmul j + bsum k' (j + 1) end.
Lemma esum_bases N k : forall j, esum (bases N k j) = emul (bsum k j) N.
Proof. induction k; intros j; cbn [bases esum bsum]; [symmetry; apply emul_0|]. rewrite IHk, emul_add. reflexivity. Qed.

(** ** The initial value *)
Lemma GEN_BLIND_of : GEN_BLIND = scalar_of blind_val.
Proof. vm_compute. reflexivity. Qed.
Lemma jpt_Z X Y Z x y A : zrel (x, y) A -> Z mod p <> 0 -> (X - x * (Z * Z)) mod p = 0 -> (Y - y * (Z * Z * Z)) mod p = 0 -> jpt (toF X) (toF Y) (toF Z) A.
Proof.
  intros H NZ HX HY. pose proof p_pos. unfold zrel in H. cbn [fst snd] in H.
  assert (NF : toF Z <> f0) by (intros E0; apply NZ; apply toF_eq in E0; rewrite E0; apply Z.mod_0_l; lia).
  assert (M : forall a b, (a - b) mod p = 0 -> toF a = toF b).
  { intros a b K. apply fsub_eq0. rewrite <- toF_sub. apply toF_eq. rewrite K. symmetry. apply Z.mod_0_l. lia. }
  apply M in HX, HY. split; [exact NF|]. rewrite H, HX, HY, !toF_mul. f_equal; field; exact NF.
Qed.
Lemma GEN_INITIAL_ok : jlok GEN_INITIAL (eopp (emul blind_val eG)).
Proof.
  pose proof (zneg_ok _ _ (proj2 order_facts)) as H.
  split; [right; split; [unfold lim31, GEN_INITIAL, f_new_raw; cbn [j_x]; lia | reflexivity]|].
  split; [right; split; [unfold lim31, GEN_INITIAL, f_new_raw; cbn [j_y]; lia | reflexivity]|].
  split.
  { unfold GEN_INITIAL, f_new_raw; cbn [j_z]. split; [cbn; lia|]. split; [vm_compute; reflexivity | cbn; lia]. }
  cbn [j_inf GEN_INITIAL]. apply (jpt_Z _ _ _ blind_x (- blind_y)); [exact H | rewrite p_eq; vm_compute; discriminate | rewrite p_eq; vm_compute; reflexivity | rewrite p_eq; vm_compute; reflexivity].
Qed.

(** ** The context *)
Lemma NUMS_bytes : bytes NUMS_32. Proof. unfold bytes, NUMS_32. repeat constructor; lia. Qed.
Lemma ecmult_gen_context_new_ok : wp (ecmult_gen_context_new dbg) gctx_ok.
Proof.
  unfold ecmult_gen_context_new.
  eapply wp_bind; [apply j_set_ge_ok; exact (aok_mono _ 6 _ _ _ AFFINE_G_ok ltac:(lia))|]. cbv beta. intros gj (GJ & _).
  eapply wp_bind; [apply f_set_b32_rep; [reflexivity | exact NUMS_bytes]|]. cbv beta. intros [nx ok] [-> NX].
  assert (NV : be_val NUMS_32 = nums_x) by (vm_compute; reflexivity). rewrite NV in *.
  assert (NL : nums_x < p) by (rewrite p_eq; reflexivity). specialize (NX NL). rewrite (proj2 (Z.ltb_lt _ _) NL). cbn [hassert bind].
  assert (LF : lifts (toF nums_x) false numsE).
  { exists (toF nums_y). split; [reflexivity|]. rewrite val_toF, Z.mod_small by (rewrite p_eq; unfold nums_y; lia). reflexivity. }
  eapply wp_bind; [apply (af_set_xo_var_ok dbg nx (toF nums_x) 6); [apply fcrep_frep; [exact NX | lia] | lia]|]. cbv beta.
  intros [ng ok] (OK & HN & _). assert (ok = true) as -> by (apply OK; eexists; exact LF). destruct (HN eq_refl) as (A & LA & NG & _ & NI). cbn [hassert bind].
  apply (lifts_fun _ _ _ _ LF) in LA. subst A.
  eapply wp_bind; [apply j_set_ge_ok; exact NG|]. cbv beta. intros nj (NJ & _).
  eapply wp_bind; [apply j_add_ge_v_ok; [exact NJ | exact (aok_mono _ 6 _ _ _ AFFINE_G_ok ltac:(lia))]|]. cbv beta. intros nb NB. fold baseE in NB.
  eapply wp_bind.
  { apply (gen_rows_ok baseE nb NB 64 0); [lia | lia|]. intros _. change (16 ^ 0) with 1. change (bmul 0) with 1. rewrite !emul_1. split; assumption. }
  cbv beta. intros rows R. apply Forall2_concat in R.
  eapply wp_bind; [apply set_all_gej_var_ok; exact R|]. cbv beta. intros prec P.
  eapply wp_bind.
  { eapply mapo_ok; [exact (Forall2_Forall_r _ _ _ _ P (grows_neq0 64 0 ltac:(lia) ltac:(lia)))|]. cbv beta. intros a A [HA NA].
    apply (af_to_storage_ok dbg 1 _ _ HA); [lia | exact (aok_fin _ _ _ _ HA NA)]. }
  cbv beta. intros st ST. apply wp_some. cbn [gctx_ok].
  exists blind_val, (eopp (emul blind_val eG)), (bases baseE 64 0). split; [exact GEN_BLIND_of|]. split; [rewrite n_eq; unfold blind_val; lia|].
  split; [exact GEN_INITIAL_ok|]. split; [apply bases_len|]. split.
  - pose proof (rows16_ok _ (grows_len16 _ _) _ ST) as K. rewrite grows_len, bases_len in K. exact K.
  - rewrite esum_bases. assert (B0 : bsum 64 0 = 0) by (vm_compute; reflexivity). rewrite B0, emul_0. apply eadd_0_r.
Qed.

(** ** Multiplying the generator *)
Lemma gen_select_skip row : forall i b s, b < i -> gen_select row i b s = s.
Proof. induction row as [|a row IH]; intros i b s H; [reflexivity|]. cbn [gen_select]. rewrite (proj2 (Z.eqb_neq i b)) by lia. rewrite IH by lia. destruct s, a. unfold as_cmov. rewrite !fs_cmov_eq. reflexivity. Qed.
Lemma gen_select_ok row : forall i b s a, nth_error row (Z.to_nat (b - i)) = Some a -> i <= b -> gen_select row i b s = a.
Proof.
  induction row as [|q row IH]; intros i b s a H L; [destruct (Z.to_nat (b - i)); discriminate|]. cbn [gen_select].
  destruct (Z.eqb_spec i b) as [->|NE].
  - rewrite Z.sub_diag in H. cbn in H. injection H as ->. rewrite gen_select_skip by lia. destruct s, a. unfold as_cmov. rewrite !fs_cmov_eq. reflexivity.
  - apply IH; [|lia]. replace (Z.to_nat (b - i)) with (S (Z.to_nat (b - (i + 1)))) in H by lia. exact H.
Qed.
Lemma digit16 g j : 0 <= j -> 16 ^ j * (g / 16 ^ j) = 16 ^ j * ((g / 16 ^ j) mod 16) + 16 ^ (j + 1) * (g / 16 ^ (j + 1)).
Proof.
  intros J. assert (0 < 16 ^ j) by (apply Z.pow_pos_nonneg; lia). rewrite Z.pow_add_r, Z.pow_1_r by lia. rewrite <- Z.div_div by lia.
  pose proof (Z.div_mod (g / 16 ^ j) 16 ltac:(lia)) as D. nia.
Qed.
Lemma ecmult_gen_loop_ok g : 0 <= g < 2 ^ 256 -> forall prec bs j adds r R, Forall2 (Forall2 asok) prec (grows bs j) -> 0 <= j ->
  j + Z.of_nat (length bs) = 64 -> jokw dbg f1 r R ->
  wp (ecmult_gen_loop dbg prec j (scalar_of g) adds r) (fun r' =>
    jok f1 r R \/ prec <> [] -> jok f1 r' (eadd (eadd R (esum bs)) (emul (16 ^ j * (g / 16 ^ j)) eG))).
Proof.
  intros HG. induction prec as [|row prec IH]; intros bs j adds r R HP J0 JL HR.
  - destruct bs; [|inversion HP]. cbn [length Z.of_nat] in JL. assert (j = 64) as -> by lia. cbn [ecmult_gen_loop]. apply wp_some.
    cbn [esum]. rewrite Z.div_small by (change (16 ^ 64) with (2 ^ 256); lia). rewrite Z.mul_0_r, emul_0, !eadd_0_r. intros [K|K]; [exact K | contradiction].
  - destruct bs as [|b bs]; [inversion HP|]. cbn [grows] in HP. apply Forall2_inv in HP. destruct HP as [HROW HREST]. cbn [ecmult_gen_loop].
    cbn [length] in JL. assert (J64 : j < 64) by lia.
    eapply wp_bind. { apply s_bits_ok; [apply scalar_of_u | lia | lia | lia | Z.to_euclidean_division_equations; lia]. }
    cbv beta. intros bits BITS. rewrite scalar_of_sv in BITS by exact HG. rewrite (Z.mul_comm j 4), Z.pow_mul_r in BITS by lia. change (2 ^ 4) with 16 in BITS.
    pose proof (Z.mod_pos_bound (g / 16 ^ j) 16 ltac:(lia)) as BB. rewrite <- BITS in BB.
    change (bind (Some ?x) ?f) with (f x). cbv beta.
    destruct (Forall2_nth _ _ _ HROW (Z.to_nat bits) (eadd b (emul bits (emul (16 ^ j) eG)))) as (a & NA & HA).
    { rewrite gpts_nth by lia. rewrite Z2Nat.id, Z.add_0_l by lia. reflexivity. }
    rewrite (gen_select_ok row 0 bits adds a) by (rewrite ?Z.sub_0_r; assumption || lia).
    destruct (af_from_storage_ok _ _ HA) as [AF AI].
    eapply wp_bind; [apply j_add_ge_ok; [exact HR | exact (aok_mono _ 6 _ _ _ AF ltac:(lia)) | exact AI]|]. cbv beta. intros r1 R1.
    eapply wp_mono; [apply (IH bs (j + 1) a r1 _ HREST ltac:(lia) ltac:(lia) (jok_w _ _ _ _ R1))|]. cbv beta zeta.
    assert (EQ : eadd (eadd (eadd R (eadd b (emul bits (emul (16 ^ j) eG)))) (esum bs)) (emul (16 ^ (j + 1) * (g / 16 ^ (j + 1))) eG) =
                 eadd (eadd R (esum (b :: bs))) (emul (16 ^ j * (g / 16 ^ j)) eG)).
    { rewrite (digit16 g j J0), <- BITS, emul_add, <- emul_mul, (Z.mul_comm bits). cbn [esum].
      set (X := emul (16 ^ j * bits) eG). set (Y := emul (16 ^ (j + 1) * (g / 16 ^ (j + 1))) eG).
      rewrite !eadd_assoc. f_equal. rewrite <- !eadd_assoc. do 2 f_equal. apply eadd_comm. }
    rewrite EQ. intros r2 R2 _. apply R2. left. exact R1.
Qed.
Theorem ecmult_gen_any ctx k : gctx_ok ctx -> 0 <= k < 2 ^ 256 -> wp (ecmult_gen dbg ctx (scalar_of k)) (fun r => jok f1 r (emul k eG)).
Proof.
  destruct ctx as [prec blind ini]. intros (b & I & bs & -> & HB & HI & LB & HP & SUM) HK. unfold ecmult_gen. pose proof n_lt as NL.
  rewrite s_add_any by lia. cbn [bind]. assert (RC : radd k b = radd b k) by (unfold radd; rewrite (Z.add_comm k b); reflexivity). rewrite RC.
  destruct (radd_mod b k HB HK) as [AR AM].
  eapply wp_mono; [apply (ecmult_gen_loop_ok (radd b k) AR prec bs 0 as_default ini I HP); [lia | rewrite LB; reflexivity | exact (jlok_w dbg _ _ HI)]|].
  cbv beta. intros r R. assert (NE : prec <> []) by (intros ->; destruct bs; [discriminate LB | inversion HP]).
  specialize (R (or_intror NE)). rewrite SUM, Z.pow_0_r, Z.div_1_r, Z.mul_1_l, <- (emul_mod_G (radd b k)), AM, emul_mod_G, emul_add in R.
  rewrite eadd_assoc, eadd_opp_l, eadd_0_l in R. exact R.
Qed.
Theorem ecmult_gen_ok ctx k : gctx_ok ctx -> 0 <= k < n -> wp (ecmult_gen dbg ctx (scalar_of k)) (fun r => jok f1 r (emul k eG)).
Proof. intros HC HK. pose proof n_lt. apply ecmult_gen_any; [exact HC | lia]. Qed.
End B.
