(** Precomputed contexts, described by the points they hold. *)
From Coq Require Import Znumtheory Field.
From Verif Require Import Word MField MScalar MGroup MEcmult WP FieldMul FieldNorm Spec Fp FieldOps FieldStore Denote Curve Group Chain Order Jac JacOps Table Ecmult Lift Gen Key.

(** The stored point [s] denotes [P]: both coordinates reduced. *)
Definition stored_at (s : astorage) (P : point) : Prop :=
  match s with As x y => fs_ok x /\ fs_ok y /\ on_curve P /\ P = Aff (fsv x) (fsv y) end.
(** A verification context: the 16384 odd multiples of G. *)
Definition verify_ctx (c : ecctx) : Prop :=
  match c with Ctx t => Z.of_nat (length t) = 16384 /\ forall i s, nth_error t i = Some s -> stored_at s (smul (2 * Z.of_nat i + 1) G) end.
(** As [jac_at], with x and y only bounded limb by limb (32 units) when not marked normalized. *)
Definition jac_loose (j : jac) (P : point) : Prop :=
  loose (j_x j) /\ loose (j_y j) /\ fok 6 (j_z j) /\ on_curve P /\
  match P with
  | Inf => j_inf j = true
  | Aff x y => j_inf j = false /\ fv (j_z j) mod p <> 0 /\
      fv (j_x j) mod p = (x * fv (j_z j) ^ 2) mod p /\ fv (j_y j) mod p = (y * fv (j_z j) ^ 3) mod p
  end.
Definition psum (l : list point) : point := fold_right padd Inf l.
(** A signing context: a blinding scalar b, 64 offsets B_j and an initial point I with I + B_0 + ... + B_63 = -b*G,
    and a table with entry i of row j equal to B_j + i*16^j*G. *)
Definition gen_ctx (c : genctx) : Prop :=
  match c with GCtx prec blind ini => exists b I Bs,
    blind = scalar_of b /\ 0 <= b < n /\ jac_loose ini I /\ length Bs = 64%nat /\ Forall on_curve Bs /\ length prec = 64%nat /\
    (forall j row B, nth_error prec j = Some row -> nth_error Bs j = Some B -> length row = 16%nat /\
       forall i s, nth_error row i = Some s -> stored_at s (padd B (smul (Z.of_nat i * 16 ^ Z.of_nat j) G))) /\
    padd I (psum Bs) = pneg (smul b G)
  end.

Lemma fsv_nonneg x : fs_ok x -> 0 <= fsv x.
Proof. destruct x. unfold fs_ok, fsv, val8, u32x8, u32. lia. Qed.
Lemma stored_asok s A : stored_at s (sp A) <-> asok s A.
Proof.
  destruct s as [x y]. unfold stored_at, asok. split.
  - intros (X & Y & O & H). split; [exact X|]. split; [exact Y|]. rewrite H in O. destruct O as (RX & RY & _). split; [lia|]. split; [lia|].
    unfold sp in H. destruct (pt A) as [|u v]; [discriminate H|]. cbn [spt] in H. injection H as HX HY. rewrite <- HX, <- HY, !toF_val. reflexivity.
  - intros (X & Y & LX & LY & H). split; [exact X|]. split; [exact Y|]. split; [apply sp_on|]. unfold sp. rewrite H. cbn [spt]. rewrite !val_toF.
    pose proof (fsv_nonneg x X). pose proof (fsv_nonneg y Y). rewrite !Z.mod_small by lia. reflexivity.
Qed.
Lemma jac_loose_jlok j A : jac_loose j (sp A) <-> jlok j A.
Proof.
  unfold jac_loose, jlok, sp. pose proof (sp_on A) as O. unfold sp in O. split.
  - intros (X & Y & Z & _ & H). split; [exact X|]. split; [exact Y|]. split; [exact Z|]. destruct (pt A) as [|x y] eqn:P; cbn [spt] in H.
    + rewrite H. apply pt_inj. exact P.
    + destruct H as (-> & NZ & HX & HY).
      assert (NF : fe (j_z j) <> f0) by (intros E0; apply NZ; apply fe_eq in E0; exact E0).
      assert (EX : fe (j_x j) = (x * (fe (j_z j) * fe (j_z j)))%F).
      { unfold fe. rewrite <- (toF_val x), <- !toF_mul. apply toF_eq. rewrite HX. f_equal. ring. }
      assert (EY : fe (j_y j) = (y * (fe (j_z j) * fe (j_z j) * fe (j_z j)))%F).
      { unfold fe. rewrite <- (toF_val y), <- !toF_mul. apply toF_eq. rewrite HY. f_equal. ring. }
      split; [exact NF|]. rewrite P, EX, EY. f_equal; field; exact NF.
  - intros (X & Y & Z & H). split; [exact X|]. split; [exact Y|]. split; [exact Z|]. split; [exact O|]. destruct (j_inf j).
    + subst A. reflexivity.
    + destruct H as [NF P]. rewrite P. cbn [spt].
      set (x := (fe (j_x j) / _)%F). set (y := (fe (j_y j) / _)%F).
      split; [reflexivity|]. split; [intros E0; apply NF; apply fe_eq; exact E0|]. split.
      * apply toF_eq. rewrite toF_mul, toF_val, Z.pow_2_r, toF_mul. change (toF (fv ?f)) with (fe f). unfold x. field. exact NF.
      * apply toF_eq. replace (fv (j_z j) ^ 3) with (fv (j_z j) * fv (j_z j) * fv (j_z j)) by ring.
        rewrite toF_mul, toF_val, !toF_mul. change (toF (fv ?f)) with (fe f). unfold y. field. exact NF.
Qed.
Lemma Forall2_of_nth {X Y} (R : X -> Y -> Prop) l : forall m, length l = length m ->
  (forall i x y, nth_error l i = Some x -> nth_error m i = Some y -> R x y) -> Forall2 R l m.
Proof.
  induction l as [|x l IH]; intros [|y m] L H; try discriminate L; constructor; [apply (H O); reflexivity|].
  apply IH; [injection L as L; exact L|]. intros i. apply (H (S i)).
Qed.
Lemma Forall2_nth_both {X Y} (R : X -> Y -> Prop) l m : Forall2 R l m -> forall i x y, nth_error l i = Some x -> nth_error m i = Some y -> R x y.
Proof. induction 1; intros [|i] u v A B; try discriminate A; cbn in *; [congruence | eauto]. Qed.
Lemma Some_inv {X} (x y : X) : Some x = Some y -> x = y.
Proof. intros H. injection H as ->. reflexivity. Qed.
Lemma nth_some_lt {X} (l : list X) i x : nth_error l i = Some x -> (i < length l)%nat.
Proof. intros H. apply nth_error_Some. rewrite H. discriminate. Qed.
Lemma verify_ctx_ok c : verify_ctx c <-> ctx_ok c.
Proof.
  destruct c as [t]. unfold verify_ctx, ctx_ok. assert (SZ : Z.of_nat ECMULT_TABLE_SIZE_G = 16384) by (unfold ECMULT_TABLE_SIZE_G; apply Z2Nat.id; lia). split.
  - intros [L H]. apply Forall2_of_nth; [rewrite odds_len; lia|]. intros i s A NS NA. pose proof (nth_some_lt _ _ _ NS).
    rewrite odds_nth in NA by lia. apply Some_inv in NA; rewrite <- NA. apply stored_asok. rewrite sp_mul, sp_G by lia. replace (1 + 2 * Z.of_nat i) with (2 * Z.of_nat i + 1) by ring. apply H, NS.
  - intros H. pose proof (Forall2_len _ _ _ H) as L. rewrite odds_len in L. split; [lia|]. intros i s NS. pose proof (nth_some_lt _ _ _ NS).
    assert (NA : nth_error (odds eG ECMULT_TABLE_SIZE_G 1) i = Some (emul (1 + 2 * Z.of_nat i) eG)) by (apply odds_nth; lia).
    pose proof (Forall2_nth_both _ _ _ H _ _ _ NS NA) as K. apply stored_asok in K. rewrite sp_mul, sp_G in K by lia. replace (2 * Z.of_nat i + 1) with (1 + 2 * Z.of_nat i) by ring. exact K.
Qed.
Lemma grows_nth bs : forall j i b, nth_error bs i = Some b -> nth_error (grows bs j) i = Some (gpts b (emul (16 ^ (j + Z.of_nat i)) eG) 16 0).
Proof.
  induction bs as [|a bs IH]; intros j [|i] b H; try discriminate H; cbn [grows nth_error] in *.
  - injection H as ->. cbn [Z.of_nat]. rewrite Z.add_0_r. reflexivity.
  - rewrite (IH (j + 1) i b H). do 4 f_equal. lia.
Qed.
Lemma sp_sum bs : sp (esum bs) = psum (map sp bs).
Proof. induction bs as [|b bs IH]; [reflexivity|]. cbn [esum map psum fold_right]. rewrite sp_add, IH. reflexivity. Qed.
Lemma on_list Bs : Forall on_curve Bs -> exists bs, Bs = map sp bs.
Proof.
  induction 1 as [|B Bs H _ [bs ->]]; [exists []; reflexivity|]. destruct (sp_surj _ H) as [A <-]. exists (A :: bs). reflexivity.
Qed.
Lemma entry_sp b i j : 0 <= i -> 0 <= j -> sp (eadd b (emul i (emul (16 ^ j) eG))) = padd (sp b) (smul (i * 16 ^ j) G).
Proof. intros I J. assert (0 <= 16 ^ j) by (apply Z.pow_nonneg; lia). rewrite sp_add, <- emul_mul, <- smul_G by nia. reflexivity. Qed.
Lemma gen_ctx_ok c : gen_ctx c <-> gctx_ok c.
Proof.
  destruct c as [prec blind ini]. unfold gen_ctx, gctx_ok. split.
  - intros (b & I & Bs & HB & RB & HI & LB & ON & LP & HP & SUM). pose proof HI as (_ & _ & _ & OI & _). destruct (sp_surj _ OI) as [A <-].
    destruct (on_list _ ON) as [bs ->]. rewrite map_length in LB. exists b, A, bs. split; [exact HB|]. split; [exact RB|]. split; [apply jac_loose_jlok, HI|]. split; [exact LB|]. split.
    + apply Forall2_of_nth; [rewrite grows_len; lia|]. intros j row g NR NG.
      assert (JB : (j < length bs)%nat) by (rewrite <- (grows_len bs 0); exact (nth_some_lt _ _ _ NG)).
      destruct (nth_error bs j) as [B|] eqn:EB; [|apply nth_error_None in EB; lia].
      rewrite (grows_nth bs 0 j B EB) in NG. apply Some_inv in NG; rewrite <- NG. assert (ES : nth_error (map sp bs) j = Some (sp B)) by (apply map_nth_error, EB).
      destruct (HP j row _ NR ES) as [LR HR]. apply Forall2_of_nth; [rewrite gpts_len; exact LR|]. intros i s g' NS NG'. pose proof (nth_some_lt _ _ _ NS).
      rewrite gpts_nth in NG' by lia. apply Some_inv in NG'; rewrite <- NG'. apply stored_asok. rewrite Z.add_0_l, Z.add_0_l, entry_sp by lia. apply HR, NS.
    + apply sp_inj. rewrite sp_add, sp_sum, sp_opp, <- smul_G by lia. exact SUM.
  - intros (b & A & bs & HB & RB & HI & LB & HP & SUM). exists b, (sp A), (map sp bs). split; [exact HB|]. split; [exact RB|]. split; [apply jac_loose_jlok, HI|].
    rewrite map_length. split; [exact LB|]. split; [apply Forall_forall; intros P HIn; apply in_map_iff in HIn; destruct HIn as (B & <- & _); apply sp_on|].
    pose proof (Forall2_len _ _ _ HP) as LP. rewrite grows_len in LP. split; [lia|]. split.
    + intros j row B NR NB. assert (JB : (j < length bs)%nat) by (rewrite <- (map_length sp bs); exact (nth_some_lt _ _ _ NB)).
      destruct (nth_error bs j) as [D|] eqn:EB; [|apply nth_error_None in EB; lia]. rewrite (map_nth_error sp _ _ EB) in NB. injection NB as <-.
      pose proof (Forall2_nth_both _ _ _ HP _ _ _ NR (grows_nth bs 0 j D EB)) as HR. pose proof (Forall2_len _ _ _ HR) as LR. rewrite gpts_len in LR. split; [exact LR|].
      intros i s NS. pose proof (nth_some_lt _ _ _ NS). assert (NG := gpts_nth D (emul (16 ^ (0 + Z.of_nat j)) eG) 16 0 i ltac:(lia)).
      pose proof (Forall2_nth_both _ _ _ HR _ _ _ NS NG) as K. apply stored_asok in K. rewrite Z.add_0_l, Z.add_0_l, entry_sp in K by lia. exact K.
    + rewrite <- sp_sum, <- sp_add, SUM, sp_opp, smul_G by lia. reflexivity.
Qed.
