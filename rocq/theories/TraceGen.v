(** The traces of [ecmult_gen], [from_secret_key] and [sign_raw]. *)
From Coq Require Import Znumtheory Field.
From Verif Require Import Word MField MScalar MGroup MEcmult MEcdsa MApi MTrace WP FieldMul FieldNorm FieldZero Spec Fp Bits FieldOps FieldCodec FieldStore
  ScalarMul ScalarOps ScalarMore ScalarBits Denote Curve Group Chain OrderCert Order Jac JacOps Lift Table Wnaf WnafC Ecmult Gen Endo Trace TraceEc.

Fixpoint select_events (k : nat) (j i : Z) : list event :=
  match k with O => [] | S k' => EIndex j :: EIndex i :: select_events k' j (i + 1) end.
Fixpoint gen_events (k : nat) (j : Z) : list event :=
  match k with O => [] | S k' => EIndex (Z.shiftr (j * 4) 5) :: select_events 16 j 0 ++ EBranch false :: gen_events k' (j + 1) end.

(** Window values that meet the branch: with the accumulator at [(c + low)*G], [low < 16^j], and the entries [(u + 16^j*d)*G]. *)
Definition cand (c u j d mu : Z) : list Z :=
  let low := (- (c + mu * (u + 16 ^ j * d))) mod n in if low <? 16 ^ j then [low + 16 ^ j * d] else [].
Definition exc_at (c u j : Z) : list Z :=
  flat_map (fun d => flat_map (cand c u j d) [1; lambda; n - 1 - lambda])
    [0; 1; 2; 3; 4; 5; 6; 7; 8; 9; 10; 11; 12; 13; 14; 15].
Fixpoint exc (us : list Z) (c j : Z) : list (list Z) :=
  match us with [] => [] | u :: t => exc_at c u j :: exc t (c + u) (j + 1) end.
Lemma exc_len us : forall c j, length (exc us c j) = length us.
Proof. induction us; intros; [reflexivity|]. cbn. f_equal. apply IHus. Qed.
Lemma flat_len {X} (f : X -> list Z) m l : (forall x, (length (f x) <= m)%nat) -> (length (flat_map f l) <= m * length l)%nat.
Proof. intros H. induction l as [|x l IH]; cbn [flat_map length]; [lia|]. rewrite app_length. specialize (H x). lia. Qed.
Lemma exc_48 us : forall c j, Forall (fun L => (length L <= 48)%nat) (exc us c j).
Proof.
  induction us; intros; cbn [exc]; constructor; [|apply IHus]. unfold exc_at. apply (flat_len _ 3). intros d. apply (flat_len _ 1). intros mu.
  unfold cand. destruct (_ <? _); cbn [length]; lia.
Qed.
Lemma pow16_lt j : 0 <= j <= 63 -> 0 < 16 ^ j < n.
Proof.
  intros J. split; [apply Z.pow_pos_nonneg; lia|]. apply Z.le_lt_trans with (16 ^ 63); [apply Z.pow_le_mono_r; lia | rewrite n_eq; reflexivity].
Qed.
Lemma low_digit g j : 0 <= j -> g mod 16 ^ (j + 1) = g mod 16 ^ j + 16 ^ j * ((g / 16 ^ j) mod 16).
Proof.
  intros J. assert (0 < 16 ^ j) by (apply Z.pow_pos_nonneg; lia). rewrite Z.pow_add_r, Z.pow_1_r by lia. apply Z.rem_mul_r; lia.
Qed.
Lemma exc_hit c u j g : 0 <= j <= 63 -> opp_y (c + g mod 16 ^ j) (u + 16 ^ j * ((g / 16 ^ j) mod 16)) -> In (g mod 16 ^ (j + 1)) (exc_at c u j).
Proof.
  intros J H. pose proof (pow16_lt j J) as P. rewrite low_digit by lia. pose proof (Z.mod_pos_bound g (16 ^ j) ltac:(lia)) as LR.
  pose proof (Z.mod_pos_bound (g / 16 ^ j) 16 ltac:(lia)) as DR. set (low := g mod 16 ^ j) in *. set (d := (g / 16 ^ j) mod 16) in *. clearbody low d.
  unfold exc_at. apply in_flat_map. exists d. split.
  { assert (d = 0 \/ d = 1 \/ d = 2 \/ d = 3 \/ d = 4 \/ d = 5 \/ d = 6 \/ d = 7 \/ d = 8 \/ d = 9 \/ d = 10 \/ d = 11 \/ d = 12 \/ d = 13 \/ d = 14 \/ d = 15) as K by lia.
    repeat (destruct K as [-> | K]; [cbn [In]; tauto|]). subst d. cbn [In]. tauto. }
  assert (Q : forall mu, (c + low + mu * (u + 16 ^ j * d)) mod n = 0 -> In (low + 16 ^ j * d) (cand c u j d mu)).
  { intros mu E0. apply Z.mod_divide in E0; [|lia]. destruct E0 as [t E0]. unfold cand.
    replace (- (c + mu * (u + 16 ^ j * d))) with (low + (- t) * n) by lia. rewrite Z.mod_add, (Z.mod_small low) by lia.
    rewrite (proj2 (Z.ltb_lt low (16 ^ j))) by lia. left. reflexivity. }
  apply in_flat_map. destruct H as [H|[H|H]].
  - exists 1. split; [cbn [In]; tauto | apply Q; rewrite Z.mul_1_l; exact H].
  - exists lambda. split; [cbn [In]; tauto | apply Q, H].
  - exists (n - 1 - lambda). split; [cbn [In]; tauto | apply Q, H].
Qed.
Lemma exc_inv c u j low d : 0 <= j -> 0 <= low < 16 ^ j -> In (low + 16 ^ j * d) (exc_at c u j) ->
  exists mu, (mu = 1 \/ mu = lambda \/ mu = n - 1 - lambda) /\ (c + low + mu * (u + 16 ^ j * d)) mod n = 0.
Proof.
  intros J L H. unfold exc_at in H. apply in_flat_map in H. destruct H as (d' & _ & H). apply in_flat_map in H. destruct H as (mu & HM & H).
  exists mu. split; [cbn [In] in HM; intuition|]. unfold cand in H. set (low' := (- (c + mu * (u + 16 ^ j * d'))) mod n) in *.
  destruct (Z.ltb_spec low' (16 ^ j)) as [L'|]; [|destruct H]. destruct H as [H|[]]. assert (NP := n_pos).
  pose proof (Z.mod_pos_bound (- (c + mu * (u + 16 ^ j * d'))) n ltac:(lia)) as R'. fold low' in R'.
  assert (d' = d) by nia. subst d'. assert (low' = low) by lia.
  replace (c + low + mu * (u + 16 ^ j * d)) with (low - - (c + mu * (u + 16 ^ j * d))) by ring. rewrite Zminus_mod. fold low'. rewrite H0, Z.mod_small with (a := low) by lia.
  rewrite Z.sub_diag. apply Z.mod_0_l. lia.
Qed.
Lemma hit_unique c u j low mu d d' : 0 <= j <= 63 -> (mu = 1 \/ mu = lambda \/ mu = n - 1 - lambda) -> 0 <= d < 16 -> 0 <= d' < 16 ->
  (c + low + mu * (u + 16 ^ j * d)) mod n = 0 -> (c + low + mu * (u + 16 ^ j * d')) mod n = 0 -> d = d'.
Proof.
  intros J HM D D' H H'. pose proof (pow16_lt j J) as P. assert (PN := prime_n). assert (NP := n_pos). pose proof n_big. assert (100 < 2 ^ 255) by reflexivity.
  apply Z.mod_divide in H; [|lia]. apply Z.mod_divide in H'; [|lia].
  assert (X : (n | mu * (16 ^ j * (d - d')))).
  { replace (mu * (16 ^ j * (d - d'))) with ((c + low + mu * (u + 16 ^ j * d)) - (c + low + mu * (u + 16 ^ j * d'))) by ring. apply Z.divide_sub_r; assumption. }
  assert (LB : 1 < lambda < n - 2) by (vm_compute; split; reflexivity).
  apply prime_mult in X; [|exact PN]. destruct X as [X|X]; [apply Zdivide_le in X; lia|].
  apply prime_mult in X; [|exact PN]. destruct X as [X|X]; [apply Zdivide_le in X; lia|].
  destruct X as [t X]. assert (t = 0) by nia. lia.
Qed.
(** given the lower digits, one of the digits 0 to 3 does not meet the branch *)
Lemma free_digit c u j low : 0 <= j <= 63 -> 0 <= low < 16 ^ j -> exists d, 0 <= d < 4 /\ ~ In (low + 16 ^ j * d) (exc_at c u j).
Proof.
  intros J L.
  destruct (in_dec Z.eq_dec (low + 16 ^ j * 0) (exc_at c u j)) as [H0|H]; [|exists 0; split; [lia | exact H]].
  destruct (in_dec Z.eq_dec (low + 16 ^ j * 1) (exc_at c u j)) as [H1|H]; [|exists 1; split; [lia | exact H]].
  destruct (in_dec Z.eq_dec (low + 16 ^ j * 2) (exc_at c u j)) as [H2|H]; [|exists 2; split; [lia | exact H]].
  destruct (in_dec Z.eq_dec (low + 16 ^ j * 3) (exc_at c u j)) as [H3|H]; [|exists 3; split; [lia | exact H]].
  exfalso. apply exc_inv in H0, H1, H2, H3; try lia.
  destruct H0 as (m0 & M0 & H0), H1 as (m1 & M1 & H1), H2 as (m2 & M2 & H2), H3 as (m3 & M3 & H3).
  assert (U : forall mu d d', (mu = 1 \/ mu = lambda \/ mu = n - 1 - lambda) -> 0 <= d < 4 -> 0 <= d' < 4 -> d <> d' ->
    (c + low + mu * (u + 16 ^ j * d)) mod n = 0 -> (c + low + mu * (u + 16 ^ j * d')) mod n = 0 -> False).
  { intros mu d d' HM D D' NE A B. apply NE. apply (hit_unique c u j low mu d d'); try assumption; lia. }
  assert (m0 <> m1) by (intros <-; exact (U m0 0 1 M0 ltac:(lia) ltac:(lia) ltac:(lia) H0 H1)).
  assert (m0 <> m2) by (intros <-; exact (U m0 0 2 M0 ltac:(lia) ltac:(lia) ltac:(lia) H0 H2)).
  assert (m0 <> m3) by (intros <-; exact (U m0 0 3 M0 ltac:(lia) ltac:(lia) ltac:(lia) H0 H3)).
  assert (m1 <> m2) by (intros <-; exact (U m1 1 2 M1 ltac:(lia) ltac:(lia) ltac:(lia) H1 H2)).
  assert (m1 <> m3) by (intros <-; exact (U m1 1 3 M1 ltac:(lia) ltac:(lia) ltac:(lia) H1 H3)).
  assert (m2 <> m3) by (intros <-; exact (U m2 2 3 M2 ltac:(lia) ltac:(lia) ltac:(lia) H2 H3)).
  lia.
Qed.
Lemma free_scalar us : forall c j low, 0 <= j -> 0 <= low < 16 ^ j -> j + Z.of_nat (length us) = 64 ->
  exists g, g mod 16 ^ j = low /\ 0 <= g < 16 ^ 64 /\ (us <> [] -> g < 4 * 16 ^ 63) /\
    forall i L, nth_error (exc us c j) i = Some L -> ~ In (g mod 16 ^ (j + Z.of_nat i + 1)) L.
Proof.
  induction us as [|u us IH]; intros c j low J LR JL; cbn [length] in JL.
  - exists low. split; [apply Z.mod_small; lia|]. assert (j = 64) as -> by lia. split; [lia|]. split; [congruence|]. intros [|i] L K; discriminate K.
  - destruct (free_digit c u j low ltac:(lia) LR) as (d & D & ND). assert (PP : 0 < 16 ^ j) by lia.
    assert (PS : 16 ^ (j + 1) = 16 ^ j * 16) by (rewrite Z.pow_add_r, Z.pow_1_r by lia; reflexivity).
    destruct (IH (c + u) (j + 1) (low + 16 ^ j * d) ltac:(lia) ltac:(nia) ltac:(lia)) as (g & GM & GR & GB & GX).
    assert (GJ : g mod 16 ^ j = low).
    { rewrite low_digit in GM by lia. pose proof (Z.mod_pos_bound g (16 ^ j) PP). set (gm := g mod 16 ^ j) in *. set (x := (g / 16 ^ j) mod 16) in *.
      clearbody gm x. clear - GM H LR. set (P := 16 ^ j) in *. clearbody P. assert (x = d) by nia. subst x. lia. }
    exists g. split; [exact GJ|]. split; [exact GR|]. split.
    + intros _. destruct us as [|u' us]; [|apply GB; discriminate]. cbn [length] in JL. assert (j = 63) as -> by lia.
      change (63 + 1) with 64 in *. rewrite Z.mod_small in GM by lia. lia.
    + intros [|i] L HL.
      * cbn [exc nth_error] in HL. injection HL as <-. cbn [Z.of_nat]. rewrite Z.add_0_r, GM. exact ND.
      * cbn [exc nth_error] in HL. replace (j + Z.of_nat (Datatypes.S i) + 1) with (j + 1 + Z.of_nat i + 1) by lia. apply GX, HL.
Qed.
Section B.
Variable dbg : bool.
Lemma t_gen_select_fst row : forall j i bits adds, fst (t_gen_select row j i bits adds) = select_events (length row) j i.
Proof. induction row as [|p t IH]; intros; [reflexivity|]. cbn [t_gen_select length select_events]. rewrite !ev_fst. do 2 f_equal. apply IH. Qed.
Lemma jokw_fin u a A : jokw dbg u a A -> A <> e0 -> j_inf a = false.
Proof. intros (x & y & z & _ & _ & _ & H) N. destruct (j_inf a); [contradiction | reflexivity]. Qed.
Lemma t_gen_loop_fst g : 0 <= g < n -> forall us prec j c adds r, Forall2 (Forall2 asok) prec (grows (map (fun u => emul u eG) us) j) -> 0 <= j ->
  j + Z.of_nat (length us) = 64 -> jokw dbg f1 r (emul (c + g mod 16 ^ j) eG) -> (c + g mod 16 ^ j) mod n <> 0 ->
  (forall i L, nth_error (exc us c j) i = Some L -> ~ In (g mod 16 ^ (j + Z.of_nat i + 1)) L) ->
  fst (t_ecmult_gen_loop dbg prec j (scalar_of g) adds r) = gen_events (length us) j.
Proof.
  intros HG. induction us as [|u us IH]; intros prec j c adds r HP J0 JL HR NZ HX; cbn [map grows] in HP.
  - inversion HP; subst. reflexivity.
  - destruct prec as [|row prec]; [inversion HP|]. apply Forall2_inv in HP. destruct HP as [HROW HREST]. cbn [t_ecmult_gen_loop length gen_events] in *.
    assert (J64 : 0 <= j <= 63) by lia. rewrite ev_fst. f_equal.
    assert (HB : wp (s_bits dbg (scalar_of g) (j * 4) 4) (fun bits => bits = sv (scalar_of g) / 2 ^ (j * 4) mod 2 ^ 4)).
    { apply s_bits_ok; [apply scalar_of_u | lia | lia | lia | Z.to_euclidean_division_equations; lia]. }
    apply wp_inv in HB. destruct HB as (bits & -> & BITS). change (fst (bindT (lift (Some bits)) ?f)) with (fst (f bits)). cbv beta.
    rewrite scalar_of_val in BITS by exact HG. rewrite (Z.mul_comm j 4), Z.pow_mul_r in BITS by lia. change (2 ^ 4) with 16 in BITS.
    pose proof (Z.mod_pos_bound (g / 16 ^ j) 16 ltac:(lia)) as BB. rewrite <- BITS in BB.
    destruct (Forall2_nth _ _ _ HROW (Z.to_nat bits) (eadd (emul u eG) (emul bits (emul (16 ^ j) eG)))) as (a & NA & HA).
    { rewrite gpts_nth by lia. rewrite Z2Nat.id, Z.add_0_l by lia. reflexivity. }
    pose proof (Forall2_len _ _ _ HROW) as LR. rewrite gpts_len in LR.
    assert (SEL : t_gen_select row j 0 bits adds = (select_events 16 j 0, Some a)).
    { pose proof (t_gen_select_fst row j 0 bits adds) as F1. pose proof (t_gen_select_erase row j 0 bits adds) as F2. rewrite LR in F1.
      rewrite (gen_select_ok row 0 bits adds a) in F2 by (rewrite ?Z.sub_0_r; assumption || lia). destruct (t_gen_select row j 0 bits adds). cbn [fst snd] in *. congruence. }
    rewrite SEL. change (fst (bindT (?e, Some a) ?f)) with (e ++ fst (f a)). cbv beta. f_equal.
    rewrite <- emul_mul, <- emul_add in HA. rewrite (Z.mul_comm bits) in HA. subst bits.
    set (d := (g / 16 ^ j) mod 16) in *.
    pose proof (exc_hit c u j g J64) as HIT. fold d in HIT.
    assert (NO : ~ opp_y (c + g mod 16 ^ j) (u + 16 ^ j * d)).
    { intros K. apply HIT in K. specialize (HX O _ eq_refl). cbn [Z.of_nat] in HX. rewrite Z.add_0_r in HX. exact (HX K). }
    destruct (af_from_storage_ok _ _ HA) as [AF AI].
    assert (NG : eG <> e0) by (intros K; discriminate (f_equal pt K)).
    assert (NR : emul (c + g mod 16 ^ j) eG <> e0) by (apply emul_neq0; assumption).
    destruct (not_e0 _ NR) as (xa & ya & PA).
    assert (PB : exists xb yb, pt (emul (u + 16 ^ j * d) eG) = FAff xb yb) by (destruct a; destruct HA as (_ & _ & _ & _ & PB); eauto). destruct PB as (xb & yb & PB).
    pose proof (t_add_ge_ok dbg f1 r (af_from_storage a) _ _ xa ya xb yb HR (aok_mono _ 6 _ _ _ AF ltac:(lia)) AI (jokw_fin _ _ _ HR NR) PA PB) as (r1 & ER & R1).
    rewrite ER. change (fst (bindT (?e, Some r1) ?f)) with (e ++ fst (f r1)). cbv beta.
    assert (CF : feqb (ya + yb)%F f0 = false).
    { apply Bool.not_true_is_false. intros K. apply NO. apply (opp_y_mul eG _ _ _ _ _ _ NG PA PB). apply feqb_eq, K. }
    rewrite CF. cbn [app]. f_equal.
    assert (EQ : c + g mod 16 ^ j + (u + 16 ^ j * d) = c + u + g mod 16 ^ (j + 1)) by (rewrite low_digit by lia; fold d; ring).
    rewrite <- emul_add, EQ in R1.
    apply (IH prec (j + 1) (c + u) a r1 HREST ltac:(lia) ltac:(lia)).
    + apply jok_w, R1.
    + rewrite <- EQ. intros K. apply NO. left. exact K.
    + intros i L HL. replace (j + 1 + Z.of_nat i + 1) with (j + Z.of_nat (Datatypes.S i) + 1) by lia. apply HX. exact HL.
Qed.

Lemma logs bs : exists us, bs = map (fun u => emul u eG) us.
Proof. induction bs as [|B bs [us ->]]; [exists []; reflexivity|]. destruct (cyclic B) as [k ->]. exists (k :: us). reflexivity. Qed.
Theorem t_ecmult_gen_fst prec blind ini : gctx_ok (GCtx prec blind ini) -> j_inf ini = false ->
  exists b Ls, blind = scalar_of b /\ 0 <= b < n /\ length Ls = 64%nat /\ Forall (fun L => (length L <= 48)%nat) Ls /\
    (exists k, 0 <= k < n /\ forall j L, nth_error Ls j = Some L -> ~ In (((k + b) mod n) mod 16 ^ (Z.of_nat j + 1)) L) /\
    forall k, 0 <= k < n -> (forall j L, nth_error Ls j = Some L -> ~ In (((k + b) mod n) mod 16 ^ (Z.of_nat j + 1)) L) ->
    fst (t_ecmult_gen dbg (GCtx prec blind ini) (scalar_of k)) = gen_events 64 0.
Proof.
  intros (b & I & bs & HB & RB & HI & LB & HP & SUM) NI. destruct (logs bs) as [us ->]. destruct (cyclic I) as [c ->]. rewrite map_length in LB.
  exists b, (exc us c 0). split; [exact HB|]. split; [exact RB|]. split; [rewrite exc_len; exact LB|]. split; [apply exc_48|]. split.
  { destruct (free_scalar us c 0 0 ltac:(lia) ltac:(lia) ltac:(lia)) as (g & _ & GR & GB & GX).
    assert (GN : g < n) by (apply Z.lt_trans with (4 * 16 ^ 63); [apply GB; intros ->; discriminate LB | rewrite n_eq; reflexivity]).
    exists ((g - b) mod n). split; [apply modn_range|]. intros j L HL. assert (NP := n_pos).
    rewrite Z.add_mod_idemp_l by lia. replace (g - b + b) with g by ring. rewrite (Z.mod_small g) by lia. apply (GX j L HL). }
  intros k HK HX. unfold t_ecmult_gen. rewrite HB, s_add_eq by assumption. change (fst (bindT (lift (Some ?x)) ?f)) with (fst (f x)). cbv beta.
  pose proof (t_gen_loop_fst ((k + b) mod n) (modn_range _) us prec 0 c as_default ini HP ltac:(lia) ltac:(lia)) as K.
  rewrite Z.pow_0_r, Z.mod_1_r, Z.add_0_r in K. rewrite LB in K. apply K.
  - exact (jlok_w dbg _ _ HI).
  - intros E0. destruct HI as (_ & _ & _ & HI). rewrite NI in HI. destruct HI as [_ HI].
    rewrite <- emul_mod_G, E0, emul_0 in HI. discriminate HI.
  - intros i L HL. rewrite Z.add_0_l. apply HX, HL.
Qed.
(** [sign_raw] after [ecmult_gen]: two branches on [s] *)
Theorem t_sign_raw_fst ctx d m k e : fst (t_ecmult_gen dbg ctx k) = e ->
  forall res, snd (t_sign_raw dbg ctx d m k) = Some res ->
  match res with
  | Err _ => fst (t_sign_raw dbg ctx d m k) = e ++ [EBranch true]
  | Ok (_, s, _) => exists h, fst (t_sign_raw dbg ctx d m k) = e ++ [EBranch false; EBranch h]
  end.
Proof.
  intros <- res. unfold t_sign_raw. destruct (t_ecmult_gen dbg ctx k) as [e [rp|]]; [|discriminate].
  change (fst (bindT (?e, Some ?a) ?f)) with (e ++ fst (f a)). change (snd (bindT (?e, Some ?a) ?f)) with (snd (f a)). cbn [fst]. cbv beta. intros H.
  do 13 (apply lift_inv in H; destruct H as (? & _ & H & ->); cbv beta in H).
  change (snd (bindT (branch ?v) ?f)) with (snd (f v)) in H. rewrite branch_fst. cbv beta in *.
  match goal with |- context [s_is_zero ?s] => destruct (s_is_zero s) end; [injection H as <-; reflexivity|].
  change (snd (bindT (branch ?v) ?f)) with (snd (f v)) in H. rewrite branch_fst. cbv beta in *.
  match goal with |- context [s_is_high ?s] => destruct (s_is_high s) end.
  - apply lift_inv in H; destruct H as (? & _ & H & ->). injection H as <-. eexists. reflexivity.
  - injection H as <-. eexists. reflexivity.
Qed.
End B.
