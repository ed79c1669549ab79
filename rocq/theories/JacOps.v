(** Correctness of the point operations of core/src/group.rs with respect to the curve group. *)
From Coq Require Import Znumtheory Field.
From Verif Require Import Word MField MGroup WP FieldMul FieldNorm FieldZero Spec Fp Bits FieldOps FieldCodec FieldStore Curve Group Chain Jac.

(** An affine triple on the curve scaled by [u] ([u = 1]: the curve itself), coordinates of magnitude at most [k]. *)
Definition aok (k : Z) (u : F) (a : affine) (A : E) : Prop :=
  fok k (af_x a) /\ fok k (af_y a) /\ if af_inf a then A = e0 else jpt (fe (af_x a)) (fe (af_y a)) u A.
(** A Jacobian triple on the curve scaled by [u], coordinates of magnitude at most 6. *)
Definition jok (u : F) (j : jac) (A : E) : Prop :=
  fok 6 (j_x j) /\ fok 6 (j_y j) /\ fok 6 (j_z j) /\
  if j_inf j then A = e0 else jpt (fe (j_x j)) (fe (j_y j)) (fe (j_z j) * u) A.

Lemma fok_frep k f : fok k f -> frep k f (fe f). Proof. intros H. split; [exact H | reflexivity]. Qed.
Lemma frep_fe k f e : frep k f e -> fe f = e. Proof. intros [_ H]. exact H. Qed.
Lemma frep_ok k k' f e : frep k f e -> k <= k' -> fok k' f.
Proof. intros H L. exact (proj1 (frep_mono _ _ _ _ H L)). Qed.
Lemma fok_mono k k' f : fok k f -> k <= k' -> fok k' f.
Proof. intros H. apply frep_ok with (e := fe f). apply fok_frep, H. Qed.
Lemma aok_mono k k' u a A : aok k u a A -> k <= k' -> aok k' u a A.
Proof. intros (X & Y & H) L. split; [eapply fok_mono; eauto|]. split; [eapply fok_mono; eauto | exact H]. Qed.
Lemma fcrep_fe f e : fcrep f e -> fe f = e. Proof. intros [_ H]. exact H. Qed.
Lemma fcrep_ok f e k : fcrep f e -> 1 <= k -> fok k f. Proof. intros H L. exact (proj1 (fcrep_frep _ _ _ H L)). Qed.

Ltac fr := eapply frep_mono; [eassumption | lia].
Ltac fcr := first [ eassumption | fr | eapply fcrep_frep; [eassumption | lia] ].
(** one step of a straight-line field computation *)
Ltac fs :=
  lazymatch goal with
  | |- wp (bind (f_mul _ _ _) _) _ => eapply wp_bind; [eapply f_mul_rep; fcr | cbv beta; intros ? ?]
  | |- wp (bind (f_sqr _ _) _) _ => eapply wp_bind; [eapply f_sqr_rep; fcr | cbv beta; intros ? ?]
  | |- wp (bind (f_inv _ _) _) _ => eapply wp_bind; [eapply f_inv_rep; fcr | cbv beta; intros ? ?]
  | |- wp (bind (f_add _ _ _) _) _ => eapply wp_bind; [eapply f_add_rep; [fcr0 | fcr0 | lia] | cbv beta; intros ? ?]
  | |- wp (bind (f_neg _ _ _) _) _ => eapply wp_bind; [eapply f_neg_rep; [fcr | lia] | cbv beta; intros ? ?]
  | |- wp (bind (f_mul_int _ _ _) _) _ => eapply wp_bind; [eapply f_mul_int_rep; [fcr0 | lia | lia] | cbv beta; intros ? ?]
  | |- wp (bind (f_normalize_weak _ _) _) _ => eapply wp_bind; [eapply f_normalize_weak_rep; fcr | cbv beta; intros ? ?]
  | |- wp (bind (f_normalizes_to_zero _ _) _) _ => eapply wp_bind; [eapply f_normalizes_to_zero_rep; fcr | cbv beta; intros ? ?]
  | |- wp (bind (f_normalizes_to_zero_var _ _) _) _ => eapply wp_bind; [eapply f_normalizes_to_zero_var_rep; fcr | cbv beta; intros ? ?]
  | |- wp (bind (f_set_int _ _) _) _ => eapply wp_bind; [eapply f_set_int_rep; lia | cbv beta; intros ? ?]
  | |- wp (bind (Some ?a) ?f) ?Q => change (wp (f a) Q); cbv beta
  end
with fcr0 := first [ eassumption | eapply fcrep_frep; [eassumption | apply Z.le_refl] ].

Lemma aok_elim k u a A : aok k u a A -> exists x y, frep k (af_x a) x /\ frep k (af_y a) y /\
  if af_inf a then A = e0 else jpt x y u A.
Proof. intros (X & Y & H). do 2 eexists. split; [apply fok_frep, X|]. split; [apply fok_frep, Y | exact H]. Qed.
Lemma aok_intro k u x y i xe ye A : frep k x xe -> frep k y ye -> (if i : bool then A = e0 else jpt xe ye u A) -> aok k u (Af x y i) A.
Proof. intros [X <-] [Y <-] H. split; [exact X|]. split; [exact Y | exact H]. Qed.
Lemma jok_elim u j A : jok u j A -> exists x y z, frep 6 (j_x j) x /\ frep 6 (j_y j) y /\ frep 6 (j_z j) z /\
  if j_inf j then A = e0 else jpt x y (z * u) A.
Proof.
  intros (X & Y & Z & H). do 3 eexists. split; [apply fok_frep, X|]. split; [apply fok_frep, Y|]. split; [apply fok_frep, Z | exact H].
Qed.
Lemma jok_intro u kx ky kz x y z i xe ye ze A : frep kx x xe -> frep ky y ye -> frep kz z ze -> kx <= 6 -> ky <= 6 -> kz <= 6 ->
  (if i : bool then A = e0 else jpt xe ye (ze * u) A) -> jok u (Ja x y z i) A.
Proof.
  intros X Y Z LX LY LZ H. split; [eapply frep_ok; eauto|]. split; [eapply frep_ok; eauto|]. split; [eapply frep_ok; eauto|].
  cbn [j_x j_y j_z j_inf]. rewrite (frep_fe _ _ _ X), (frep_fe _ _ _ Y), (frep_fe _ _ _ Z). exact H.
Qed.
Lemma jpt_ext X Y Z X' Y' Z' A : jpt X Y Z A -> X = X' -> Y = Y' -> Z = Z' -> jpt X' Y' Z' A.
Proof. intros H -> -> ->. exact H. Qed.
Lemma fcrep1 f e : fcrep f e -> frep 1 f e. Proof. intros H. apply (fcrep_frep _ _ _ H). lia. Qed.
Lemma jok_default A u : A = e0 -> jok u (Ja f_default f_default f_default true) A.
Proof.
  intros ->. pose proof (fcrep1 _ _ fcrep_default) as D. eapply jok_intro; [exact D | exact D | exact D | lia | lia | lia | reflexivity].
Qed.

Section B.
Variable dbg : bool.

(** negation *)
Lemma af_neg_ok k u a A : aok k u a A -> k <= 31 -> wp (af_neg dbg a) (fun r => aok (Z.max k 2) u r (eopp A) /\ af_inf r = af_inf a).
Proof.
  intros H L. apply aok_elim in H. destruct H as (x & y & X & Y & H). unfold af_neg. do 2 fs. apply wp_some. split; [|reflexivity].
  eapply aok_intro; [fr | fr |]. destruct (af_inf a); [subst A; apply eopp_0 | apply jpt_neg, H].
Qed.
Lemma j_neg_ok u j A : jok u j A -> wp (j_neg dbg j) (fun r => jok u r (eopp A) /\ j_inf r = j_inf j).
Proof.
  intros H. apply jok_elim in H. destruct H as (x & y & z & X & Y & Z & H). unfold j_neg. do 2 fs. apply wp_some. split; [|reflexivity].
  eapply jok_intro; try eassumption; try lia. destruct (j_inf j); [subst A; apply eopp_0 | apply jpt_neg, H].
Qed.
Lemma j_set_ge_ok a A : aok 6 f1 a A -> wp (j_set_ge dbg a) (fun r => jok f1 r A /\ j_inf r = af_inf a /\ j_x r = af_x a /\ j_y r = af_y a).
Proof.
  intros H. apply aok_elim in H. destruct H as (x & y & X & Y & H). unfold j_set_ge. fs. apply wp_some. split; [|repeat split].
  eapply jok_intro; [eassumption | eassumption | apply fcrep1; eassumption | lia | lia | lia|].
  destruct (af_inf a); [exact H | eapply jpt_ext; [exact H | reflexivity | reflexivity |]].
  change (toF 1) with f1. ring.
Qed.
(** the same on a scaled curve *)
Lemma j_set_ge_oku u a A : aok 6 u a A -> wp (j_set_ge dbg a) (fun r => jok u r A /\ j_inf r = af_inf a).
Proof.
  intros H. apply aok_elim in H. destruct H as (x & y & X & Y & H). unfold j_set_ge. fs. apply wp_some. split; [|repeat split].
  eapply jok_intro; [eassumption | eassumption | apply fcrep1; eassumption | lia | lia | lia|].
  destruct (af_inf a); [exact H | eapply jpt_ext; [exact H | reflexivity | reflexivity |]].
  change (toF 1) with f1. ring.
Qed.

(** doubling *)
Lemma j_double_var_ok u self a A rzr : jok u a A -> (j_inf a = true -> fok 6 (j_x self) /\ fok 6 (j_y self) /\ fok 6 (j_z self)) ->
  wp (j_double_var_in_place dbg self a rzr) (fun '(r, z) => jok u r (eadd A A) /\ j_inf r = j_inf a /\
    (j_inf a = false -> rzr <> None -> exists f e, z = Some f /\ frep 2 f e /\ fe (j_z r) = (fe (j_z a) * e)%F)).
Proof.
  intros H SF. unfold j_double_var_in_place. pose proof H as HA. apply jok_elim in H. destruct H as (x & y & z & X & Y & Z & H).
  destruct (j_inf a) eqn:IA.
  - destruct rzr.
    + eapply wp_bind; [instantiate (1 := fun _ => True); fs; cbn; exact I|]. intros rz _. apply wp_some. split; [|split; [reflexivity | discriminate]].
      destruct (SF eq_refl) as (SX & SY & SZ). subst A. rewrite eadd_0_l. repeat (split; [assumption|]). reflexivity.
    + cbn [bind]. apply wp_some. split; [|split; [reflexivity | discriminate]].
      destruct (SF eq_refl) as (SX & SY & SZ). subst A. rewrite eadd_0_l. repeat (split; [assumption|]). reflexivity.
  - eapply wp_bind; [instantiate (1 := fun rz => rzr <> None -> exists f, rz = Some f /\ frep 2 f (toF 2 * y)%F)|].
    { destruct rzr; [|cbn; congruence]. fs. fs. apply wp_some. intros _. eexists. split; [reflexivity|]. eassumption. }
    intros rz RZ. cbv beta in RZ. do 19 fs. apply wp_some. split; [|split; [reflexivity|]].
    + eapply jok_intro; [eassumption | eassumption | eassumption | lia | lia | lia |].
      eapply jpt_ext; [exact (jpt_double _ _ _ _ _ H) | ring | ring | ring].
    + intros _ N. destruct (RZ N) as (f & -> & FR). exists f, (toF 2 * y)%F. split; [reflexivity|]. split; [exact FR|].
      cbn [j_z]. rewrite (frep_fe _ _ _ Z). match goal with HZ : frep _ ?f (toF 2 * (z * y))%F |- fe ?f = _ => rewrite (frep_fe _ _ _ HZ) end. ring.
Qed.
Lemma j_double_ok u a A : jok u a A -> wp (j_double dbg a) (fun r => jok u r (eadd A A) /\ j_inf r = j_inf a).
Proof.
  intros H. unfold j_double, j_double_var. eapply wp_bind; [apply j_double_var_ok; [exact H|]|].
  - intros _. pose proof (fcrep_ok _ _ 6 fcrep_default ltac:(lia)). auto.
  - intros [r z] (R & I & _). apply wp_some. split; assumption.
Qed.
Lemma j_double_nonzero_ok u a A : jok u a A -> j_inf a = false -> wp (j_double_nonzero_in_place dbg a a) (fun r => jok u r (eadd A A) /\ j_inf r = false).
Proof.
  intros H I. unfold j_double_nonzero_in_place. apply wp_dassert; [rewrite I; reflexivity|].
  eapply wp_bind; [apply j_double_var_ok; [exact H | congruence]|].
  intros [r z] (R & J & _). apply wp_some. split; [exact R | congruence].
Qed.

Lemma j_add_same_x_ok u a i A B rzr ie : jok u a A -> j_inf a = false -> frep 6 i ie ->
  (ie = f0 -> A = B) -> (ie <> f0 -> eadd A B = e0) ->
  wp (j_add_same_x dbg a i rzr) (fun '(r, _) => jok u r (eadd A B)).
Proof.
  intros H I R E1 E2. unfold j_add_same_x. fs. subst.
  destruct (feqb_spec ie f0) as [EQ|NE].
  - rewrite <- (E1 EQ). eapply wp_mono; [apply j_double_var_ok; [exact H | congruence]|]. intros [r z] (K & _). exact K.
  - destruct rzr.
    + eapply wp_bind; [instantiate (1 := fun _ => True); fs; exact Logic.I|]. intros rz _. apply wp_some. apply jok_default, E2, NE.
    + cbn [bind]. apply wp_some. apply jok_default, E2, NE.
Qed.

Lemma j_add_tail_ok u1 s1 i i2 h2 h3 z u1e s1e ie he : frep 1 u1 u1e -> frep 1 s1 s1e -> frep 3 i ie ->
  frep 1 i2 (ie * ie)%F -> frep 1 h2 (he * he)%F -> frep 1 h3 (he * (he * he))%F ->
  wp (j_add_tail dbg u1 s1 i i2 h2 h3 z) (fun r => exists x y, r = Ja x y z false /\
    let X3 := (ie * ie - he * he * he - toF 2 * (u1e * (he * he)))%F in
    frep 6 x X3 /\ frep 6 y (ie * (u1e * (he * he) - X3) - s1e * (he * he * he))%F).
Proof.
  intros. unfold j_add_tail. do 11 fs. apply wp_some. do 2 eexists. split; [reflexivity|]. cbv zeta.
  split.
  - match goal with K : frep _ ?x ?e |- frep 6 ?x ?e' => replace e' with e by ring; fr end.
  - match goal with K : frep _ ?x ?e |- frep 6 ?x ?e' => replace e' with e by ring; fr end.
Qed.
Lemma jpt_mul1 X Y Z A : jpt X Y (Z * f1) A <-> jpt X Y Z A.
Proof. replace (Z * f1)%F with Z by ring. tauto. Qed.
Lemma jok_inf u j A : jok u j A -> (j_inf j = true <-> A = e0).
Proof.
  intros (_ & _ & _ & H). destruct (j_inf j); [tauto|]. split; [discriminate|]. intros ->. destruct (jpt_neq0 _ _ _ _ H eq_refl).
Qed.
Lemma aok_inf k u j A : aok k u j A -> (af_inf j = true <-> A = e0).
Proof.
  intros (_ & _ & H). destruct (af_inf j); [tauto|]. split; [discriminate|]. intros ->. destruct (jpt_neq0 _ _ _ _ H eq_refl).
Qed.
Lemma jok_fin u j A : jok u j A -> A <> e0 -> j_inf j = false.
Proof. intros H N. apply jok_inf in H. destruct (j_inf j); [destruct N; tauto | reflexivity]. Qed.
Lemma aok_fin k u j A : aok k u j A -> A <> e0 -> af_inf j = false.
Proof. intros H N. apply aok_inf in H. destruct (af_inf j); [destruct N; tauto | reflexivity]. Qed.

Ltac feqz := match goal with K : ?b = feqb ?e f0 |- _ => subst b; destruct (feqb_spec e f0) as [?EQ|?NE] end.

(** addition of two Jacobian points, with the ratio of the z coordinates *)
Lemma j_add_var_ok a b A B rzr : jok f1 a A -> jok f1 b B -> (rzr = None \/ j_inf a = false) ->
  wp (j_add_var dbg a b rzr) (fun '(r, _) => jok f1 r (eadd A B)).
Proof.
  intros HA HB RZ. unfold j_add_var. pose proof HA as JA. pose proof HB as JB. apply jok_elim in HA, HB.
  destruct HA as (x1 & y1 & z1 & X1 & Y1 & Z1 & HA). destruct HB as (x2 & y2 & z2 & X2 & Y2 & Z2 & HB).
  destruct (j_inf a) eqn:IA.
  { subst A. destruct RZ as [->|RZ]; [|discriminate]. apply wp_dassert; [reflexivity|]. apply wp_some. rewrite eadd_0_l. exact JB. }
  destruct (j_inf b) eqn:IB.
  { subst B. rewrite eadd_0_r. destruct rzr.
    - eapply wp_bind; [instantiate (1 := fun _ => True); fs; exact Logic.I|]. intros rz _. apply wp_some. exact JA.
    - cbn [bind]. apply wp_some. exact JA. }
  apply (proj1 (jpt_mul1 _ _ _ _)) in HA. apply (proj1 (jpt_mul1 _ _ _ _)) in HB.
  do 13 fs. feqz.
  - assert (EQ' : (x2 * (z1 * z1) - x1 * (z2 * z2) = 0)%F) by (rewrite <- EQ; ring).
    destruct (jpt_same_x _ _ _ _ _ _ _ _ HA HB EQ') as [K1 K2].
    eapply j_add_same_x_ok; [exact JA | exact IA | fr | |].
    + intros E0. apply K1. rewrite <- E0. ring.
    + intros E0. apply K2. intros E1. apply E0. rewrite <- E1. ring.
  - do 6 fs. eapply wp_bind; [eapply j_add_tail_ok; fr|]. cbv beta. intros r (x3 & y3 & -> & RX & RY). apply wp_some.
    eapply jok_intro; [exact RX | exact RY | eassumption | lia | lia | lia |]. apply (proj2 (jpt_mul1 _ _ _ _)).
    assert (NE' : (x2 * (z1 * z1) - x1 * (z2 * z2) <> 0)%F) by (intros E0; apply NE; rewrite <- E0; ring).
    eapply jpt_ext; [exact (jpt_add _ _ _ _ _ _ _ _ HA HB NE') | ring | ring | ring].
Qed.
Lemma j_add_ok a b A B : jok f1 a A -> jok f1 b B -> wp (j_add dbg a b) (fun r => jok f1 r (eadd A B)).
Proof.
  intros HA HB. unfold j_add. eapply wp_bind; [apply j_add_var_ok; [exact HA | exact HB | left; reflexivity]|]. intros [r z] H. exact H.
Qed.

(** mixed addition *)
Lemma j_add_ge_var_ok u a b A B rzr : jok u a A -> aok 6 u b B -> (rzr = None \/ j_inf a = false) ->
  wp (j_add_ge_var dbg a b rzr) (fun '(r, z) => jok u r (eadd A B) /\
    (A <> e0 -> B <> e0 -> A <> B -> A <> eopp B -> rzr <> None ->
      exists f e, z = Some f /\ frep 6 f e /\ fe (j_z r) = (fe (j_z a) * e)%F)).
Proof.
  intros HA HB RZ. unfold j_add_ge_var. pose proof HA as JA. pose proof HB as JB. apply jok_elim in HA. apply aok_elim in HB.
  destruct HA as (x1 & y1 & z1 & X1 & Y1 & Z1 & HA). destruct HB as (x2 & y2 & X2 & Y2 & HB).
  destruct (j_inf a) eqn:IA.
  { subst A. destruct RZ as [->|RZ]; [|discriminate]. apply wp_dassert; [reflexivity|].
    eapply wp_bind; [apply j_set_ge_oku; exact JB|]. cbv beta. intros r [R _]. apply wp_some. rewrite eadd_0_l. split; [exact R | tauto]. }
  destruct (af_inf b) eqn:IB.
  { subst B. rewrite eadd_0_r. destruct rzr.
    - eapply wp_bind; [instantiate (1 := fun _ => True); fs; exact Logic.I|]. intros rz _. apply wp_some. split; [exact JA | tauto].
    - cbn [bind]. apply wp_some. split; [exact JA | tauto]. }
  do 11 fs. feqz.
  - assert (EQ' : (x2 * (z1 * z1) - x1 = 0)%F) by (rewrite <- EQ; ring).
    destruct (jpt_same_x_ge _ _ _ _ _ _ _ _ HA HB EQ') as [K1 K2].
    eapply wp_mono; [eapply j_add_same_x_ok; [exact JA | exact IA | fr | |]|].
    + intros E0. apply K1. rewrite <- E0. ring.
    + intros E0. apply K2. intros E1. apply E0. rewrite <- E1. ring.
    + intros [r z] R. split; [exact R|]. intros _ _ N1 N2 _. exfalso.
      destruct (F_dec (y2 * (z1 * z1) * z1 - y1)%F f0) as [D|D]; [apply N1, K1, D | apply N2].
      apply eopp_unique. rewrite eadd_comm. apply K2, D.
  - do 5 fs. eapply wp_bind; [eapply j_add_tail_ok; fr|]. cbv beta. intros r (x3 & y3 & -> & RX & RY). apply wp_some.
    assert (NE' : (x2 * (z1 * z1) - x1 <> 0)%F) by (intros E0; apply NE; rewrite <- E0; ring).
    split.
    + eapply jok_intro; [exact RX | exact RY | eassumption | lia | lia | lia |].
      eapply jpt_ext; [exact (jpt_add_ge _ _ _ _ _ _ _ _ HA HB NE') | ring | ring | ring].
    + intros _ _ _ _ N. destruct rzr; [|congruence]. do 2 eexists. split; [reflexivity|]. split; [fr|].
      cbn [j_z]. rewrite (frep_fe _ _ _ Z1). eapply frep_fe. eassumption.
Qed.
Lemma j_add_ge_v_ok u a b A B : jok u a A -> aok 6 u b B -> wp (j_add_ge_v dbg a b) (fun r => jok u r (eadd A B)).
Proof.
  intros HA HB. unfold j_add_ge_v. eapply wp_bind; [apply j_add_ge_var_ok; [exact HA | exact HB | left; reflexivity]|]. intros [r z] [H _]. exact H.
Qed.

(** adding a point of the unscaled curve to a point of the scaled one *)
Lemma j_add_zinv_var_ok u a b zf A B : jok u a A -> aok 6 f1 b B -> frep 6 zf u -> u <> f0 ->
  wp (j_add_zinv_var dbg a b zf) (fun r => jok u r (eadd A B)).
Proof.
  intros HA HB ZF NU. unfold j_add_zinv_var. pose proof HA as JA. pose proof HB as JB. apply jok_elim in HA. apply aok_elim in HB.
  destruct HA as (x1 & y1 & z1 & X1 & Y1 & Z1 & HA). destruct HB as (x2 & y2 & X2 & Y2 & HB).
  destruct (af_inf b) eqn:IB; [subst B; rewrite eadd_0_r; apply wp_some; exact JA|].
  destruct (j_inf a) eqn:IA.
  { subst A. do 5 fs. apply wp_some. rewrite eadd_0_l.
    eapply jok_intro; [eassumption | eassumption | apply fcrep1; eassumption | lia | lia | lia |].
    apply (jpt_scale u) in HB; [|exact NU]. eapply jpt_ext; [exact HB | ring | ring |]. change (toF 1) with f1. ring. }
  do 12 fs. feqz.
  - assert (EQ' : (x2 * ((z1 * u) * (z1 * u)) - x1 * (f1 * f1) = 0)%F) by (rewrite <- EQ; ring).
    destruct (jpt_same_x _ _ _ _ _ _ _ _ HA HB EQ') as [K1 K2].
    eapply wp_bind; [eapply j_add_same_x_ok; [exact JA | exact IA | fr | |]|].
    + intros E0. apply K1. rewrite <- E0. ring.
    + intros E0. apply K2. intros E1. apply E0. rewrite <- E1. ring.
    + intros [r z] R. exact R.
  - do 4 fs. eapply wp_mono; [eapply j_add_tail_ok; fr|]. cbv beta. intros r (x3 & y3 & -> & RX & RY).
    assert (NE' : (x2 * ((z1 * u) * (z1 * u)) - x1 * (f1 * f1) <> 0)%F) by (intros E0; apply NE; rewrite <- E0; ring).
    eapply jok_intro; [exact RX | exact RY | eassumption | lia | lia | lia |].
    eapply jpt_ext; [exact (jpt_add _ _ _ _ _ _ _ _ HA HB NE') | ring | ring | ring].
Qed.

(** What the complete addition needs of its Jacobian argument: coordinates that weak
    normalization accepts (the generator context starts from an x and y of larger limbs). *)
Definition wok (f : field) (e : F) : Prop := wp (f_normalize_weak dbg f) (fun r => frep 1 r e).
Definition jokw (u : F) (j : jac) (A : E) : Prop := exists x y z, wok (j_x j) x /\ wok (j_y j) y /\ frep 6 (j_z j) z /\
  if j_inf j then A = e0 else jpt x y (z * u) A.
Lemma jok_w u j A : jok u j A -> jokw u j A.
Proof.
  intros H. apply jok_elim in H. destruct H as (x & y & z & X & Y & Z & H). exists x, y, z.
  split; [apply f_normalize_weak_rep; fr|]. split; [apply f_normalize_weak_rep; fr|]. split; assumption.
Qed.
Lemma f_cmov_eq f g c : f_cmov f g c = if c : bool then g else f.
Proof. destruct f, g, c; reflexivity. Qed.
Lemma fs_cmov_eq f g c : fs_cmov f g c = if c : bool then g else f.
Proof. destruct f, g, c; reflexivity. Qed.
Lemma wp_cmov {R} k f g e e' c (K : field -> option R) Q : frep k f e -> frep k g e' ->
  (forall r, frep k r (if c : bool then e' else e) -> wp (K r) Q) -> wp (bind (Some (f_cmov f g c)) K) Q.
Proof. intros A B H. apply H. rewrite f_cmov_eq. destruct c; assumption. Qed.
Lemma fcrep_FE1 : fcrep FE1 f1.
Proof. apply (f_new_rep 0 0 0 0 0 0 0 1); [unfold u32x8, u32; lia | reflexivity]. Qed.
(** [add_ge]: complete except that [b] must not be the point at infinity; [b] on the same scale *)
Lemma j_add_ge_ok u a b A B : jokw u a A -> aok 6 u b B -> af_inf b = false ->
  wp (j_add_ge dbg a b) (fun r => jok u r (eadd A B)).
Proof.
  intros HA HB IB. unfold j_add_ge. apply wp_dassert; [rewrite IB; reflexivity|].
  apply aok_elim in HB. destruct HA as (x1 & y1 & z1 & X1 & Y1 & Z1 & HA). destruct HB as (x2 & y2 & X2 & Y2 & HB).
  rewrite IB in HB. unfold wok in X1, Y1.
  fs. eapply wp_bind; [exact X1|]. cbv beta. intros u1 U1. fs. eapply wp_bind; [exact Y1|]. cbv beta. intros s1 S1. do 9 fs.
  set (m := (y1 + y2 * (z1 * z1) * z1)%F) in *.
  match goal with K : ?bb = feqb m f0 |- _ => subst bb end.
  match goal with K : frep _ ?rf ?e |- context [f_normalizes_to_zero dbg ?rf] => set (rr := e) in * end.
  eapply (wp_bind _ _ (fun d => d = feqb m f0 && feqb rr f0)).
  { destruct (feqb m f0); [|reflexivity]. eapply wp_mono; [eapply f_normalizes_to_zero_rep; fr|]. cbv beta. intros d ->. reflexivity. }
  cbv beta. intros deg DEG. do 2 fs.
  eapply (wp_cmov 6); [fr | fr |]. intros ra RA. eapply (wp_cmov 6); [fr | fr |]. intros ma MA.
  do 3 fs. eapply (wp_cmov 2); [fr | fr |]. intros nn NN. do 3 fs. fs. do 4 fs. fs. do 8 fs.
  eapply (wp_cmov 6); [fr | fr |]. intros x3 X3. eapply (wp_cmov 6); [fr | fr |]. intros y3 Y3.
  eapply (wp_cmov 6); [fr | apply fcrep_frep; [exact fcrep_FE1 | lia] |]. intros z3 Z3.
  apply wp_some. eapply jok_intro; [exact X3 | exact Y3 | exact Z3 | lia | lia | lia |].
  destruct (j_inf a).
  - cbn [negb]. rewrite Bool.andb_false_r. subst A. rewrite eadd_0_l. eapply jpt_ext; [exact HB | reflexivity | reflexivity | ring].
  - cbn [negb]. rewrite Bool.andb_true_r.
    pose proof (jpt_unified _ _ _ _ _ _ _ _ HA HB) as K. cbv zeta in K. fold m in K.
    assert (ER : ((x1 + x2 * (z1 * z1)) * (x1 + x2 * (z1 * z1)) + x1 * - (x2 * (z1 * z1)))%F = rr) by (unfold rr; reflexivity).
    rewrite ER in K. rewrite <- DEG in K.
    match goal with Q : ?bb = feqb _ f0 |- _ => subst bb end.
    destruct K as [K1 K2]. destruct deg; cbn [negb] in *.
    + match goal with |- if ?c then _ else _ => destruct c end; [exact (K1 eq_refl)|].
      eapply jpt_ext; [exact (K2 eq_refl) | ring | ring | ring].
    + match goal with |- if ?c then _ else _ => destruct c end; [exact (K1 eq_refl)|].
      eapply jpt_ext; [exact (K2 eq_refl) | ring | ring | ring].
Qed.

(** conversions *)
Lemma jpt_toaff X Y Z A : jpt X Y Z A -> pt A = FAff (X * (finv Z * finv Z)) (Y * (finv Z * (finv Z * finv Z))).
Proof. intros [NZ ->]. f_equal; field; auto. Qed.
Lemma af_set_gej_ok a A : jok f1 a A -> wp (af_set_gej dbg a) (fun r => aok 1 f1 r A /\ af_inf r = j_inf a).
Proof.
  intros H. apply jok_elim in H. destruct H as (x & y & z & X & Y & Z & H). unfold af_set_gej. do 6 fs. apply wp_some. split; [|reflexivity].
  eapply aok_intro; [eassumption | eassumption |]. destruct (j_inf a); [exact H|].
  apply (proj1 (jpt_mul1 _ _ _ _)) in H. apply jpt_affine, jpt_toaff, H.
Qed.
Lemma af_set_gej_var_ok s a A : jok f1 a A -> (j_inf a = true -> fok 6 (af_x s) /\ fok 6 (af_y s)) ->
  wp (af_set_gej_var dbg s a) (fun r => aok 6 f1 r A /\ (j_inf a = false -> aok 1 f1 r A) /\ af_inf r = j_inf a).
Proof.
  intros H S. apply jok_elim in H. destruct H as (x & y & z & X & Y & Z & H). unfold af_set_gej_var.
  destruct (j_inf a).
  - apply wp_some. destruct (S eq_refl) as [SX SY]. split; [|split; [discriminate | reflexivity]]. split; [exact SX|]. split; [exact SY | exact H].
  - do 6 fs. apply wp_some. 
    match goal with |- aok 6 f1 ?r _ /\ _ => assert (K : aok 1 f1 r A) end.
    { eapply aok_intro; [eassumption | eassumption |]. apply (proj1 (jpt_mul1 _ _ _ _)) in H. apply jpt_affine, jpt_toaff, H. }
    split; [apply (aok_mono 1); [exact K | lia]|]. split; [intros _; exact K | reflexivity].
Qed.
(** multiplying through by a factor: from scale [u] to scale [v] when [z * u * c = v] *)
Lemma af_set_gej_zinv_ok u v c a ci A : jok u a A -> frep 6 ci c -> c <> f0 -> (j_inf a = false -> (fe (j_z a) * u * c = v)%F) ->
  wp (af_set_gej_zinv dbg a ci) (fun r => aok 1 v r A /\ af_inf r = j_inf a /\
    frep 1 (af_x r) (fe (j_x a) * (c * c))%F /\ frep 1 (af_y r) (fe (j_y a) * (c * c * c))%F).
Proof.
  intros (X & Y & Z & H) C NC V. apply fok_frep in X, Y, Z. unfold af_set_gej_zinv. do 4 fs. apply wp_some.
  split; [|split; [reflexivity | split; assumption]].
  eapply aok_intro; [eassumption | eassumption |]. destruct (j_inf a); [exact H|].
  rewrite <- (V eq_refl). apply jpt_scale; [exact NC | exact H].
Qed.

(** comparison of the affine x coordinate *)
Lemma j_eq_x_var_ok a A x e X Y : jok f1 a A -> pt A = FAff X Y -> frep 8 x e ->
  wp (j_eq_x_var dbg a x) (fun b => b = feqb e X).
Proof.
  intros H P R. pose proof (jok_fin _ _ _ H ltac:(intros ->; discriminate P)) as I.
  apply jok_elim in H. destruct H as (x1 & y1 & z1 & X1 & Y1 & Z1 & H). rewrite I in H. unfold j_eq_x_var.
  apply wp_dassert; [rewrite I; reflexivity|]. do 3 fs.
  eapply wp_mono; [eapply f_eq_var_rep; [eassumption | eassumption | lia]|]. cbv beta. intros b ->.
  apply (proj1 (jpt_mul1 _ _ _ _)) in H. pose proof H as [NZ Q]. rewrite P in Q. injection Q as -> ->.
  destruct (feqb_spec (z1 * z1 * e)%F x1) as [EQ|NE]; destruct (feqb_spec e (x1 / (z1 * z1))%F) as [EQ'|NE']; try reflexivity; exfalso.
  - apply NE'. rewrite <- EQ. field. exact NZ.
  - apply NE. rewrite EQ'. field. exact NZ.
Qed.

Lemma j_rescale_ok u a A s e : jok u a A -> fcrep s e -> e <> f0 -> wp (j_rescale dbg a s) (fun r => jok u r A /\ j_inf r = j_inf a).
Proof.
  intros H S N. apply jok_elim in H. destruct H as (x & y & z & X & Y & Z & H). unfold j_rescale.
  eapply (wp_bind _ _ (fun _ => True)).
  { destruct dbg; [|exact Logic.I]. eapply wp_bind; [apply f_is_zero_rep; exact S|]. cbv beta. intros b ->.
    destruct (feqb_spec e f0); [contradiction|]. exact Logic.I. }
  intros _ _. do 5 fs. apply wp_some. split; [|reflexivity].
  eapply jok_intro; [eassumption | eassumption | eassumption | lia | lia | lia |]. destruct (j_inf a); [exact H|].
  apply (jpt_scale e) in H; [|exact N]. eapply jpt_ext; [exact H | ring | ring | ring].
Qed.

(** squareness of the affine y coordinate *)
Lemma j_has_quad_y_ok a A : jok f1 a A ->
  wp (j_has_quad_y_var dbg a) (fun b => b = true <-> exists X Y s, pt A = FAff X Y /\ (s * s = Y)%F).
Proof.
  intros H. apply jok_elim in H. destruct H as (x & y & z & X & Y & Z & H). unfold j_has_quad_y_var. destruct (j_inf a).
  - apply wp_some. subst A. split; [discriminate|]. intros (? & ? & ? & E0 & _). discriminate E0.
  - fs. eapply wp_mono; [eapply f_is_quad_var_rep; fr|]. cbv beta. intros b ->.
    apply (proj1 (jpt_mul1 _ _ _ _)) in H. destruct H as [NZ P]. split.
    + intros [s S]. exists (x / (z * z))%F, (y / (z * z * z))%F, (s / (z * z))%F. split; [exact P|].
      transitivity (s * s / (z * z * z * z))%F; [field; exact NZ|]. rewrite S. field. exact NZ.
    + intros (X' & Y' & s & P' & S). rewrite P in P'. injection P' as _ <-. exists (s * (z * z))%F.
      transitivity (s * s * (z * z * z * z))%F; [ring|]. rewrite S. field. exact NZ.
Qed.

(** storage *)
Definition asok (s : astorage) (A : E) : Prop :=
  match s with As x y => fs_ok x /\ fs_ok y /\ fsv x < p /\ fsv y < p /\ pt A = FAff (toF (fsv x)) (toF (fsv y)) end.
Lemma af_from_storage_ok s A : asok s A -> aok 1 f1 (af_from_storage s) A /\ af_inf (af_from_storage s) = false.
Proof.
  destruct s as [x y]. intros (HX & HY & LX & LY & P). split; [|reflexivity]. cbn [af_from_storage].
  pose proof (fcrep1 _ _ (f_from_storage_rep _ HX LX)) as RX. pose proof (fcrep1 _ _ (f_from_storage_rep _ HY LY)) as RY.
  eapply aok_intro; [exact RX | exact RY |]. apply jpt_affine, P.
Qed.
Lemma af_to_storage_ok k a A : aok k f1 a A -> k <= 31 -> af_inf a = false -> wp (af_to_storage dbg a) (fun s => asok s A).
Proof.
  intros H L I. apply aok_elim in H. destruct H as (x & y & X & Y & H). rewrite I in H. unfold af_to_storage.
  apply wp_dassert; [rewrite I; reflexivity|].
  eapply wp_bind; [apply f_normalize_rep; fr|]. cbv beta. intros x' X'.
  eapply wp_bind; [apply f_normalize_rep; fr|]. cbv beta. intros y' Y'.
  eapply wp_bind; [apply f_to_storage_rep; exact X'|]. cbv beta. intros sx [SX VX].
  eapply wp_bind; [apply f_to_storage_rep; exact Y'|]. cbv beta. intros sy [SY VY]. apply wp_some.
  cbn [asok]. rewrite VX, VY, !toF_val. pose proof (val_range x). pose proof (val_range y).
  repeat (split; [first [assumption | lia]|]). apply jpt_one, H.
Qed.
Lemma as_cmov_ok s t A B c : asok s A -> asok t B -> asok (as_cmov s t c) (if c : bool then B else A).
Proof. destruct s, t. unfold as_cmov. rewrite !fs_cmov_eq. destruct c; auto. Qed.
End B.
