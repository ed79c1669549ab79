(** The in-place point operations for an arbitrary old value of the receiver, and the ratio of z
    coordinates they hand back. *)
From Coq Require Import Znumtheory Field.
From Verif Require Import Word MField MScalar MGroup MEcmult MInPlace WP FieldMul FieldNorm Spec Fp Bits FieldOps FieldCodec FieldStore Denote Curve Group Chain Order Jac JacOps Table Wnaf WnafC Ecmult Lift Gen Key Ctx ApiScalar ApiPub ApiGroup.

(** the receiver's coordinates with the flag set *)
Definition kept (self : jac) : jac := Ja (j_x self) (j_y self) (j_z self) true.
Definition coords_ok (j : jac) : Prop := fok 6 (j_x j) /\ fok 6 (j_y j) /\ fok 6 (j_z j).
Definition into {A} (self : jac) (c : bool) (o : option (jac * A)) : option (jac * A) :=
  match o with Some (r, z) => Some ((if c && j_inf r then kept self else r), z) | None => None end.

Ltac step := match goal with |- bind ?o _ = into _ _ (bind ?o _) => destruct o; [cbn [bind] | reflexivity] end.
Ltac skip_l := match goal with |- bind (Some ?x) ?f = ?R => change (f x = R); cbv beta end.
Lemma double_into dbg self a rzr : j_double_var_in_place dbg self a rzr = into self (j_inf a) (j_double_var dbg a rzr).
Proof.
  unfold j_double_var, j_double_var_in_place. destruct (j_inf a).
  - step. reflexivity.
  - repeat step. reflexivity.
Qed.
Lemma double_fin dbg self a rzr r z : j_inf a = false -> j_double_var_in_place dbg self a rzr = Some (r, z) -> j_inf r = false.
Proof.
  intros I. unfold j_double_var_in_place. rewrite I. repeat match goal with |- bind ?o _ = Some _ -> _ => destruct o; [cbn [bind] | discriminate] end.
  intros H. apply some_inv in H. injection H as <- _. reflexivity.
Qed.
Lemma same_x_into dbg self a i rzr : j_inf a = false ->
  j_add_same_x_into dbg (Ja (j_x self) (j_y self) (j_z self) false) a i rzr = into self true (j_add_same_x dbg a i rzr).
Proof.
  intros I. unfold j_add_same_x_into, j_add_same_x. step. destruct b.
  - rewrite double_into. change (j_double_var_in_place dbg j_default a rzr) with (j_double_var dbg a rzr).
    pose proof (double_fin dbg j_default a rzr) as D. change (j_double_var_in_place dbg j_default a rzr) with (j_double_var dbg a rzr) in D.
    destruct (j_double_var dbg a rzr) as [[r z]|]; [|reflexivity]. cbn [into]. rewrite I, (D r z I eq_refl). reflexivity.
  - step. reflexivity.
Qed.
Lemma tail_fin dbg u1 s1 i i2 h2 h3 z r : j_add_tail dbg u1 s1 i i2 h2 h3 z = Some r -> j_inf r = false.
Proof.
  unfold j_add_tail. repeat match goal with |- bind ?o _ = Some _ -> _ => destruct o; [cbn [bind] | discriminate] end.
  intros H. apply some_inv in H. subst r. reflexivity.
Qed.
Lemma add_var_into dbg self a b rzr :
  j_add_var_into dbg self a b rzr = into self (negb (j_inf a) && negb (j_inf b)) (j_add_var dbg a b rzr).
Proof.
  unfold j_add_var_into, j_add_var. destruct (j_inf a) eqn:IA.
  - step. reflexivity.
  - destruct (j_inf b) eqn:IB; [step; reflexivity|]. cbn [negb andb]. skip_l.
    do 13 step. destruct b0; [exact (same_x_into dbg self a _ rzr IA)|]. do 5 step.
    destruct (j_add_tail _ _ _ _ _ _ _ _) eqn:T; [|reflexivity]. cbn [bind into]. rewrite (tail_fin _ _ _ _ _ _ _ _ _ T). reflexivity.
Qed.

Lemma add_ge_var_into dbg self a b rzr :
  j_add_ge_var_into dbg self a b rzr = into self (negb (j_inf a) && negb (af_inf b)) (j_add_ge_var dbg a b rzr).
Proof.
  unfold j_add_ge_var_into, j_add_ge_var. destruct (j_inf a) eqn:IA.
  - step. step. reflexivity.
  - destruct (af_inf b) eqn:IB; [step; reflexivity|]. cbn [negb andb]. skip_l.
    do 11 step. destruct b0; [exact (same_x_into dbg self a _ rzr IA)|]. do 4 step.
    destruct (j_add_tail _ _ _ _ _ _ _ _) eqn:T; [|reflexivity]. cbn [bind into]. rewrite (tail_fin _ _ _ _ _ _ _ _ _ T). reflexivity.
Qed.
Definition into1 (self : jac) (c : bool) (o : option jac) : option jac :=
  match o with Some r => Some (if c && j_inf r then kept self else r) | None => None end.
Ltac step1 := match goal with |- bind ?o _ = into1 _ _ (bind ?o _) => destruct o; [cbn [bind] | reflexivity] end.
Lemma add_zinv_var_into dbg self a b zi :
  j_add_zinv_var_into dbg self a b zi = into1 self (negb (j_inf a) && negb (af_inf b)) (j_add_zinv_var dbg a b zi).
Proof.
  unfold j_add_zinv_var_into, j_add_zinv_var. destruct (af_inf b) eqn:IB.
  - cbn [into1 negb andb]. rewrite Bool.andb_false_r. reflexivity.
  - destruct (j_inf a) eqn:IA; [repeat step1; reflexivity|]. cbn [negb andb]. skip_l.
    do 12 step1. destruct b0.
    + rewrite (same_x_into dbg self a _ None IA). destruct (j_add_same_x dbg a _ None) as [[r z]|]; reflexivity.
    + do 4 step1. destruct (j_add_tail _ _ _ _ _ _ _ _) eqn:T; [|reflexivity]. cbn [bind into1]. rewrite (tail_fin _ _ _ _ _ _ _ _ _ T). reflexivity.
Qed.

(** The ratio of z coordinates: none is handed back when none is asked for; otherwise zero when the result is infinity. *)
Definition ratio_ok (rzr z : option field) (a r : jac) : Prop :=
  match rzr with
  | None => z = None
  | Some _ => exists f e, z = Some f /\ frep 6 f e /\ if j_inf r then e = f0 else fe (j_z r) = (fe (j_z a) * e)%F
  end.
Ltac feqz := match goal with K : ?b = feqb ?e f0 |- _ => subst b; destruct (feqb_spec e f0) as [?EQ|?NE] end.
Section R.
Variable dbg : bool.
Lemma double_none self a r z : j_double_var_in_place dbg self a None = Some (r, z) -> z = None.
Proof.
  unfold j_double_var_in_place. destruct (j_inf a); repeat match goal with |- bind ?o _ = Some _ -> _ => destruct o eqn:?; [cbn [bind] | discriminate] end;
  intros H; apply some_inv in H; injection H as _ <-; apply eq_sym, some_inv; assumption.
Qed.
Lemma double_ratio u self a A rzr : jok u a A -> j_inf a = false ->
  wp (j_double_var_in_place dbg self a rzr) (fun '(r, z) => ratio_ok rzr z a r).
Proof.
  intros H I. pose proof (j_double_var_ok dbg u self a A rzr H ltac:(congruence)) as W. pose proof (double_none self a) as N.
  destruct (j_double_var_in_place dbg self a rzr) as [[r z]|] eqn:E; [|exact W]. destruct W as (_ & J & K). change (ratio_ok rzr z a r).
  destruct rzr as [f0'|]; [|exact (N _ _ E)]. destruct (K I ltac:(discriminate)) as (f & e & -> & F & V).
  exists f, e. split; [reflexivity|]. split; [fr|]. rewrite J, I. exact V.
Qed.
Lemma same_x_ratio u a i A rzr ie : jok u a A -> j_inf a = false -> frep 6 i ie ->
  wp (j_add_same_x dbg a i rzr) (fun '(r, z) => ratio_ok rzr z a r).
Proof.
  intros H I R. unfold j_add_same_x. fs. subst. destruct (feqb ie f0).
  - exact (double_ratio u j_default a A rzr H I).
  - destruct rzr; cbn [ratio_ok].
    + eapply (wp_bind _ _ (fun z => exists f, z = Some f /\ fcrep f (toF 0))); [fs; apply wp_some; eexists; split; [reflexivity | eassumption]|].
      intros z (f' & -> & F). apply wp_some. exists f', (toF 0). split; [reflexivity|]. split; [fcr|]. reflexivity.
    + reflexivity.
Qed.
Lemma one_ratio (rzr : option field) a (K : j_inf a = false) :
  wp (let* rzr := (match rzr with Some _ => let* f := f_set_int dbg 1 in Some (Some f) | None => Some None end) in Some (a, rzr)) (fun '(r, z) => ratio_ok rzr z a r).
Proof.
  destruct rzr; [|reflexivity].
  eapply (wp_bind _ _ (fun z => exists f, z = Some f /\ fcrep f (toF 1))); [fs; apply wp_some; eexists; split; [reflexivity | eassumption]|].
  intros z (f' & -> & F). apply wp_some. exists f', (toF 1). split; [reflexivity|]. split; [fcr|]. rewrite K. change (toF 1) with f1. ring.
Qed.
Lemma add_var_ratio a b A B rzr : jok f1 a A -> jok f1 b B -> j_inf a = false ->
  wp (j_add_var dbg a b rzr) (fun '(r, z) => ratio_ok rzr z a r).
Proof.
  intros HA HB IA. unfold j_add_var. rewrite IA. pose proof HA as JA. apply jok_elim in HA, HB.
  destruct HA as (x1 & y1 & z1 & X1 & Y1 & Z1 & HA). destruct HB as (x2 & y2 & z2 & X2 & Y2 & Z2 & HB).
  destruct (j_inf b); [exact (one_ratio rzr a IA)|].
  do 13 fs. feqz; [eapply same_x_ratio; [exact JA | exact IA | fr]|].
  do 6 fs. eapply wp_bind; [eapply j_add_tail_ok; fr|]. cbv beta. intros r (x3 & y3 & -> & RX & RY). apply wp_some.
  destruct rzr; [|reflexivity]. do 2 eexists. split; [reflexivity|]. split; [fr|]. cbn [j_inf j_z]. rewrite (frep_fe _ _ _ Z1). eapply frep_fe. eassumption.
Qed.
Lemma add_ge_var_ratio u a b A B rzr : jok u a A -> aok 6 u b B -> j_inf a = false ->
  wp (j_add_ge_var dbg a b rzr) (fun '(r, z) => ratio_ok rzr z a r).
Proof.
  intros HA HB IA. unfold j_add_ge_var. rewrite IA. pose proof HA as JA. apply jok_elim in HA. apply aok_elim in HB.
  destruct HA as (x1 & y1 & z1 & X1 & Y1 & Z1 & HA). destruct HB as (x2 & y2 & X2 & Y2 & HB).
  destruct (af_inf b); [exact (one_ratio rzr a IA)|].
  do 11 fs. feqz; [eapply same_x_ratio; [exact JA | exact IA | fr]|].
  do 5 fs. eapply wp_bind; [eapply j_add_tail_ok; fr|]. cbv beta. intros r (x3 & y3 & -> & RX & RY). apply wp_some.
  destruct rzr; [|reflexivity]. do 2 eexists. split; [reflexivity|]. split; [fr|]. cbn [j_inf j_z]. rewrite (frep_fe _ _ _ Z1). eapply frep_fe. eassumption.
Qed.
End R.

(** The ratio in terms of integers modulo p. *)
Definition ratio_at (rzr z : option field) (a r : jac) (P : point) : Prop :=
  match rzr with
  | None => z = None
  | Some _ => exists f, z = Some f /\ fok 6 f /\
      match P with Inf => fv f mod p = 0 | Aff _ _ => fv (j_z r) mod p = (fv (j_z a) * fv f) mod p end
  end.
Lemma ratio_spec rzr z a r P : (j_inf r = true <-> P = Inf) -> ratio_ok rzr z a r -> ratio_at rzr z a r P.
Proof.
  intros I H. destruct rzr; [|exact H]. destruct H as (f' & e & -> & [F <-] & V). exists f'. split; [reflexivity|]. split; [exact F|].
  destruct P as [|x y].
  - rewrite (proj2 I eq_refl) in V. apply (proj1 (fe_eq f' f0)) in V. exact V.
  - destruct (j_inf r); [discriminate (proj1 I eq_refl)|]. apply (proj1 (fe_eq _ _)) in V. rewrite V.
    unfold fe. rewrite <- toF_mul. apply val_toF.
Qed.
Lemma kept_at self : coords_ok self -> jac_at (kept self) Inf.
Proof. intros (X & Y & Z). split; [exact X|]. split; [exact Y|]. split; [exact Z|]. split; [exact Logic.I | reflexivity]. Qed.
Lemma jac_inf_iff j P : jac_at j P -> (j_inf j = true <-> P = Inf).
Proof. intros (_ & _ & _ & _ & K). destruct P; [tauto|]. destruct K as [-> _]. split; discriminate. Qed.

Lemma set_int_one dbg : exists g, f_set_int dbg 1 = Some g /\ fv g = 1.
Proof. destruct dbg; eexists; split; [vm_compute; reflexivity | vm_compute; reflexivity | vm_compute; reflexivity | vm_compute; reflexivity]. Qed.

(** * C83 *)
(** What the receiver held matters in one case only: a doubled infinity. *)
Lemma C83_double_pf : forall dbg self a rzr P, jac_at a P -> exists r z,
  j_double_var_in_place dbg self a rzr = Some (r, z) /\
  (P <> Inf -> jac_at r (padd P P) /\ ratio_at rzr z a r (padd P P) /\ forall self', j_double_var_in_place dbg self' a rzr = Some (r, z)) /\
  (P = Inf -> r = Ja (j_x self) (j_y self) (j_z self) true /\
     match rzr with None => z = None | Some _ => exists f, z = Some f /\ fv f = 1 end).
Proof.
  intros dbg self a rzr P H. pose proof (jac_inf_iff _ _ H) as IP. destruct (jac_exists _ _ H) as (A & -> & HA).
  destruct (j_inf a) eqn:IA.
  - unfold j_double_var_in_place. rewrite IA. destruct rzr.
    + destruct (set_int_one dbg) as (g & -> & G1). cbn [bind].
      do 2 eexists. split; [reflexivity|]. split; [intros N; destruct N; tauto|]. intros _. split; [reflexivity|]. exists g. split; [reflexivity | exact G1].
    + cbn [bind]. do 2 eexists. split; [reflexivity|]. split; [intros N; destruct N; tauto|]. intros _. split; reflexivity.
  - destruct (wp_ex _ _ (j_double_var_ok dbg f1 self a A rzr HA ltac:(congruence))) as ([r z] & E & R & J & _).
    pose proof (double_ratio dbg f1 self a A rzr HA IA) as W. rewrite E in W. change (ratio_ok rzr z a r) in W.
    exists r, z. split; [exact E|]. assert (JR : jac_at r (padd (sp A) (sp A))) by (rewrite <- sp_add; apply jac_jok, R).
    split; [|intros Q; apply IP in Q; discriminate]. intros _. split; [exact JR|].
    split; [exact (ratio_spec _ _ _ _ _ (jac_inf_iff _ _ JR) W)|]. intros self'. rewrite <- E, !double_into, IA. destruct (j_double_var dbg a rzr) as [[r' z']|]; reflexivity.
Qed.
Lemma C83_double_example_pf : jac_at JG G /\ G <> Inf /\ jac_at j_set_infinity Inf.
Proof. split; [exact JG_at|]. split; [exact G_neq_inf | apply C49_double_example_pf]. Qed.

(** Sums: the receiver shows through only when two finite points cancel. *)
Definition sum_into (op : jac -> option (jac * option field)) (rzr : option field) (self a : jac) (P Q : point) : Prop :=
  exists r z, op self = Some (r, z) /\
    (P <> Inf -> Q <> Inf -> padd P Q = Inf -> r = Ja (j_x self) (j_y self) (j_z self) true) /\
    (P = Inf \/ Q = Inf \/ padd P Q <> Inf -> jac_at r (padd P Q) /\ forall self', op self' = Some (r, z)) /\
    (P <> Inf -> ratio_at rzr z a r (padd P Q)).
Lemma sum_into_of op rzr self a P Q (ia ib : bool) o : (forall s, op s = into s (negb ia && negb ib) o) ->
  (ia = true <-> P = Inf) -> (ib = true <-> Q = Inf) ->
  wp o (fun '(r, z) => jac_at r (padd P Q)) -> (P <> Inf -> wp o (fun '(r, z) => ratio_ok rzr z a r)) ->
  sum_into op rzr self a P Q.
Proof.
  intros E IA IB W R. destruct (wp_ex _ _ W) as ([r z] & -> & J). pose proof (jac_inf_iff _ _ J) as IR.
  unfold sum_into. do 2 eexists. split; [rewrite E; reflexivity|]. split; [|split].
  - intros NP NQ S. destruct ia; [destruct NP; tauto|]. destruct ib; [destruct NQ; tauto|]. rewrite (proj2 IR S). reflexivity.
  - intros C. assert (K : negb ia && negb ib && j_inf r = false).
    { destruct ia; [reflexivity|]. destruct ib; [reflexivity|]. cbn [negb andb]. destruct (j_inf r); [|reflexivity].
      destruct C as [C|[C|C]]; [apply IA in C; discriminate | apply IB in C; discriminate | destruct C; tauto]. }
    rewrite K. split; [exact J|]. intros s'. rewrite E. cbn [into]. rewrite K. reflexivity.
  - intros NP. specialize (R NP). change (ratio_ok rzr z a r) in R. apply ratio_spec.
    + destruct (negb ia && negb ib && j_inf r) eqn:K; [|exact IR]. apply andb_prop in K. destruct K as [_ K]. split; [intros _; tauto | reflexivity].
    + destruct rzr; [|exact R]. destruct R as (g & e & -> & F & V). exists g, e. split; [reflexivity|]. split; [exact F|].
      destruct (negb ia && negb ib && j_inf r) eqn:K; [|exact V]. apply andb_prop in K. destruct K as [_ K]. rewrite K in V. exact V.
Qed.
Lemma C83_add_var_pf : forall dbg self a b rzr P Q, jac_at a P -> jac_at b Q -> (rzr = None \/ P <> Inf) ->
  sum_into (fun s => j_add_var_into dbg s a b rzr) rzr self a P Q.
Proof.
  intros dbg self a b rzr P Q HP HQ RZ. pose proof (jac_inf_iff _ _ HP) as IP. pose proof (jac_inf_iff _ _ HQ) as IQ.
  apply (sum_into_of _ rzr self a P Q (j_inf a) (j_inf b) (j_add_var dbg a b rzr)); [intros s; apply add_var_into | exact IP | exact IQ | |];
  destruct (jac_exists _ _ HP) as (A & -> & HA); destruct (jac_exists _ _ HQ) as (B & -> & HB).
  - eapply wp_mono; [apply (j_add_var_ok dbg a b A B rzr HA HB)|].
    + destruct RZ as [->|N]; [left; reflexivity|]. right. destruct (j_inf a); [destruct N; tauto | reflexivity].
    + intros [r z] R. rewrite <- sp_add. apply jac_jok, R.
  - intros N. apply (add_var_ratio dbg a b A B rzr HA HB). destruct (j_inf a); [destruct N; tauto | reflexivity].
Qed.
Lemma C83_add_var_example_pf : exists b, jac_at JG G /\ jac_at b (pneg G) /\ G <> Inf /\ pneg G <> Inf /\ padd G (pneg G) = Inf.
Proof.
  destruct (C58_jacobian_neg_pf true JG G JG_at) as (j' & _ & J'). exists j'. split; [exact JG_at|]. split; [exact J'|]. split; [exact G_neq_inf|].
  split; [discriminate | apply padd_neg_r, G_on].
Qed.
Lemma C83_add_ge_var_pf : forall dbg self a b rzr P Q, jac_at a P -> key_at b Q -> (rzr = None \/ P <> Inf) ->
  sum_into (fun s => j_add_ge_var_into dbg s a b rzr) rzr self a P Q.
Proof.
  intros dbg self a b rzr P Q HP HQ RZ. pose proof (jac_inf_iff _ _ HP) as IP. pose proof (key_inf _ _ HQ) as IQ.
  apply (sum_into_of _ rzr self a P Q (j_inf a) (af_inf b) (j_add_ge_var dbg a b rzr)); [intros s; apply add_ge_var_into | exact IP | exact IQ | |];
  destruct (jac_exists _ _ HP) as (A & -> & HA); destruct (key_exists _ _ HQ) as (B & -> & HB).
  - eapply wp_mono; [apply (j_add_ge_var_ok dbg f1 a b A B rzr HA HB)|].
    + destruct RZ as [->|N]; [left; reflexivity|]. right. destruct (j_inf a); [destruct N; tauto | reflexivity].
    + intros [r z] [R _]. rewrite <- sp_add. apply jac_jok, R.
  - intros N. apply (add_ge_var_ratio dbg f1 a b A B rzr HA HB). destruct (j_inf a); [destruct N; tauto | reflexivity].
Qed.
Lemma C83_add_ge_var_example_pf : exists a, jac_at a (pneg G) /\ key_at AFFINE_G G /\ pneg G <> Inf /\ padd (pneg G) G = Inf.
Proof.
  destruct (C58_jacobian_neg_pf true JG G JG_at) as (j' & _ & J'). exists j'. split; [exact J'|]. split; [exact G_key|]. split; [discriminate|].
  vm_compute. reflexivity.
Qed.
Lemma C83_add_zinv_var_pf : forall dbg self a b zinv P Q, fok 6 zinv -> fv zinv mod p <> 0 -> jac_scaled (fv zinv) a P -> key_at b Q ->
  exists r, j_add_zinv_var_into dbg self a b zinv = Some r /\
    (P <> Inf -> Q <> Inf -> padd P Q = Inf -> r = Ja (j_x self) (j_y self) (j_z self) true) /\
    (P = Inf \/ Q = Inf \/ padd P Q <> Inf -> jac_scaled (fv zinv) r (padd P Q) /\ forall self', j_add_zinv_var_into dbg self' a b zinv = Some r).
Proof.
  intros dbg self a b zi P Q ZI NZ HP HQ. destruct (C49_add_zinv_var_pf dbg a b zi P Q ZI NZ HP HQ) as (r & E & R).
  assert (IS : forall j X, jac_scaled (fv zi) j X -> (j_inf j = true <-> X = Inf)).
  { intros j X (_ & _ & _ & _ & K). destruct X; [tauto|]. cbv zeta in K. destruct K as [-> _]. split; discriminate. }
  pose proof (IS _ _ HP) as IP. pose proof (key_inf _ _ HQ) as IQ. pose proof (IS _ _ R) as IR.
  eexists. rewrite add_zinv_var_into, E. split; [reflexivity|]. split.
  - intros NP NQ S. destruct (j_inf a); [destruct NP; tauto|]. destruct (af_inf b); [destruct NQ; tauto|]. rewrite (proj2 IR S). reflexivity.
  - intros C. assert (K : negb (j_inf a) && negb (af_inf b) && j_inf r = false).
    { destruct (j_inf a); [reflexivity|]. destruct (af_inf b); [reflexivity|]. cbn [negb andb]. destruct (j_inf r); [|reflexivity].
      destruct C as [C|[C|C]]; [apply IP in C; discriminate | apply IQ in C; discriminate | destruct C; tauto]. }
    rewrite K. split; [exact R|]. intros s'. rewrite add_zinv_var_into, E. cbn [into1]. rewrite K. reflexivity.
Qed.
Lemma C83_add_zinv_var_example_pf : exists a b zinv, fok 6 zinv /\ fv zinv mod p <> 0 /\ jac_scaled (fv zinv) a G /\ key_at b G.
Proof. exact C49_add_zinv_var_example_pf. Qed.
(** Coordinates of usual size: the receiver denotes the sum in every case. *)
Lemma C83_valid_pf : forall dbg self a b P Q, jac_at a P -> jac_at b Q -> fok 6 (j_x self) -> fok 6 (j_y self) -> fok 6 (j_z self) ->
  (exists r, j_double_var_in_place dbg self a None = Some (r, None) /\ jac_at r (padd P P)) /\
  (exists r, j_add_var_into dbg self a b None = Some (r, None) /\ jac_at r (padd P Q)).
Proof.
  intros dbg self a b P Q HP HQ X Y Z. assert (C : jac_at (Ja (j_x self) (j_y self) (j_z self) true) Inf) by exact (kept_at self (conj X (conj Y Z))).
  split.
  - destruct (C83_double_pf dbg self a None P HP) as (r & z & E & F & I). destruct P as [|x y].
    + destruct (I eq_refl) as [-> ->]. eexists. split; [exact E | exact C].
    + destruct (F ltac:(discriminate)) as (J & -> & _). exists r. split; [exact E | exact J].
  - destruct (C83_add_var_pf dbg self a b None P Q HP HQ (or_introl eq_refl)) as (r & z & E & I & F & R).
    assert (ZN : z = None).
    { destruct P as [|x y]; [|exact (R ltac:(discriminate))]. revert E. unfold j_add_var_into. pose proof HP as (_ & _ & _ & _ & ->). intros E.
      destruct (dassert dbg true); cbn [bind] in E; [|discriminate]. apply some_inv in E. injection E as _ <-. reflexivity. }
    subst z. exists r. split; [exact E|]. destruct P as [|x y]; [apply F; auto|]. destruct Q as [|x' y']; [apply F; auto|].
    destruct (padd (Aff x y) (Aff x' y')) eqn:S; [|apply F; right; right; discriminate].
    rewrite (I ltac:(discriminate) ltac:(discriminate) eq_refl). exact C.
Qed.
Lemma C83_valid_example_pf : jac_at JG G /\ fok 6 (j_x JG) /\ fok 6 (j_y JG) /\ fok 6 (j_z JG).
Proof. split; [exact JG_at|]. destruct JG_at as (X & Y & Z & _). auto. Qed.
(** A ratio asked for while the first operand is infinity: debug builds panic, release builds leave the caller's field as it was. *)
Lemma C83_ratio_infinite_pf : forall self a b c f, j_inf a = true ->
  j_add_var_into true self a b (Some f) = None /\ j_add_ge_var_into true self a c (Some f) = None /\
  j_add_var_into false self a b (Some f) = Some (b, Some f).
Proof. intros self a b c f I. unfold j_add_var_into, j_add_ge_var_into. rewrite I. repeat split. Qed.
Lemma C83_ratio_infinite_example_pf : j_inf j_set_infinity = true.
Proof. reflexivity. Qed.
(** The doubling documented for nonzero points only checks the receiver, not its argument. *)
Lemma C83_double_nonzero_pf : forall dbg self a rzr,
  (dbg = true -> j_inf self = true -> j_double_nonzero_into dbg self a rzr = None) /\
  (dbg = false \/ j_inf self = false -> j_double_nonzero_into dbg self a rzr = j_double_var_in_place dbg self a rzr).
Proof.
  intros dbg self a rzr. unfold j_double_nonzero_into. split.
  - intros -> ->. reflexivity.
  - intros [->| ->]; [reflexivity|]. destruct dbg; reflexivity.
Qed.
Lemma C83_double_nonzero_example_pf : j_inf j_set_infinity = true /\ j_inf JG = false.
Proof. split; reflexivity. Qed.
(** So it is false that it panics exactly for an infinite argument: it accepts one, and refuses a finite one when the receiver is infinite. *)
Lemma C83_double_nonzero_refuted_pf :
  (exists self a r, jac_at self G /\ jac_at a Inf /\ j_double_nonzero_into true self a None = Some (r, None) /\ jac_at r Inf) /\
  (exists self a, jac_at self Inf /\ jac_at a G /\ j_double_nonzero_into true self a None = None).
Proof.
  pose proof (proj2 C49_double_example_pf) as I0. split.
  - destruct (C83_valid_pf true JG j_set_infinity JG Inf G I0 JG_at) as [(r & E & R) _]; [apply JG_at | apply JG_at | apply JG_at|].
    exists JG, j_set_infinity, r. split; [exact JG_at|]. split; [exact I0|]. split; [|exact R].
    rewrite (proj2 (C83_double_nonzero_pf true JG j_set_infinity None)); [exact E | right; reflexivity].
  - exists j_set_infinity, JG. split; [exact I0|]. split; [exact JG_at|]. apply C83_double_nonzero_pf; reflexivity.
Qed.
