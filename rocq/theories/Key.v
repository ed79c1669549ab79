(** What a public key, an affine point and a Jacobian point denote: a point of the specification curve. *)
From Coq Require Import Znumtheory Field.
From Verif Require Import Word MField MGroup WP FieldMul FieldNorm Spec Fp FieldOps FieldStore Curve Group Chain Order Jac JacOps Lift.

(** The affine value [k] denotes [P]: coordinates well formed (what [Field::verify] checks) of magnitude at most [m],
    and their residues modulo p are the coordinates of a curve point. *)
Definition aff_at (m : Z) (k : affine) (P : point) : Prop :=
  fok m (af_x k) /\ fok m (af_y k) /\ on_curve P /\
  match P with
  | Inf => af_inf k = true
  | Aff x y => af_inf k = false /\ fv (af_x k) mod p = x /\ fv (af_y k) mod p = y
  end.
(** The public key [k] denotes [P]: magnitudes at most 6. *)
Definition key_at : affine -> point -> Prop := aff_at 6.
(** The Jacobian value [j] denotes [P]: (X, Y, Z) with X = x*Z^2 and Y = y*Z^3 modulo p. *)
Definition jac_at (j : jac) (P : point) : Prop :=
  fok 6 (j_x j) /\ fok 6 (j_y j) /\ fok 6 (j_z j) /\ on_curve P /\
  match P with
  | Inf => j_inf j = true
  | Aff x y => j_inf j = false /\ fv (j_z j) mod p <> 0 /\
      fv (j_x j) mod p = (x * fv (j_z j) ^ 2) mod p /\ fv (j_y j) mod p = (y * fv (j_z j) ^ 3) mod p
  end.

Lemma fe_eq f e : fe f = e <-> fv f mod p = val e.
Proof. unfold fe. split; [intros <-; symmetry; apply val_toF | intros H; apply val_inj; rewrite val_toF; exact H]. Qed.
Lemma aff_aok m k A : aff_at m k (sp A) <-> aok m f1 k A.
Proof.
  unfold aff_at, aok, sp. pose proof (sp_on A) as O. unfold sp in O. split.
  - intros (X & Y & _ & H). split; [exact X|]. split; [exact Y|]. destruct (pt A) as [|x y] eqn:P; cbn [spt] in H.
    + rewrite H. apply pt_inj. exact P.
    + destruct H as (-> & HX & HY). apply fe_eq in HX, HY. rewrite HX, HY. apply jpt_affine, P.
  - intros (X & Y & H). split; [exact X|]. split; [exact Y|]. split; [exact O|]. destruct (af_inf k).
    + subst A. reflexivity.
    + apply jpt_one in H. rewrite H. cbn [spt]. split; [reflexivity|]. split; apply fe_eq; reflexivity.
Qed.
Lemma key_aok k A : key_at k (sp A) <-> aok 6 f1 k A.
Proof. apply aff_aok. Qed.
Lemma aff_exists m k P : aff_at m k P -> exists A, P = sp A /\ aok m f1 k A.
Proof.
  intros H. pose proof H as (_ & _ & O & _). destruct (sp_surj _ O) as [A <-]. exists A. split; [reflexivity | apply aff_aok, H].
Qed.
Lemma key_exists k P : key_at k P -> exists A, P = sp A /\ aok 6 f1 k A.
Proof.
  intros H. pose proof H as (_ & _ & O & _). destruct (sp_surj _ O) as [A <-]. exists A. split; [reflexivity | apply key_aok, H].
Qed.
Lemma key_ne k A : key_at k (sp A) -> sp A <> Inf -> A <> e0.
Proof. intros _ H ->. apply H. reflexivity. Qed.
Lemma sp_inf A : sp A = Inf <-> A = e0.
Proof. rewrite <- sp_0. split; [apply sp_inj | intros ->; reflexivity]. Qed.
Lemma key_fun k P Q : key_at k P -> key_at k Q -> P = Q.
Proof.
  intros (_ & _ & _ & HP) (_ & _ & _ & HQ). destruct P as [|x y], Q as [|u v]; [reflexivity | | |].
  - destruct HQ as [HQ _]. congruence.
  - destruct HP as [HP _]. congruence.
  - destruct HP as (_ & <- & <-), HQ as (_ & <- & <-). reflexivity.
Qed.
Lemma key_inf k P : key_at k P -> (af_inf k = true <-> P = Inf).
Proof.
  intros (_ & _ & _ & H). destruct P as [|x y]; [tauto|]. destruct H as [-> _]. split; discriminate.
Qed.

Lemma jac_jok j A : jac_at j (sp A) <-> jok f1 j A.
Proof.
  unfold jac_at, jok, sp. pose proof (sp_on A) as O. unfold sp in O. split.
  - intros (X & Y & Z & _ & H). split; [exact X|]. split; [exact Y|]. split; [exact Z|]. destruct (pt A) as [|x y] eqn:P; cbn [spt] in H.
    + rewrite H. apply pt_inj. exact P.
    + destruct H as (-> & NZ & HX & HY). apply jpt_mul1.
      assert (NF : fe (j_z j) <> f0) by (intros E0; apply NZ; apply fe_eq in E0; exact E0).
      assert (EX : fe (j_x j) = (x * (fe (j_z j) * fe (j_z j)))%F).
      { unfold fe. rewrite <- (toF_val x), <- !toF_mul. apply toF_eq. rewrite HX. f_equal. ring. }
      assert (EY : fe (j_y j) = (y * (fe (j_z j) * fe (j_z j) * fe (j_z j)))%F).
      { unfold fe. rewrite <- (toF_val y), <- !toF_mul. apply toF_eq. rewrite HY. f_equal. ring. }
      split; [exact NF|]. rewrite P, EX, EY. f_equal; field; exact NF.
  - intros (X & Y & Z & H). split; [exact X|]. split; [exact Y|]. split; [exact Z|]. split; [exact O|]. destruct (j_inf j).
    + subst A. reflexivity.
    + apply (proj1 (jpt_mul1 _ _ _ _)) in H. destruct H as [NF P]. rewrite P. cbn [spt].
      set (x := (fe (j_x j) / _)%F). set (y := (fe (j_y j) / _)%F).
      split; [reflexivity|]. split; [intros E0; apply NF; apply fe_eq; exact E0|]. split.
      * apply toF_eq. rewrite toF_mul, toF_val, Z.pow_2_r, toF_mul. change (toF (fv ?f)) with (fe f). unfold x. field. exact NF.
      * apply toF_eq. replace (fv (j_z j) ^ 3) with (fv (j_z j) * fv (j_z j) * fv (j_z j)) by ring.
        rewrite toF_mul, toF_val, !toF_mul. change (toF (fv ?f)) with (fe f). unfold y. field. exact NF.
Qed.
Lemma jac_exists j P : jac_at j P -> exists A, P = sp A /\ jok f1 j A.
Proof.
  intros H. pose proof H as (_ & _ & _ & O & _). destruct (sp_surj _ O) as [A <-]. exists A. split; [reflexivity | apply jac_jok, H].
Qed.
