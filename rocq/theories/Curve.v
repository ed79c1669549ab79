(** The curve over the field [F]: chord-tangent addition, and its agreement with [Spec]. *)
From Coq Require Import Znumtheory Field.
From Verif Require Import Word Spec Fp.

Inductive fpoint := FInf | FAff (x y : F).

Definition b7 : F := toF 7.
Definition oncb (P : fpoint) : bool :=
  match P with FInf => true | FAff x y => feqb (y * y)%F (x * x * x + b7)%F end.
Definition onc (P : fpoint) : Prop := oncb P = true.

Definition fneg (P : fpoint) : fpoint := match P with FInf => FInf | FAff x y => FAff x (- y)%F end.
Definition fchord (l x1 y1 x2 : F) : fpoint :=
  let x3 := (l * l - x1 - x2)%F in FAff x3 (l * (x1 - x3) - y1)%F.
Definition ptadd (P Q : fpoint) : fpoint :=
  match P, Q with
  | FInf, _ => Q
  | _, FInf => P
  | FAff x1 y1, FAff x2 y2 =>
      if feqb x1 x2 then
        if feqb (y1 + y2)%F f0 then FInf
        else fchord (toF 3 * x1 * x1 / (toF 2 * y1))%F x1 y1 x2
      else fchord ((y2 - y1) / (x2 - x1))%F x1 y1 x2
  end.

Lemma onc_eq x y : onc (FAff x y) <-> (y * y = x * x * x + b7)%F.
Proof. unfold onc, oncb. destruct (feqb_spec (y * y)%F (x * x * x + b7)%F); split; congruence. Qed.

Ltac feq x y := destruct (feqb_spec x y).

Lemma neg_neq (a b : F) : (a + b <> 0 -> a = b -> toF 2 * a <> 0)%F.
Proof. intros H -> C. apply H. rewrite <- C. ring. Qed.

(** same x on the curve: equal or opposite *)
Lemma same_x x y1 y2 : onc (FAff x y1) -> onc (FAff x y2) -> y1 = y2 \/ (y1 + y2 = 0)%F.
Proof.
  rewrite !onc_eq. intros E1 E2. assert (H : ((y1 - y2) * (y1 + y2) = 0)%F) by (transitivity (y1 * y1 - y2 * y2)%F; [ring | rewrite E1, E2; ring]).
  apply fmul_eq0 in H. destruct H as [H|H]; [left; apply fsub_eq0, H | right; exact H].
Qed.

(** the tangent and chord cases share one equation *)
Lemma chord_T l x1 y1 x2 y2 :
  (y1 * y1 = x1 * x1 * x1 + b7)%F -> (y2 * y2 = x2 * x2 * x2 + b7)%F -> (l * (x2 - x1) = y2 - y1)%F ->
  (x1 <> x2 \/ (x1 = x2 /\ toF 2 * y1 * l = toF 3 * x1 * x1)%F) ->
  (toF 2 * y1 * l + l * l * (x2 - x1) = x2 * x2 + x1 * x2 + x1 * x1)%F.
Proof.
  intros E1 E2 L C.
  destruct C as [NE|[-> T]]; [|rewrite T; ring].
  assert (D : (x2 - x1 <> 0)%F) by (intros D; apply NE; symmetry; apply fsub_eq0; exact D).
  assert (Hb : b7 = (y1 * y1 - x1 * x1 * x1)%F) by (rewrite E1; ring).
  assert (Hy : y2 = (y1 + l * (x2 - x1))%F) by (rewrite L; ring). rewrite Hy, Hb in E2.
  assert (X : ((x2 - x1) * (toF 2 * y1 * l + l * l * (x2 - x1) - (x2 * x2 + x1 * x2 + x1 * x1)) = 0)%F).
  { transitivity ((y1 + l * (x2 - x1)) * (y1 + l * (x2 - x1)) - (x2 * x2 * x2 + (y1 * y1 - x1 * x1 * x1)))%F; [ring | rewrite E2; ring]. }
  apply fmul_eq0 in X. destruct X as [X|X]; [contradiction|]. apply fsub_eq0. exact X.
Qed.
Lemma chord_on l x1 y1 x2 : (y1 * y1 = x1 * x1 * x1 + b7)%F ->
  (toF 2 * y1 * l + l * l * (x2 - x1) = x2 * x2 + x1 * x2 + x1 * x1)%F ->
  onc (fchord l x1 y1 x2).
Proof.
  intros E1 T. unfold fchord. cbv zeta. rewrite onc_eq.
  set (x3 := (l * l - x1 - x2)%F).
  assert (Hb : b7 = (y1 * y1 - x1 * x1 * x1)%F) by (rewrite E1; ring).
  rewrite Hb. apply fsub_eq0.
  transitivity ((x3 - x1) * ((toF 2 * y1 * l + l * l * (x2 - x1)) - (x2 * x2 + x1 * x2 + x1 * x1)))%F; [unfold x3; ring | rewrite T; ring].
Qed.

(** the sum of two curve points is opposite points, or a chord with the right slope *)
Lemma ptadd_cases x1 y1 x2 y2 : onc (FAff x1 y1) -> onc (FAff x2 y2) ->
  (x1 = x2 /\ y2 = (- y1)%F /\ ptadd (FAff x1 y1) (FAff x2 y2) = FInf) \/
  (exists l, ptadd (FAff x1 y1) (FAff x2 y2) = fchord l x1 y1 x2 /\ (l * (x2 - x1) = y2 - y1)%F /\
     (toF 2 * y1 * l + l * l * (x2 - x1) = x2 * x2 + x1 * x2 + x1 * x1)%F /\
     (x1 <> x2 \/ (x1 = x2 /\ y1 = y2 /\ y1 <> f0))).
Proof.
  intros O1 O2. cbn [ptadd].
  pose proof (proj1 (onc_eq _ _) O1) as E1. pose proof (proj1 (onc_eq _ _) O2) as E2.
  feq x1 x2.
  - subst x2. feq (y1 + y2)%F f0.
    + left. repeat split. replace y2 with ((y1 + y2) - y1)%F by ring. rewrite e. ring.
    + right. destruct (same_x _ _ _ O1 O2) as [->|]; [|contradiction].
      assert (N2 : y2 <> f0) by (intros C; apply n; rewrite C; ring).
      exists (toF 3 * x1 * x1 / (toF 2 * y2))%F. split; [reflexivity|]. split; [ring|]. split.
      * field. split; [exact N2 | exact f2_neq0].
      * right. auto.
  - right. assert (D : (x2 - x1 <> 0)%F) by (intros D; apply n; symmetry; apply fsub_eq0; exact D).
    exists ((y2 - y1) / (x2 - x1))%F. split; [reflexivity|].
    assert (L : ((y2 - y1) / (x2 - x1) * (x2 - x1) = y2 - y1)%F) by (field; exact D).
    split; [exact L|]. split; [apply (chord_T _ _ _ _ y2); auto | left; exact n].
Qed.

Lemma ptadd_on P Q : onc P -> onc Q -> onc (ptadd P Q).
Proof.
  destruct P as [|x1 y1], Q as [|x2 y2]; intros O1 O2; try assumption.
  destruct (ptadd_cases _ _ _ _ O1 O2) as [(_ & _ & ->)|(l & -> & L & T & _)]; [reflexivity|].
  apply chord_on; [apply onc_eq; exact O1 | exact T].
Qed.

Lemma fneg_on P : onc P -> onc (fneg P).
Proof. destruct P as [|x y]; [trivial|]. cbn [fneg]. rewrite !onc_eq. intros E. rewrite <- E. ring. Qed.
Lemma fneg_neg P : fneg (fneg P) = P.
Proof. destruct P as [|x y]; [reflexivity|]. cbn [fneg]. f_equal. ring. Qed.
Lemma ptadd_comm P Q : onc P -> onc Q -> ptadd P Q = ptadd Q P.
Proof.
  destruct P as [|x1 y1], Q as [|x2 y2]; intros O1 O2; try reflexivity. cbn [ptadd].
  feq x1 x2; feq x2 x1; try congruence.
  - subst x2. feq (y1 + y2)%F f0; feq (y2 + y1)%F f0; try reflexivity.
    + exfalso. match goal with N : _ <> f0, E : _ = f0 |- _ => apply N; rewrite <- E; ring end.
    + exfalso. match goal with N : _ <> f0, E : _ = f0 |- _ => apply N; rewrite <- E; ring end.
    + destruct (same_x _ _ _ O1 O2) as [->|]; [reflexivity | contradiction].
  - assert (D : (x2 - x1 <> 0)%F) by (intros D; apply n; symmetry; apply fsub_eq0; exact D).
    assert (D' : (x1 - x2 <> 0)%F) by (intros D'; apply n; apply fsub_eq0; exact D').
    unfold fchord. cbv zeta. f_equal; field; split; assumption || (split; assumption).
Qed.
Lemma ptadd_inf_r P : ptadd P FInf = P. Proof. destruct P; reflexivity. Qed.
Lemma ptadd_neg P : ptadd P (fneg P) = FInf.
Proof.
  destruct P as [|x y]; [reflexivity|]. cbn [fneg ptadd]. feq x x; [|contradiction].
  feq (y + - y)%F f0; [reflexivity|]. exfalso. apply n. ring.
Qed.

(** * agreement with the integer specification *)
Definition spt (P : fpoint) : point := match P with FInf => Inf | FAff x y => Aff (val x) (val y) end.
Lemma spt_inj P Q : spt P = spt Q -> P = Q.
Proof.
  destruct P as [|x y], Q as [|u v]; try reflexivity; try discriminate. cbn [spt]. intros E. injection E as E1 E2.
  f_equal; apply val_inj; assumption.
Qed.
Lemma onc_spec P : onc P <-> on_curve (spt P).
Proof.
  destruct P as [|x y]; [split; intros; [exact I | reflexivity]|]. rewrite onc_eq. cbn [spt on_curve].
  pose proof (val_range x). pose proof (val_range y).
  assert (E : (y * y = x * x * x + b7)%F <-> (val y * val y) mod p = (val x * val x * val x + 7) mod p).
  { rewrite <- toF_eq. rewrite toF_add, !toF_mul, !toF_val. reflexivity. }
  rewrite E. tauto.
Qed.
Lemma spt_surj P : on_curve P -> exists Q, onc Q /\ spt Q = P.
Proof.
  destruct P as [|x y]; intros O; [exists FInf; split; reflexivity|].
  assert (E : spt (FAff (toF x) (toF y)) = Aff x y) by (cbn [spt]; rewrite !val_toF; destruct O as (X & Y & _); rewrite !Z.mod_small by assumption; reflexivity).
  exists (FAff (toF x) (toF y)). split; [|exact E]. apply onc_spec. rewrite E. exact O.
Qed.
Lemma spt_neg P : spt (fneg P) = pneg (spt P).
Proof. destruct P as [|x y]; reflexivity. Qed.
Lemma val_eqb x y : (val x =? val y) = feqb x y. Proof. reflexivity. Qed.
Lemma inv_mod_mod m x : 0 < m -> inv_mod m (x mod m) = inv_mod m x.
Proof. intros M. unfold inv_mod. rewrite Z.mod_mod by lia. reflexivity. Qed.
Lemma finv_toF x : finv (toF x) = toF (inv_mod p x).
Proof. unfold finv. rewrite val_toF, inv_mod_mod by apply p_pos. reflexivity. Qed.
Lemma spt_chord l x1 y1 x2 : spt (fchord (toF l) x1 y1 x2) = chord l (val x1) (val y1) (val x2).
Proof.
  unfold fchord, chord. cbv zeta. cbn [spt].
  assert (E : (toF l * toF l - x1 - x2)%F = toF (l * l - val x1 - val x2)).
  { rewrite !toF_sub, toF_mul, !toF_val. reflexivity. }
  rewrite E. apply f_equal2.
  - apply val_toF.
  - rewrite <- (val_toF (_ - val y1)). apply (f_equal val). rewrite (toF_sub _ (val y1)), (toF_mul l (val x1 - _)), (toF_sub (val x1) (_ mod p)), toF_mod, !toF_val. reflexivity.
Qed.
Lemma spt_add P Q : spt (ptadd P Q) = padd (spt P) (spt Q).
Proof.
  destruct P as [|x1 y1], Q as [|x2 y2]; try reflexivity. cbn [ptadd spt padd]. rewrite val_eqb.
  assert (E0 : ((val y1 + val y2) mod p =? 0) = feqb (y1 + y2)%F f0).
  { unfold feqb, fadd. rewrite val_toF. reflexivity. }
  rewrite E0. clear E0. feq x1 x2.
  - feq (y1 + y2)%F f0; [reflexivity|]. cbn [spt]. rewrite <- spt_chord. do 2 f_equal.
    rewrite toF_mod, !toF_mul, <- finv_toF, toF_mul, !toF_val. reflexivity.
  - cbn [spt]. rewrite <- spt_chord. do 2 f_equal. rewrite toF_mod, toF_mul, <- finv_toF, !toF_sub, !toF_val. reflexivity.
Qed.
