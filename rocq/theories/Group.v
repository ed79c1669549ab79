(** The curve points as an abelian group, with integer multiples. *)
From Coq Require Import Znumtheory Eqdep_dec.
From Verif Require Import Word Spec Fp Curve GroupLaw.

Definition E : Type := {P : fpoint | onc P}.
Definition pt (A : E) : fpoint := proj1_sig A.
Definition mkE (P : fpoint) (H : onc P) : E := exist _ P H.
Lemma pt_on A : onc (pt A). Proof. exact (proj2_sig A). Qed.
Lemma pt_inj A B : pt A = pt B -> A = B.
Proof.
  destruct A as [P HP], B as [Q HQ]. cbn [pt proj1_sig]. intros ->. f_equal.
  apply UIP_dec. apply bool_dec.
Qed.
Definition e0 : E := mkE FInf eq_refl.
Definition eadd (A B : E) : E := mkE (ptadd (pt A) (pt B)) (ptadd_on _ _ (pt_on A) (pt_on B)).
Definition eopp (A : E) : E := mkE (fneg (pt A)) (fneg_on _ (pt_on A)).

Lemma eadd_assoc A B C : eadd A (eadd B C) = eadd (eadd A B) C.
Proof. apply pt_inj. cbn [pt proj1_sig eadd mkE]. apply ptadd_assoc; apply pt_on. Qed.
Lemma eadd_comm A B : eadd A B = eadd B A.
Proof. apply pt_inj. cbn [pt proj1_sig eadd mkE]. apply ptadd_comm; apply pt_on. Qed.
Lemma eadd_0_l A : eadd e0 A = A.
Proof. apply pt_inj. reflexivity. Qed.
Lemma eadd_0_r A : eadd A e0 = A.
Proof. rewrite eadd_comm. apply eadd_0_l. Qed.
Lemma eadd_opp_r A : eadd A (eopp A) = e0.
Proof. apply pt_inj. cbn [pt proj1_sig eadd mkE eopp]. apply ptadd_neg. Qed.
Lemma eadd_opp_l A : eadd (eopp A) A = e0.
Proof. rewrite eadd_comm. apply eadd_opp_r. Qed.
Lemma eadd_cancel_l A B C : eadd A B = eadd A C -> B = C.
Proof.
  intros H. rewrite <- (eadd_0_l B), <- (eadd_0_l C), <- (eadd_opp_l A), <- !eadd_assoc, H. reflexivity.
Qed.
Lemma eopp_unique A B : eadd A B = e0 -> B = eopp A.
Proof. intros H. apply (eadd_cancel_l A). rewrite H, eadd_opp_r. reflexivity. Qed.
Lemma eopp_add A B : eopp (eadd A B) = eadd (eopp A) (eopp B).
Proof.
  symmetry. apply eopp_unique. rewrite (eadd_comm (eopp A)), <- eadd_assoc, (eadd_assoc B), eadd_opp_r, eadd_0_l.
  apply eadd_opp_r.
Qed.
Lemma eopp_opp A : eopp (eopp A) = A.
Proof. symmetry. apply eopp_unique. apply eadd_opp_l. Qed.
Lemma eopp_0 : eopp e0 = e0. Proof. apply pt_inj. reflexivity. Qed.
Lemma eadd_4 A B C D : eadd (eadd A B) (eadd C D) = eadd (eadd A C) (eadd B D).
Proof. rewrite <- !eadd_assoc, (eadd_assoc B C D), (eadd_comm B C), <- eadd_assoc. reflexivity. Qed.

(** multiples *)
Fixpoint nml (k : nat) (A : E) : E := match k with O => e0 | S k' => eadd A (nml k' A) end.
Definition emul (k : Z) (A : E) : E :=
  if k <? 0 then eopp (nml (Z.to_nat (- k)) A) else nml (Z.to_nat k) A.
Lemma emul_nonneg k A : 0 <= k -> emul k A = nml (Z.to_nat k) A.
Proof. intros H. unfold emul. destruct (Z.ltb_spec k 0); [lia | reflexivity]. Qed.
Lemma emul_neg k A : 0 <= k -> emul (- k) A = eopp (nml (Z.to_nat k) A).
Proof.
  intros H. unfold emul. destruct (Z.ltb_spec (- k) 0).
  - rewrite Z.opp_involutive. reflexivity.
  - replace k with 0 by lia. cbn. rewrite eopp_0. reflexivity.
Qed.
Lemma emul_0 A : emul 0 A = e0. Proof. reflexivity. Qed.
Lemma emul_1 A : emul 1 A = A. Proof. cbn. apply eadd_0_r. Qed.
Lemma emul_succ k A : emul (k + 1) A = eadd A (emul k A).
Proof.
  destruct (Z_le_gt_dec 0 k) as [H|H].
  - rewrite !emul_nonneg by lia. replace (Z.to_nat (k + 1)) with (S (Z.to_nat k)) by lia. reflexivity.
  - replace (k + 1) with (- (- k - 1)) by lia. rewrite emul_neg by lia.
    replace k with (- (- k)) at 2 by lia. rewrite emul_neg by lia.
    replace (Z.to_nat (- k)) with (S (Z.to_nat (- k - 1))) by lia. cbn [nml].
    rewrite eopp_add, eadd_assoc, eadd_opp_r, eadd_0_l. reflexivity.
Qed.
Lemma emul_pred k A : emul (k - 1) A = eadd (eopp A) (emul k A).
Proof.
  pose proof (emul_succ (k - 1) A) as H. replace (k - 1 + 1) with k in H by lia.
  rewrite H, eadd_assoc, eadd_opp_l, eadd_0_l. reflexivity.
Qed.
Lemma emul_add a b A : emul (a + b) A = eadd (emul a A) (emul b A).
Proof.
  assert (P : forall a, 0 <= a -> forall b, emul (a + b) A = eadd (emul a A) (emul b A)).
  { intros c Hc. pattern c. revert c Hc. apply natlike_ind.
    - intros c. rewrite emul_0, eadd_0_l. f_equal; lia.
    - intros c Hc IH d. replace (Z.succ c + d) with (c + d + 1) by lia. unfold Z.succ.
      rewrite !emul_succ, IH, eadd_assoc. reflexivity. }
  assert (N : forall a, 0 <= a -> forall b, emul (- a + b) A = eadd (emul (- a) A) (emul b A)).
  { intros c Hc. pattern c. revert c Hc. apply natlike_ind.
    - intros c. change (- 0) with 0. rewrite emul_0, eadd_0_l. f_equal; lia.
    - intros c Hc IH d. replace (- Z.succ c + d) with (- c + d - 1) by lia. replace (- Z.succ c) with (- c - 1) by lia.
      rewrite !emul_pred, IH, eadd_assoc. reflexivity. }
  destruct (Z_le_gt_dec 0 a) as [H|H]; [apply P; lia|].
  replace a with (- (- a)) by lia. apply N. lia.
Qed.
Lemma emul_opp k A : emul (- k) A = eopp (emul k A).
Proof. apply eopp_unique. rewrite <- emul_add. replace (k + - k) with 0 by lia. apply emul_0. Qed.
Lemma emul_sub a b A : emul (a - b) A = eadd (emul a A) (eopp (emul b A)).
Proof. rewrite <- emul_opp, <- emul_add. f_equal. Qed.
Lemma emul_mul a b A : emul (a * b) A = emul a (emul b A).
Proof.
  assert (P : forall a, 0 <= a -> emul (a * b) A = emul a (emul b A)).
  { intros c Hc. pattern c. revert c Hc. apply natlike_ind.
    - rewrite Z.mul_0_l, !emul_0. reflexivity.
    - intros c Hc IH. replace (Z.succ c * b) with (b + c * b) by lia. unfold Z.succ. rewrite emul_succ, emul_add, IH. reflexivity. }
  destruct (Z_le_gt_dec 0 a) as [H|H]; [apply P; lia|].
  replace (a * b) with (- ((- a) * b)) by lia. rewrite emul_opp, P by lia. rewrite <- emul_opp. f_equal. lia.
Qed.
Lemma emul_eadd k A B : emul k (eadd A B) = eadd (emul k A) (emul k B).
Proof.
  assert (P : forall a, 0 <= a -> emul a (eadd A B) = eadd (emul a A) (emul a B)).
  { intros c Hc. pattern c. revert c Hc. apply natlike_ind.
    - rewrite !emul_0, eadd_0_l. reflexivity.
    - intros c Hc IH. unfold Z.succ. rewrite !emul_succ, IH. apply eadd_4. }
  destruct (Z_le_gt_dec 0 k) as [H|H]; [apply P; lia|].
  replace k with (- (- k)) by lia. rewrite !(emul_opp (- k)), P, eopp_add by lia. reflexivity.
Qed.
Lemma emul_e0 k : emul k e0 = e0.
Proof.
  assert (P : forall a, 0 <= a -> emul a e0 = e0).
  { intros c Hc. pattern c. revert c Hc. apply natlike_ind; [reflexivity|].
    intros c Hc IH. unfold Z.succ. rewrite emul_succ, IH. apply eadd_0_l. }
  destruct (Z_le_gt_dec 0 k) as [H|H]; [apply P; lia|].
  replace k with (- (- k)) by lia. rewrite emul_opp, P, eopp_0 by lia. reflexivity.
Qed.
Lemma emul_double k A : emul (2 * k) A = eadd (emul k A) (emul k A).
Proof. replace (2 * k) with (k + k) by lia. apply emul_add. Qed.

(** agreement with [Spec] *)
Definition sp (A : E) : point := spt (pt A).
Lemma sp_inj A B : sp A = sp B -> A = B.
Proof. intros H. apply pt_inj, spt_inj, H. Qed.
Lemma sp_on A : on_curve (sp A). Proof. apply onc_spec, pt_on. Qed.
Lemma sp_surj P : on_curve P -> exists A, sp A = P.
Proof. intros H. destruct (spt_surj P H) as (Q & O & <-). exists (mkE Q O). reflexivity. Qed.
Lemma sp_add A B : sp (eadd A B) = padd (sp A) (sp B). Proof. apply spt_add. Qed.
Lemma sp_opp A : sp (eopp A) = pneg (sp A). Proof. apply spt_neg. Qed.
Lemma sp_0 : sp e0 = Inf. Proof. reflexivity. Qed.
Lemma sp_nml k A : sp (nml k A) = nmul k (sp A).
Proof. induction k as [|k IH]; [reflexivity|]. cbn [nml nmul]. rewrite sp_add, IH. reflexivity. Qed.
Lemma sp_mul k A : 0 <= k -> sp (emul k A) = smul k (sp A).
Proof. intros H. rewrite emul_nonneg by exact H. apply sp_nml. Qed.

Definition Ecoords (x y : Z) (H : onc (FAff (toF x) (toF y))) : E := mkE _ H.
Lemma G_on : on_curve G.
Proof. split; [|split]; [split; [discriminate | reflexivity] | split; [discriminate | reflexivity] | vm_compute; reflexivity]. Qed.
Definition eG : E := mkE (FAff (toF gx) (toF gy)) (proj2 (onc_spec (FAff (toF gx) (toF gy))) ltac:(
  cbn [spt]; rewrite !val_toF, !Z.mod_small by (split; [discriminate | reflexivity]); exact G_on)).
Lemma sp_G : sp eG = G.
Proof. unfold sp, eG, pt, mkE. cbn [proj1_sig spt]. rewrite !val_toF, !Z.mod_small by (split; [discriminate | reflexivity]). reflexivity. Qed.
Lemma smul_G k : 0 <= k -> smul k G = sp (emul k eG).
Proof. intros H. rewrite sp_mul, sp_G by exact H. reflexivity. Qed.
