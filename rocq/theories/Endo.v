(** The curve endomorphism (x, y) -> (beta*x, y): multiplication by a cube root of unity modulo n.
    It decides when two points have the same y. *)
From Coq Require Import Znumtheory Field.
From Verif Require Import Word Spec Fp Curve Group Chain Order Jac.

Definition beta : F := toF 55594575648329892869085402983802832744385952214688224221778511981742606582254.
Lemma beta_rel : (beta * beta + beta + 1 = 0)%F.
Proof. unfold beta, f1, f0. rewrite <- toF_mul, <- !toF_add. apply toF_eq. vm_compute. reflexivity. Qed.
Lemma beta_cube : (beta * beta * beta = 1)%F.
Proof. pose proof beta_rel as R. transitivity ((beta - 1) * (beta * beta + beta + 1) + 1)%F; [ring|]. rewrite R. ring. Qed.
Lemma beta_neq0 : beta <> f0.
Proof. intros E0. pose proof beta_cube as C. rewrite E0 in C. apply f1_neq_f0. rewrite <- C. ring. Qed.
Lemma beta_neq1 : beta <> f1.
Proof. unfold beta, f1. intros E0. apply toF_eq in E0. vm_compute in E0. discriminate E0. Qed.

Definition fphi (P : fpoint) : fpoint := match P with FInf => FInf | FAff x y => FAff (beta * x)%F y end.
Lemma fphi_on P : onc P -> onc (fphi P).
Proof. destruct P as [|x y]; [auto|]. cbn [fphi]. rewrite !onc_eq. intros ->. transitivity ((beta * beta * beta) * (x * x * x) + b7)%F; [rewrite beta_cube; ring | ring]. Qed.
Definition phi (A : E) : E := mkE (fphi (pt A)) (fphi_on _ (pt_on A)).
Lemma phi_pt A : pt (phi A) = fphi (pt A). Proof. reflexivity. Qed.
Lemma phi_0 : phi e0 = e0. Proof. apply pt_inj. reflexivity. Qed.
Lemma phi_eq0 A : phi A = e0 -> A = e0.
Proof. intros H. apply pt_inj. apply (f_equal pt) in H. rewrite phi_pt in H. destruct (pt A); [reflexivity | discriminate H]. Qed.
Lemma fchord_phi l x1 y1 x2 : fchord (beta * beta * l)%F (beta * x1)%F y1 (beta * x2)%F = fphi (fchord l x1 y1 x2).
Proof.
  unfold fchord. cbn [fphi]. pose proof beta_cube as C.
  assert (B4 : (beta * beta * beta * beta = beta)%F) by (rewrite C; ring).
  assert (X : (beta * beta * l * (beta * beta * l) - beta * x1 - beta * x2 = beta * (l * l - x1 - x2))%F).
  { transitivity (beta * beta * beta * beta * (l * l) - beta * x1 - beta * x2)%F; [ring|]. rewrite B4. ring. }
  cbv zeta. rewrite X. f_equal.
  transitivity (beta * beta * beta * l * (x1 - (l * l - x1 - x2)) - y1)%F; [ring|]. rewrite C. ring.
Qed.
Lemma phi_add A B : phi (eadd A B) = eadd (phi A) (phi B).
Proof.
  destruct (pt A) as [|x1 y1] eqn:PA.
  { assert (A = e0) by (apply pt_inj; exact PA). subst A. rewrite phi_0, !eadd_0_l. reflexivity. }
  destruct (pt B) as [|x2 y2] eqn:PB.
  { assert (B = e0) by (apply pt_inj; exact PB). subst B. rewrite phi_0, !eadd_0_r. reflexivity. }
  assert (QA : pt (phi A) = FAff (beta * x1)%F y1) by (rewrite phi_pt, PA; reflexivity).
  assert (QB : pt (phi B) = FAff (beta * x2)%F y2) by (rewrite phi_pt, PB; reflexivity).
  pose proof (pt_on A) as OA. rewrite PA in OA. pose proof (pt_on B) as OB. rewrite PB in OB.
  apply pt_inj. rewrite phi_pt. destruct (F_dec x1 x2) as [->|NX].
  - destruct (same_x _ _ _ OA OB) as [->|S].
    + assert (A = B) by (apply pt_inj; congruence). subst B. pose proof (no_torsion2 _ _ OA) as NY.
      set (l := (toF 3 * x2 * x2 / (toF 2 * y2))%F).
      assert (HL : (l * (toF 2 * y2) = toF 3 * x2 * x2)%F) by (unfold l; field; split; [exact NY | exact f2_neq0]).
      rewrite (eadd_tangent x2 y2 l A PA HL), (eadd_tangent (beta * x2)%F y2 (beta * beta * l)%F (phi A) QA); [symmetry; apply fchord_phi|].
      transitivity (beta * beta * (l * (toF 2 * y2)))%F; [ring|]. rewrite HL. ring.
    + rewrite (eadd_opposite x2 y1 y2 A B PA PB S), (eadd_opposite (beta * x2)%F y1 y2 _ _ QA QB S). reflexivity.
  - set (l := ((y2 - y1) / (x2 - x1))%F).
    assert (ND : (x2 - x1 <> 0)%F) by (intros E0; apply NX; symmetry; exact (proj1 (fsub_eq0 x2 x1) E0)).
    assert (HL : (l * (x2 - x1) = y2 - y1)%F) by (unfold l; field; exact ND).
    rewrite (eadd_slope x1 y1 x2 y2 l A B PA PB NX HL), (eadd_slope (beta * x1)%F y1 (beta * x2)%F y2 (beta * beta * l)%F _ _ QA QB); [symmetry; apply fchord_phi| |].
    + intros E0. apply NX. assert (Q : (beta * (x1 - x2) = 0)%F) by (transitivity (beta * x1 - beta * x2)%F; [ring | rewrite E0; ring]).
      apply fmul_eq0 in Q. destruct Q as [Q|Q]; [elim (beta_neq0 Q) | exact (proj1 (fsub_eq0 x1 x2) Q)].
    + transitivity (beta * beta * beta * (l * (x2 - x1)))%F; [ring|]. rewrite HL, beta_cube. ring.
Qed.
Lemma phi_opp A : phi (eopp A) = eopp (phi A).
Proof. apply eopp_unique. rewrite <- phi_add, eadd_opp_r. apply phi_0. Qed.
Lemma phi_nml k A : phi (nml k A) = nml k (phi A).
Proof. induction k as [|k IH]; cbn [nml]; [apply phi_0|]. rewrite phi_add, IH. reflexivity. Qed.
Lemma phi_mul k A : phi (emul k A) = emul k (phi A).
Proof.
  destruct (Z.le_ge_cases 0 k) as [K|K].
  - rewrite !emul_nonneg by lia. apply phi_nml.
  - replace k with (- (- k)) by lia. rewrite !emul_neg by lia. rewrite phi_opp, phi_nml. reflexivity.
Qed.
(** the three points with a given y add up to zero *)
Lemma phi_rel : eadd (eadd eG (phi eG)) (phi (phi eG)) = e0.
Proof.
  assert (PA : pt eG = FAff (toF gx) (toF gy)) by reflexivity. assert (QA : pt (phi eG) = FAff (beta * toF gx)%F (toF gy)) by reflexivity.
  assert (RA : pt (phi (phi eG)) = FAff (beta * (beta * toF gx))%F (toF gy)) by reflexivity.
  assert (NG : toF gx <> f0) by (intros E0; apply toF_eq in E0; vm_compute in E0; discriminate E0).
  assert (NX : toF gx <> (beta * toF gx)%F).
  { intros E0. assert (Q : ((beta - 1) * toF gx = 0)%F) by (transitivity (beta * toF gx - toF gx)%F; [ring | rewrite <- E0; ring]).
    apply fmul_eq0 in Q. destruct Q as [Q|Q]; [apply beta_neq1; exact (proj1 (fsub_eq0 beta f1) Q) | exact (NG Q)]. }
  pose proof (eadd_slope _ _ _ _ f0 eG (phi eG) PA QA NX ltac:(ring)) as S. unfold fchord in S. cbv zeta in S.
  eapply (eadd_opposite (beta * (beta * toF gx))%F); [rewrite S; f_equal | exact RA | ring].
  transitivity (beta * beta * toF gx - (beta * beta + beta + 1) * toF gx)%F; [ring|]. rewrite beta_rel. ring.
Qed.
(** lambda: a fixed root of x^2 + x + 1 modulo n *)
Definition lambda : Z := 37718080363155996902926221483475020450927657555482586988616620542887997980018.
Lemma lambda_rel : (lambda * lambda + lambda + 1) mod n = 0. Proof. vm_compute. reflexivity. Qed.
Lemma phi_mu : exists mu, (forall A, phi A = emul mu A) /\ (mu * mu + mu + 1) mod n = 0 /\ (mu mod n = lambda \/ mu mod n = n - 1 - lambda).
Proof.
  destruct (cyclic (phi eG)) as [mu HM]. exists mu.
  assert (H : forall A, phi A = emul mu A).
  { intros A. destruct (cyclic A) as [k ->]. rewrite phi_mul, HM, <- !emul_mul. f_equal. lia. }
  split; [exact H|].
  pose proof phi_rel as R. rewrite (H (phi eG)), !HM, <- emul_mul in R. rewrite <- (emul_1 eG) in R at 1. rewrite <- !emul_add in R. apply emul_G_0 in R. split; [replace (mu * mu + mu + 1) with (1 + mu + mu * mu) by ring; exact R|].
  pose proof lambda_rel as L. pose proof prime_n as PN. apply Z.mod_divide in R; [|pose proof n_pos; lia]. apply Z.mod_divide in L; [|pose proof n_pos; lia].
  assert (D : (n | (mu - lambda) * (mu + lambda + 1))).
  { replace ((mu - lambda) * (mu + lambda + 1)) with ((1 + mu + mu * mu) - (lambda * lambda + lambda + 1)) by ring. apply Z.divide_sub_r; assumption. }
  apply prime_mult in D; [|exact PN]. assert (LR : 0 <= lambda < n - 1) by (vm_compute; split; [discriminate | reflexivity]). destruct D as [[q D]|[q D]].
  - left. replace mu with (lambda + q * n) by lia. rewrite Z.mod_add by lia. apply Z.mod_small. lia.
  - right. replace mu with (n - 1 - lambda + (q - 1) * n) by lia. rewrite Z.mod_add by lia. apply Z.mod_small. lia.
Qed.

(** Two points have opposite y exactly when one is minus the other times a cube root of unity. *)
Lemma opposite_y A B x1 y1 x2 y2 : pt A = FAff x1 y1 -> pt B = FAff x2 y2 ->
  ((y1 + y2 = 0)%F <-> A = eopp B \/ A = eopp (phi B) \/ A = eopp (phi (phi B))).
Proof.
  intros PA PB. split.
  - intros Y. pose proof (pt_on A) as OA. rewrite PA in OA. pose proof (pt_on B) as OB. rewrite PB in OB. apply onc_eq in OA, OB.
    assert (EY : y1 = (- y2)%F) by (exact (proj1 (fadd_eq0 y1 y2) Y)).
    assert (C : ((x1 - x2) * ((x1 - beta * x2) * (x1 - beta * beta * x2)) = 0)%F).
    { assert (C3 : (x1 * x1 * x1 = x2 * x2 * x2)%F).
      { transitivity (y1 * y1 - b7)%F; [rewrite OA; ring|]. rewrite EY. transitivity (y2 * y2 - b7)%F; [ring | rewrite OB; ring]. }
      transitivity (x1 * x1 * x1 - (beta * beta + beta + 1) * (x1 * x1 * x2) + (beta * beta * beta + beta * beta + beta) * (x1 * x2 * x2) - beta * beta * beta * (x2 * x2 * x2))%F; [ring|].
      rewrite beta_cube, beta_rel, C3. assert (B2 : (1 + beta * beta + beta = 0)%F) by (rewrite <- beta_rel; ring). rewrite B2. ring. }
    apply fmul_eq0 in C. destruct C as [C|C]; [|apply fmul_eq0 in C; destruct C as [C|C]].
    + left. apply pt_inj. change (pt (eopp B)) with (fneg (pt B)). rewrite PA, PB. cbn [fneg]. rewrite EY. f_equal. exact (proj1 (fsub_eq0 _ _) C).
    + right; left. apply pt_inj. change (pt (eopp (phi B))) with (fneg (fphi (pt B))). rewrite PA, PB. cbn [fneg fphi]. rewrite EY. f_equal. exact (proj1 (fsub_eq0 _ _) C).
    + right; right. apply pt_inj. change (pt (eopp (phi (phi B)))) with (fneg (fphi (fphi (pt B)))). rewrite PA, PB. cbn [fneg fphi]. rewrite EY. f_equal. transitivity (beta * beta * x2)%F; [exact (proj1 (fsub_eq0 _ _) C) | ring].
  - intros [-> | [-> | ->]].
    + change (pt (eopp B)) with (fneg (pt B)) in PA. rewrite PB in PA. cbn [fneg] in PA. injection PA as _ <-. ring.
    + change (pt (eopp (phi B))) with (fneg (fphi (pt B))) in PA. rewrite PB in PA. cbn [fneg fphi] in PA. injection PA as _ <-. ring.
    + change (pt (eopp (phi (phi B)))) with (fneg (fphi (fphi (pt B)))) in PA. rewrite PB in PA. cbn [fneg fphi] in PA. injection PA as _ <-. ring.
Qed.
(** for multiples of one point: a condition on the factors *)
Definition opp_y (a b : Z) : Prop := (a + b) mod n = 0 \/ (a + lambda * b) mod n = 0 \/ (a + (n - 1 - lambda) * b) mod n = 0.
Lemma opp_y_mul A a b x1 y1 x2 y2 : A <> e0 -> pt (emul a A) = FAff x1 y1 -> pt (emul b A) = FAff x2 y2 ->
  ((y1 + y2 = 0)%F <-> opp_y a b).
Proof.
  intros N PA PB. rewrite (opposite_y _ _ _ _ _ _ PA PB). destruct phi_mu as (mu & HM & RR & HR). rewrite !HM, <- !emul_mul, <- !emul_opp.
  assert (Q : forall c, emul a A = emul (- c) A <-> (a + c) mod n = 0).
  { intros c. split.
    - intros E0. apply (emul_inj _ _ _ N) in E0. replace (a + c) with (a - - c) by ring. rewrite Zminus_mod, E0, Z.sub_diag. apply Z.mod_0_l. pose proof n_pos. lia.
    - intros E0. replace a with ((a + c) + - c) by ring. rewrite emul_add, <- (emul_mod (a + c)), E0, emul_0, eadd_0_l. reflexivity. }
  rewrite !Q. unfold opp_y.
  assert (M2 : (mu * (mu * b)) mod n = ((- 1 - mu) * b) mod n).
  { replace (mu * (mu * b)) with ((- 1 - mu) * b + (mu * mu + mu + 1) * b) by ring. rewrite Z.add_mod, (Z.mul_mod (mu * mu + mu + 1)), RR, Z.mul_0_l, Z.mod_0_l, Z.add_0_r, Z.mod_mod by (pose proof n_pos; lia). reflexivity. }
  assert (E2 : (a + mu * (mu * b)) mod n = (a + (- 1 - mu) * b) mod n) by (rewrite <- Z.add_mod_idemp_r, M2, Z.add_mod_idemp_r by (pose proof n_pos; lia); reflexivity).
  rewrite E2.
  assert (W : forall u v, u mod n = v mod n -> (a + u * b) mod n = (a + v * b) mod n).
  { intros u v U. rewrite <- Z.add_mod_idemp_r, Z.mul_mod, U, <- Z.mul_mod, Z.add_mod_idemp_r by (pose proof n_pos; lia). reflexivity. }
  assert (NP := n_pos). destruct HR as [HR|HR].
  - rewrite (W mu lambda) by (rewrite HR; vm_compute; reflexivity). rewrite (W (- 1 - mu) (n - 1 - lambda)); [tauto|].
    rewrite Zminus_mod, HR. vm_compute. reflexivity.
  - rewrite (W mu (n - 1 - lambda)) by (rewrite HR; vm_compute; reflexivity). rewrite (W (- 1 - mu) lambda); [tauto|].
    rewrite Zminus_mod, HR. vm_compute. reflexivity.
Qed.
