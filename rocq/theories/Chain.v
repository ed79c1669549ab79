(** Certified chains of point additions over plain integers: each step carries the slope and the three
    quotients by p, so that checking needs only integer multiplications. *)
From Coq Require Import Znumtheory Field.
From Verif Require Import Word Spec Fermat Fp Curve Group CubeCert.

Lemma m7 : toF (-7) = (- toF 7)%F. Proof. exact (toF_opp 7). Qed.
(** no point of order two: -7 is not a cube *)
Lemma cube_nonres (x : F) : (x * x * x + b7 <> 0)%F.
Proof.
  intros H. assert (X3 : (x * x * x = toF (-7))%F).
  { replace (x * x * x)%F with ((x * x * x + b7) - b7)%F by ring. rewrite H. unfold b7. rewrite m7. ring. }
  assert (NZ : x <> f0).
  { intros ->. assert (Z0 : toF (-7) = f0) by (rewrite <- X3; ring). rewrite m7 in Z0. apply (proj1 (fopp_eq0 _)) in Z0. revert Z0. apply toF_neq0. rewrite p_eq. lia. }
  assert (E3 : fexp x 3 = toF (-7)).
  { rewrite <- X3. change 3 with (2 + 1). rewrite fexp_add, fexp_2, fexp_1 by lia. ring. }
  set (e := 38597363079105398474523661669562635951089994888546854679819194669302944890554).
  assert (PE : p - 1 = 3 * e) by (rewrite p_eq; reflexivity).
  pose proof (fexp_fermat x NZ) as FE. rewrite PE, fexp_mul, E3 in FE by (lia || discriminate).
  assert (C : fexp (toF (-7)) e = toF ((-7) ^ e)) by (apply fexp_toF; discriminate).
  rewrite C in FE. unfold f1 in FE. apply toF_eq in FE. rewrite p_eq in FE. unfold e in FE. rewrite cube_cert in FE. discriminate FE.
Qed.
Lemma no_torsion2 x y : onc (FAff x y) -> y <> f0.
Proof. rewrite onc_eq. intros H ->. apply (cube_nonres x). rewrite <- H. ring. Qed.

Definition wit := (Z * Z * Z * Z)%type.
Definition zrel (P : Z * Z) (A : E) : Prop := pt A = FAff (toF (fst P)) (toF (snd P)).
(** q * p *)
Definition qp (q : Z) : Z := Z.shiftl q 256 - 4294968273 * q.
Lemma qp_eq q : qp q = q * p.
Proof. unfold qp. rewrite Z.shiftl_mul_pow2 by discriminate. rewrite p_eq. change (2 ^ 256) with 115792089237316195423570985008687907853269984665640564039457584007913129639936. lia. Qed.
Definition dstep (P : Z * Z) (w : wit) : option (Z * Z) :=
  let '(x, y) := P in let '(l, q1, q2, q3) := w in
  if 2 * y * l - 3 * x * x =? qp q1 then
    let x3 := l * l - (x + x) - qp q2 in Some (x3, l * (x - x3) - y - qp q3)
  else None.
Definition inr (x : Z) : bool := (0 <=? x) && (x <? 115792089237316195423570985008687907853269984665640564039457584007908834671663).
Lemma inr_ok x : inr x = true -> 0 <= x < p.
Proof. unfold inr. rewrite andb_true_iff, Z.leb_le, Z.ltb_lt, p_eq. auto. Qed.
Definition astep (P Q : Z * Z) (w : wit) : option (Z * Z) :=
  let '(x1, y1) := P in let '(x2, y2) := Q in let '(l, q1, q2, q3) := w in
  if (l * (x2 - x1) - (y2 - y1) =? qp q1) && inr x1 && inr x2 && negb (x1 =? x2) then
    let x3 := l * l - x1 - x2 - qp q2 in Some (x3, l * (x1 - x3) - y1 - qp q3)
  else None.

Lemma toF_qp q : toF (q * p) = f0.
Proof. rewrite toF_mul, toF_p. ring. Qed.
Lemma dstep_ok P w Q A : zrel P A -> dstep P w = Some Q -> zrel Q (eadd A A).
Proof.
  destruct P as [x y], w as [[[l q1] q2] q3]. unfold zrel, dstep. cbn [fst snd]. intros H.
  destruct (Z.eqb_spec (2 * y * l - 3 * x * x) (qp q1)) as [EQ|]; [|discriminate]. rewrite !qp_eq in *. intros [= <-]. cbn [fst snd].
  pose proof (pt_on A) as OA. rewrite H in OA. pose proof (no_torsion2 _ _ OA) as NY.
  change (pt (eadd A A)) with (ptadd (pt A) (pt A)). rewrite H. cbn [ptadd]. feq (toF x) (toF x); [|contradiction].
  feq (toF y + toF y)%F f0.
  { exfalso. apply (fmul_neq0 _ _ f2_neq0 NY). rewrite <- e0. ring. }
  apply (f_equal toF) in EQ. rewrite toF_qp in EQ.
  assert (SL : (toF 3 * toF x * toF x / (toF 2 * toF y))%F = toF l).
  { rewrite toF_sub, !toF_mul in EQ. apply (proj1 (fsub_eq0 _ _)) in EQ. rewrite <- EQ. field. split; [exact NY | exact f2_neq0]. }
  rewrite SL. unfold fchord. cbv zeta.
  assert (X3 : (toF l * toF l - (toF x + toF x) - toF q2 * 0 = toF l * toF l - toF x - toF x)%F) by ring.
  rewrite ?toF_sub, ?toF_mul, ?toF_add, ?toF_p, ?toF_sub, ?toF_mul, ?toF_add, ?toF_p, X3. f_equal. ring.
Qed.
Lemma astep_ok P Q w R A B : zrel P A -> zrel Q B -> astep P Q w = Some R -> zrel R (eadd A B).
Proof.
  destruct P as [x1 y1], Q as [x2 y2], w as [[[l q1] q2] q3]. unfold zrel, astep. cbn [fst snd]. intros HA HB.
  destruct (_ && _ && _ && _) eqn:C; [|discriminate]. rewrite !qp_eq in *. intros [= <-]. cbn [fst snd].
  apply andb_prop in C as [C NE]. apply andb_prop in C as [C R2]. apply andb_prop in C as [EQ R1].
  apply Z.eqb_eq in EQ. apply inr_ok in R1, R2.
  apply negb_true_iff, Z.eqb_neq in NE.
  change (pt (eadd A B)) with (ptadd (pt A) (pt B)). rewrite HA, HB. cbn [ptadd].
  assert (NX : toF x1 <> toF x2). { intros K. apply toF_eq in K. rewrite !Z.mod_small in K by lia. contradiction. }
  feq (toF x1) (toF x2); [contradiction|].
  apply (f_equal toF) in EQ. rewrite toF_qp in EQ.
  assert (D : (toF x2 - toF x1 <> 0)%F) by (intros D; apply NX; symmetry; apply fsub_eq0; exact D).
  assert (SL : ((toF y2 - toF y1) / (toF x2 - toF x1))%F = toF l).
  { rewrite toF_sub, toF_mul, !toF_sub in EQ. apply (proj1 (fsub_eq0 _ _)) in EQ. rewrite <- EQ. field. exact D. }
  rewrite SL. unfold fchord. cbv zeta.
  assert (X3 : (toF l * toF l - toF x1 - toF x2 - toF q2 * 0 = toF l * toF l - toF x1 - toF x2)%F) by ring.
  rewrite ?toF_sub, ?toF_mul, ?toF_add, ?toF_p, ?toF_sub, ?toF_mul, ?toF_add, ?toF_p, X3. f_equal. ring.
Qed.

(** accumulate signed multiples of the running double *)
Definition zneg (P : Z * Z) : Z * Z := (fst P, - snd P).
Lemma zneg_ok P A : zrel P A -> zrel (zneg P) (eopp A).
Proof. unfold zrel, zneg. cbn [fst snd]. intros H. change (pt (eopp A)) with (fneg (pt A)). rewrite H, toF_opp. reflexivity. Qed.
Inductive acc_op := Skip | Take | Untake | Plus (w : wit) | Minus (w : wit).
Definition acc_step (D : Z * Z) (A : option (Z * Z)) (o : acc_op) : option (option (Z * Z)) :=
  match o, A with
  | Skip, _ => Some A
  | Take, None => Some (Some D)
  | Untake, None => Some (Some (zneg D))
  | Plus w, Some a => match astep a D w with Some r => Some (Some r) | None => None end
  | Minus w, Some a => match astep a (zneg D) w with Some r => Some (Some r) | None => None end
  | _, _ => None
  end.
Definition acc_val (k a : Z) (o : acc_op) : Z :=
  match o with Skip => a | Take | Plus _ => a + k | Untake | Minus _ => a - k end.
Definition orel (P : option (Z * Z)) (A : E) : Prop := match P with None => A = e0 | Some P => zrel P A end.
Lemma acc_step_ok k a D A o R : zrel D (emul k eG) -> orel A (emul a eG) -> acc_step D A o = Some R ->
  orel R (emul (acc_val k a o) eG).
Proof.
  intros HD HA. destruct o as [| | |w|w], A as [P|]; cbn [acc_step acc_val]; try discriminate; cbn [orel] in *.
  - intros [= <-]. exact HA.
  - intros [= <-]. exact HA.
  - intros [= <-]. cbn [orel]. rewrite emul_add, HA, eadd_0_l. exact HD.
  - intros [= <-]. cbn [orel]. rewrite emul_sub, HA, eadd_0_l. apply zneg_ok. exact HD.
  - destruct (astep P D w) eqn:S; [|discriminate]. intros [= <-]. cbn [orel]. rewrite emul_add. exact (astep_ok _ _ _ _ _ _ HA HD S).
  - destruct (astep P (zneg D) w) eqn:S; [|discriminate]. intros [= <-]. cbn [orel]. rewrite emul_sub. exact (astep_ok _ _ _ _ _ _ HA (zneg_ok _ _ HD) S).
Qed.
(** one entry: use the current double in both accumulators, then double *)
Definition entry := (acc_op * acc_op * wit)%type.
Fixpoint run (D : Z * Z) (A B : option (Z * Z)) (l : list entry) : option ((Z * Z) * option (Z * Z) * option (Z * Z)) :=
  match l with
  | [] => Some (D, A, B)
  | (oa, ob, w) :: t =>
      match acc_step D A oa with
      | None => None
      | Some A' =>
          match acc_step D B ob with
          | None => None
          | Some B' => match dstep D w with None => None | Some D' => run D' A' B' t end
          end
      end
  end.
Fixpoint run_val (k a b : Z) (l : list entry) : Z * Z * Z :=
  match l with [] => (k, a, b) | (oa, ob, _) :: t => run_val (2 * k) (acc_val k a oa) (acc_val k b ob) t end.
Lemma run_ok l : forall D A B k a b D' A' B' k' a' b', zrel D (emul k eG) -> orel A (emul a eG) -> orel B (emul b eG) ->
  run D A B l = Some (D', A', B') -> run_val k a b l = (k', a', b') ->
  zrel D' (emul k' eG) /\ orel A' (emul a' eG) /\ orel B' (emul b' eG).
Proof.
  induction l as [|[[oa ob] w] t IH]; intros * HD HA HB; cbn [run run_val].
  - intros [= <- <- <-] [= <- <- <-]. auto.
  - destruct (acc_step D A oa) eqn:SA; [|discriminate]. destruct (acc_step D B ob) eqn:SB; [|discriminate].
    destruct (dstep D w) eqn:SD; [|discriminate]. intros R V.
    apply (IH _ _ _ _ _ _ _ _ _ _ _ _) with (4 := R) (5 := V).
    + rewrite emul_double. exact (dstep_ok _ _ _ _ HD SD).
    + exact (acc_step_ok _ _ _ _ _ _ HD HA SA).
    + exact (acc_step_ok _ _ _ _ _ _ HD HB SB).
Qed.
