(** Checking that N + i*Q is not the point at infinity for i = 0, ..., 15. *)
From Coq Require Import Znumtheory Field.
From Verif Require Import Word Spec Fp Curve Group Chain Order.

Lemma FAff_inj a b c d : FAff a b = FAff c d -> a = c. Proof. intros [= H _]. exact H. Qed.
Definition rowcert := list wit.
Definition distx (P Q : Z * Z) : bool := inr (fst P) && inr (fst Q) && negb (fst P =? fst Q).
Lemma distx_ok P Q A B : distx P Q = true -> zrel P A -> zrel Q B -> A <> B /\ eadd A B <> e0.
Proof.
  unfold distx. rewrite !andb_true_iff, negb_true_iff, Z.eqb_neq. intros [[RP RQ] NE] HA HB. apply inr_ok in RP, RQ.
  assert (NX : toF (fst P) <> toF (fst Q)). { intros K. apply toF_eq in K. rewrite !Z.mod_small in K by lia. contradiction. }
  unfold zrel in *. split.
  - intros ->. rewrite HA in HB. apply FAff_inj in HB. contradiction.
  - intros K. apply eopp_unique in K. apply (f_equal pt) in K. change (pt (eopp A)) with (fneg (pt A)) in K. rewrite HA, HB in K.
    cbn [fneg] in K. apply FAff_inj in K. congruence.
Qed.
Notation "'do' x <- a ; b" := (match a with Some x => b | None => None end) (at level 200, x name, a at level 100, b at level 200).
Definition row_chk (N Q : Z * Z) (c : rowcert) : option (Z * Z) :=
  match c with
  | [w2; w3; w4; w5; w6; w8; w7; wm] =>
      do q2 <- dstep Q w2; do q3 <- astep q2 Q w3; do q4 <- dstep q2 w4; do q5 <- astep q4 Q w5;
      do q6 <- dstep q3 w6; do q8 <- dstep q4 w8; do q7 <- astep q8 (zneg Q) w7; do m <- astep N q8 wm;
      if forallb (distx m) [Q; q2; q3; q4; q5; q6; q7] then Some q8 else None
  | _ => None
  end.
Fixpoint rows_chk (N Q : Z * Z) (l : list rowcert) : option (Z * Z) :=
  match l with [] => Some Q | c :: t => do q8 <- row_chk N Q c; rows_chk N q8 t end.
Fixpoint dbls (P : Z * Z) (l : list wit) : option (Z * Z) :=
  match l with [] => Some P | w :: t => do q <- dstep P w; dbls q t end.

Lemma dbls_ok l : forall P R A, zrel P A -> dbls P l = Some R -> zrel R (emul (2 ^ Z.of_nat (length l)) A).
Proof.
  induction l as [|w l IH]; intros P R A H E0.
  - injection E0 as <-. cbn [length Z.of_nat]. rewrite Z.pow_0_r, emul_1. exact H.
  - cbn [dbls] in E0. destruct (dstep P w) as [q|] eqn:S; [|discriminate]. apply (dstep_ok _ _ _ _ H) in S.
    specialize (IH _ _ _ S E0). cbn [length]. rewrite Nat2Z.inj_succ, Z.pow_succ_r, Z.mul_comm, emul_mul by lia.
    replace (emul 2 A) with (eadd A A); [exact IH|]. rewrite <- (emul_1 A) at 1 2. rewrite <- emul_add. reflexivity.
Qed.

Lemma emul_two A : eadd A A = emul 2 A.
Proof. rewrite <- (emul_1 A) at 1 2. rewrite <- emul_add. reflexivity. Qed.
Lemma row_chk_ok N Q c R A B : zrel N A -> zrel Q B -> row_chk N Q c = Some R ->
  zrel R (emul 8 B) /\ forall i, 0 <= i < 16 -> eadd A (emul i B) <> e0.
Proof.
  intros HA HB. unfold row_chk.
  destruct c as [|w2 [|w3 [|w4 [|w5 [|w6 [|w8 [|w7 [|wm [|]]]]]]]]]; try discriminate.
  destruct (dstep Q w2) as [q2|] eqn:E2; [|discriminate]. apply (dstep_ok _ _ _ _ HB) in E2. rewrite emul_two in E2.
  destruct (astep q2 Q w3) as [q3|] eqn:E3; [|discriminate]. apply (astep_ok _ _ _ _ _ _ E2 HB) in E3.
  rewrite <- (emul_1 B) in E3 at 2. rewrite <- emul_add in E3. change (2 + 1) with 3 in E3.
  destruct (dstep q2 w4) as [q4|] eqn:E4; [|discriminate]. apply (dstep_ok _ _ _ _ E2) in E4. rewrite <- emul_add in E4. change (2 + 2) with 4 in E4.
  destruct (astep q4 Q w5) as [q5|] eqn:E5; [|discriminate]. apply (astep_ok _ _ _ _ _ _ E4 HB) in E5.
  rewrite <- (emul_1 B) in E5 at 2. rewrite <- emul_add in E5. change (4 + 1) with 5 in E5.
  destruct (dstep q3 w6) as [q6|] eqn:E6; [|discriminate]. apply (dstep_ok _ _ _ _ E3) in E6. rewrite <- emul_add in E6. change (3 + 3) with 6 in E6.
  destruct (dstep q4 w8) as [q8|] eqn:E8; [|discriminate]. apply (dstep_ok _ _ _ _ E4) in E8. rewrite <- emul_add in E8. change (4 + 4) with 8 in E8.
  destruct (astep q8 (zneg Q) w7) as [q7|] eqn:E7; [|discriminate]. apply (astep_ok _ _ _ _ _ _ E8 (zneg_ok _ _ HB)) in E7.
  rewrite <- (emul_1 B) in E7 at 2. rewrite <- emul_sub in E7. change (8 - 1) with 7 in E7.
  destruct (astep N q8 wm) as [m|] eqn:EM; [|discriminate]. apply (astep_ok _ _ _ _ _ _ HA E8) in EM.
  destruct (forallb _ _) eqn:F; [|discriminate]. intros [= <-]. split; [exact E8|].
  cbn [forallb] in F. rewrite !andb_true_iff in F. destruct F as (D1 & D2 & D3 & D4 & D5 & D6 & D7 & _).
  rewrite <- (emul_1 B) in HB. pose proof (emul_1 B) as E1.
  assert (ALL : forall k, 1 <= k <= 7 -> eadd A (emul 8 B) <> emul k B /\ eadd (eadd A (emul 8 B)) (emul k B) <> e0).
  { intros k Hk. assert (k = 1 \/ k = 2 \/ k = 3 \/ k = 4 \/ k = 5 \/ k = 6 \/ k = 7) as C by lia.
    destruct C as [->|[->|[->|[->|[->|[->| ->]]]]]]; (eapply distx_ok; [|exact EM | eassumption]; assumption). }
  intros i Hi E0. destruct (Z.eq_dec i 0) as [->|NZ].
  { rewrite emul_0, eadd_0_r in E0. subst A. discriminate HA. }
  destruct (Z.lt_total i 8) as [L|[->|G]].
  - destruct (ALL (8 - i) ltac:(lia)) as [K _]. apply K. rewrite emul_sub.
    apply eopp_unique in E0. rewrite E0, eopp_opp. apply eadd_comm.
  - rewrite E0 in EM. discriminate EM.
  - destruct (ALL (i - 8) ltac:(lia)) as [_ K]. apply K. rewrite <- eadd_assoc, <- emul_add. replace (8 + (i - 8)) with i by lia. exact E0.
Qed.
Lemma rows_chk_ok N A l : zrel N A -> forall Q R B, zrel Q B -> rows_chk N Q l = Some R ->
  zrel R (emul (8 ^ Z.of_nat (length l)) B) /\
  forall j i, 0 <= j < Z.of_nat (length l) -> 0 <= i < 16 -> eadd A (emul (i * 8 ^ j) B) <> e0.
Proof.
  intros HA. induction l as [|c l IH]; intros Q R B HB E0.
  - injection E0 as <-. cbn [length Z.of_nat]. rewrite Z.pow_0_r, emul_1. split; [exact HB | intros; lia].
  - cbn [rows_chk] in E0. destruct (row_chk N Q c) as [q8|] eqn:C; [|discriminate].
    destruct (row_chk_ok _ _ _ _ _ _ HA HB C) as [H8 HI]. destruct (IH _ _ _ H8 E0) as [HR HJ].
    cbn [length]. rewrite Nat2Z.inj_succ. split.
    + rewrite Z.pow_succ_r, Z.mul_comm, emul_mul by lia. exact HR.
    + intros j i Hj Hi. destruct (Z.eq_dec j 0) as [->|NZ].
      * rewrite Z.pow_0_r, Z.mul_1_r. apply HI, Hi.
      * specialize (HJ (j - 1) i ltac:(lia) Hi). rewrite <- emul_mul, <- Z.mul_assoc, (Z.mul_comm _ 8), <- Z.pow_succ_r in HJ by lia.
        replace (Z.succ (j - 1)) with j in HJ by lia. exact HJ.
Qed.
