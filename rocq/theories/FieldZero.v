(** Correctness of [normalizes_to_zero] and [normalizes_to_zero_var]. *)
From Verif Require Import Word WP MField FieldMul FieldNorm.

Definition lor10 n0 n1 n2 n3 n4 n5 n6 n7 n8 n9 :=
  Z.lor (Z.lor (Z.lor (Z.lor (Z.lor (Z.lor (Z.lor (Z.lor (Z.lor n0 n1) n2) n3) n4) n5) n6) n7) n8) n9.

Lemma lor10_zero n0 n1 n2 n3 n4 n5 n6 n7 n8 n9 :
  lim26 n0 n1 n2 n3 n4 n5 n6 n7 n8 -> 0 <= n9 ->
  lor10 n0 n1 n2 n3 n4 n5 n6 n7 n8 n9 = 0 <-> val10 n0 n1 n2 n3 n4 n5 n6 n7 n8 n9 = 0.
Proof.
  intros L H9. unfold lor10. rewrite !Z.lor_eq_0_iff. unfold lim26, val10 in *. lia.
Qed.

Definition land10x n0 n1 n2 n3 n4 n5 n6 n7 n8 n9 :=
  Z.land (Z.land (Z.land (Z.land (Z.land (Z.land (Z.land (Z.land (Z.land (Z.lxor n0 976) (Z.lxor n1 64))
    n2) n3) n4) n5) n6) n7) n8) (Z.lxor n9 62914560).

Lemma land10x_full n0 n1 n2 n3 n4 n5 n6 n7 n8 n9 :
  lim26 n0 n1 n2 n3 n4 n5 n6 n7 n8 -> 0 <= n9 <= 67108863 ->
  land10x n0 n1 n2 n3 n4 n5 n6 n7 n8 n9 = 67108863 <-> val10 n0 n1 n2 n3 n4 n5 n6 n7 n8 n9 = fp.
Proof.
  intros L H9. unfold land10x. split.
  - intros H.
    apply land26_full2 in H; destruct H as [H K9].
    apply land26_step in H; destruct H as [H K8].
    apply land26_step in H; destruct H as [H K7]. apply land26_step in H; destruct H as [H K6].
    apply land26_step in H; destruct H as [H K5]. apply land26_step in H; destruct H as [H K4].
    apply land26_step in H; destruct H as [H K3]. apply land26_step in H; destruct H as [H K2].
    apply land26_step in H; destruct H as [K0 K1].
    unfold lim26 in L.
    apply lxor26_full in K0; [|lia|lia]. apply lxor26_full in K1; [|lia|lia].
    apply lxor26_full in K9; [|lia|lia].
    apply land26_full in K2, K3, K4, K5, K6, K7, K8; try lia.
    subst. reflexivity.
  - intros H.
    assert (n9 = 4194303 /\ n8 = 67108863 /\ n7 = 67108863 /\ n6 = 67108863 /\ n5 = 67108863 /\
            n4 = 67108863 /\ n3 = 67108863 /\ n2 = 67108863 /\ n1 = 67108799 /\ n0 = 67107887)
      as (-> & -> & -> & -> & -> & -> & -> & -> & -> & ->).
    { unfold lim26, val10, fp in *. lia. }
    reflexivity.
Qed.

Lemma zero_flag n0 n1 n2 n3 n4 n5 n6 n7 n8 n9 v x :
  lim26 n0 n1 n2 n3 n4 n5 n6 n7 n8 -> 0 <= n9 <= 4194400 ->
  val10 n0 n1 n2 n3 n4 n5 n6 n7 n8 n9 = v - x * fp ->
  ((lor10 n0 n1 n2 n3 n4 n5 n6 n7 n8 n9 =? 0) || (land10x n0 n1 n2 n3 n4 n5 n6 n7 n8 n9 =? 67108863))
  = (v mod fp =? 0).
Proof.
  intros L H9 E.
  apply eq_true_iff_eq. rewrite orb_true_iff, !Z.eqb_eq.
  rewrite lor10_zero, land10x_full by (assumption || lia).
  set (V := val10 _ _ _ _ _ _ _ _ _ _) in *.
  assert (0 <= V < 2 * fp) by (unfold V, val10, fp, lim26 in *; lia).
  assert (v mod fp = V mod fp) as ->.
  { replace v with (V + x * fp) by lia. apply Z_mod_plus_full. }
  split.
  - intros [-> | ->]; reflexivity.
  - intros H0. apply Z.mod_divide in H0; [|discriminate]. destruct H0 as [q Hq].
    assert (q = 0 \/ q = 1) as [-> | ->] by (unfold fp in *; lia); lia.
Qed.

Lemma f_normalizes_to_zero_ok dbg f : lim31 f ->
  wp (f_normalizes_to_zero dbg f) (fun b => b = (fv f mod fp =? 0)).
Proof.
  destruct f as [n0 n1 n2 n3 n4 n5 n6 n7 n8 n9 mg nrm].
  unfold lim31; intros (?&?&?&?&?&?&?&?&?&?).
  unfold f_normalizes_to_zero; unfold_words.
  repeat nstep.
  apply wp_some. cbn [fv].
  match goal with |- context [Z.lxor ?t9 62914560] => rename t9 into T9 end.
  match goal with |- ((Z.lor (Z.lor (Z.lor (Z.lor (Z.lor (Z.lor (Z.lor (Z.lor (Z.lor ?z0 ?t1) ?t2) ?t3) ?t4) ?t5) ?t6) ?t7) ?t8) T9 =? 0) || _) = _ =>
    assert (V1 : val10 z0 t1 t2 t3 t4 t5 t6 t7 t8 T9 = val10 n0 n1 n2 n3 n4 n5 n6 n7 n8 n9 - x * fp);
    [clear_bounds; unfold val10, fp; subst; ring|];
    rewrite <- (zero_flag z0 t1 t2 t3 t4 t5 t6 t7 t8 T9 _ _ ltac:(unfold lim26; tauto) ltac:(lia) V1)
  end.
  unfold lor10, land10x. 
  match goal with E : ?a = ?b |- context [Z.lxor ?b 976] => rewrite <- E end || idtac.
  subst x6. reflexivity.
Qed.

Lemma f_normalizes_to_zero_var_ok dbg f : lim31 f ->
  wp (f_normalizes_to_zero_var dbg f) (fun b => b = (fv f mod fp =? 0)).
Proof.
  destruct f as [n0 n1 n2 n3 n4 n5 n6 n7 n8 n9 mg nrm].
  unfold lim31; intros (?&?&?&?&?&?&?&?&?&?).
  unfold f_normalizes_to_zero_var; unfold_words.
  repeat nstep.
  (* x = n9 >> 22, x0 = x * 977, x1 = n0 + x0, x2 = x1 & mask *)
  destruct (negb (x2 =? 0) && negb (Z.lxor x2 976 =? 67108863)) eqn:EX.
  - apply wp_some. cbn [fv]. symmetry. apply Z.eqb_neq. intros HD.
    rewrite andb_true_iff, !negb_true_iff, !Z.eqb_neq in EX. destruct EX as [X0 X1].
    apply Z.mod_divide in HD; [|discriminate]. destruct HD as [q Hq].
    assert (V : 0 <= val10 n0 n1 n2 n3 n4 n5 n6 n7 n8 n9 - x * fp < 2 * fp).
    { clear - H H0 H1 H2 H3 H4 H5 H6 H7 H8 E El Bl Bh. subst x. subst l. unfold val10, fp in *. lia. }
    assert (Hl : exists w, val10 n0 n1 n2 n3 n4 n5 n6 n7 n8 n9 - x * fp = x2 + 2 ^ 26 * w).
    { exists (h0 + (n1 + 64 * x) + n2 * 2 ^ 26 + n3 * 2 ^ 52 + n4 * 2 ^ 78 + n5 * 2 ^ 104 + n6 * 2 ^ 130
              + n7 * 2 ^ 156 + n8 * 2 ^ 182 + l * 2 ^ 208).
      clear - E E0 E1 E2 El El0. unfold val10, fp. subst. ring. }
    destruct Hl as [w Hw]. rewrite Hq in *.
    assert (q - x = 0 \/ q - x = 1) as [Q | Q] by (unfold fp in *; lia).
    + assert (x2 = 0) by (unfold fp in *; lia). contradiction.
    + assert (HX : x2 = 67107887) by (unfold fp in *; lia). rewrite HX in X1. apply X1. reflexivity.
  - repeat nstep.
    apply wp_some. cbn [fv].
    match goal with |- context [Z.lxor ?t9 62914560] => rename t9 into T9 end.
    match goal with |- ((Z.lor (Z.lor (Z.lor (Z.lor (Z.lor (Z.lor (Z.lor (Z.lor (Z.lor ?z0 ?t1) ?t2) ?t3) ?t4) ?t5) ?t6) ?t7) ?t8) T9 =? 0) || _) = _ =>
      assert (V1 : val10 z0 t1 t2 t3 t4 t5 t6 t7 t8 T9 = val10 n0 n1 n2 n3 n4 n5 n6 n7 n8 n9 - x * fp);
      [clear_bounds; clear EX; unfold val10, fp; subst; ring|];
      rewrite <- (zero_flag z0 t1 t2 t3 t4 t5 t6 t7 t8 T9 _ _ ltac:(unfold lim26; tauto) ltac:(lia) V1)
    end.
    reflexivity.
Qed.
