(** G has order n, and every curve point is a multiple of G. *)
From Coq Require Import Znumtheory Lia Field.
From Verif Require Import Word Spec Fp Curve Group Chain OrderCert.

Lemma zrel_G : zrel (gx, gy) (emul 1 eG).
Proof. rewrite emul_1. reflexivity. Qed.
Lemma order_facts : emul n eG = e0 /\ zrel (blind_x, blind_y) (emul blind_val eG).
Proof.
  pose proof (run_ok order_chain (gx, gy) None None 1 0 0 _ _ _ _ _ _ zrel_G eq_refl eq_refl order_run order_val) as (HD & HA & HB).
  split; [|exact HB]. cbn [orel] in HA. unfold zrel in HD, HA. rewrite <- HA in HD. apply pt_inj in HD.
  set (k := 2 ^ 256) in *. replace n with (k - (k - n)) by lia. rewrite emul_sub. unfold n at 1. rewrite <- HD. apply eadd_opp_r.
Qed.
Lemma emul_n_G : emul n eG = e0. Proof. exact (proj1 order_facts). Qed.
Lemma eG_neq0 : eG <> e0.
Proof. intros H. apply (f_equal pt) in H. discriminate H. Qed.

Lemma emul_mod_G k : emul (k mod n) eG = emul k eG.
Proof.
  rewrite (Z.div_mod k n) at 2 by (intros H; discriminate H). rewrite (Z.mul_comm n), emul_add, (emul_mul _ n), emul_n_G, emul_e0, eadd_0_l.
  reflexivity.
Qed.
Lemma emul_G_0 k : emul k eG = e0 <-> k mod n = 0.
Proof.
  split.
  - intros H. destruct (Z.eq_dec (k mod n) 0) as [|NZ]; [assumption|exfalso].
    assert (RP : rel_prime n k).
    { apply prime_rel_prime; [exact prime_n|].
      intros D. apply NZ. apply Z.mod_divide in D; [exact D | intros K; discriminate K]. }
    apply rel_prime_bezout in RP. destruct RP as [u v B].
    apply eG_neq0. rewrite <- (emul_1 eG), <- B, emul_add, !emul_mul, emul_n_G, H, !emul_e0. apply eadd_0_l.
  - intros H. rewrite <- emul_mod_G, H. reflexivity.
Qed.
Lemma emul_G_eq a b : emul a eG = emul b eG <-> a mod n = b mod n.
Proof.
  split.
  - intros H. assert (D : (a - b) mod n = 0) by (apply emul_G_0; rewrite emul_sub, H; apply eadd_opp_r).
    apply Z.mod_divide in D; [|intros K; discriminate K]. destruct D as [c Hc].
    replace a with (b + c * n) by lia. apply Z_mod_plus_full.
  - intros H. rewrite <- (emul_mod_G a), <- (emul_mod_G b), H. reflexivity.
Qed.

(** * Counting *)
(** a point is determined by 2x + parity of y *)
Definition enc (A : E) : Z := match pt A with FInf => 2 * p | FAff x y => 2 * val x + val y mod 2 end.
Lemma p_odd : p mod 2 = 1. Proof. rewrite p_eq. reflexivity. Qed.
Lemma enc_range A : 0 <= enc A <= 2 * p.
Proof.
  unfold enc. pose proof p_pos. destruct (pt A) as [|x y]; [lia|]. pose proof (val_range x). pose proof (Z.mod_pos_bound (val y) 2 ltac:(lia)). lia.
Qed.
Lemma fneg_parity (y z : F) : y <> f0 -> (y + z = 0)%F -> (val y + val z = p).
Proof.
  intros NY H. apply (f_equal val) in H. unfold fadd, f0 in H. rewrite !val_toF, Z.mod_0_l in H by (intros K; discriminate K).
  pose proof (val_range y). pose proof (val_range z). apply Z.mod_divide in H; [|lia]. destruct H as [c Hc].
  assert (val y <> 0). { intros K. apply NY. rewrite <- (toF_val y), K. reflexivity. }
  assert (c = 1) by nia. subst c. lia.
Qed.
Lemma enc_inj A B : enc A = enc B -> A = B.
Proof.
  intros H. apply pt_inj. pose proof (pt_on A) as OA. pose proof (pt_on B) as OB. unfold enc in H.
  destruct (pt A) as [|x y], (pt B) as [|u v]; [reflexivity| | |].
  - pose proof (val_range u). pose proof (Z.mod_pos_bound (val v) 2 ltac:(lia)). lia.
  - pose proof (val_range x). pose proof (Z.mod_pos_bound (val y) 2 ltac:(lia)). lia.
  - pose proof (Z.mod_pos_bound (val y) 2 ltac:(lia)). pose proof (Z.mod_pos_bound (val v) 2 ltac:(lia)).
    assert (EX : val x = val u) by lia. assert (EY : val y mod 2 = val v mod 2) by lia.
    apply val_inj in EX. subst u. destruct (same_x _ _ _ OA OB) as [->|S]; [reflexivity|exfalso].
    pose proof (fneg_parity _ _ (no_torsion2 _ _ OA) S) as P1. pose proof p_odd as PO. rewrite <- P1, Zplus_mod, EY in PO.
    destruct (Z.mod_pos_bound (val v) 2 ltac:(lia)). assert (C : val v mod 2 = 0 \/ val v mod 2 = 1) by lia.
    destruct C as [C|C]; rewrite C in PO; discriminate PO.
Qed.

Lemma pigeon (l : list E) : NoDup l -> Z.of_nat (length l) <= 2 * p + 1.
Proof.
  intros ND. pose proof p_pos.
  assert (M : NoDup (map enc l)) by (apply FinFun.Injective_map_NoDup; [exact enc_inj | exact ND]).
  assert (I : incl (map enc l) (map Z.of_nat (seq 0 (Z.to_nat (2 * p + 1))))).
  { intros z Hz. apply in_map_iff in Hz. destruct Hz as (A & <- & _). pose proof (enc_range A).
    apply in_map_iff. exists (Z.to_nat (enc A)). split; [lia | apply in_seq; lia]. }
  pose proof (NoDup_incl_length M I) as L. rewrite !map_length, seq_length in L. lia.
Qed.
(** the coset A + <G> *)
Definition coset (A : E) : list E := map (fun i => eadd A (emul (Z.of_nat i) eG)) (seq 0 (Z.to_nat n)).
Lemma coset_len A : length (coset A) = Z.to_nat n.
Proof. unfold coset. rewrite map_length, seq_length. reflexivity. Qed.
Lemma in_coset A B : In B (coset A) -> exists k, B = eadd A (emul k eG).
Proof. intros H. apply in_map_iff in H. destruct H as (i & <- & _). exists (Z.of_nat i). reflexivity. Qed.
Lemma NoDup_map_in {X Y} (f : X -> Y) l : NoDup l -> (forall x y, In x l -> In y l -> f x = f y -> x = y) -> NoDup (map f l).
Proof.
  induction l as [|a l IH]; intros ND INJ; [constructor|]. inversion ND; subst. cbn [map]. constructor.
  - intros H. apply in_map_iff in H. destruct H as (b & EQ & Hb). assert (b = a) by (apply INJ; [right; assumption | left; reflexivity | assumption]).
    subst b. contradiction.
  - apply IH; [assumption|]. intros; apply INJ; try right; assumption.
Qed.
Lemma NoDup_append {X} (l m : list X) : NoDup l -> NoDup m -> (forall x, In x l -> In x m -> False) -> NoDup (l ++ m).
Proof.
  induction l as [|a l IH]; intros NL NM D; [exact NM|]. inversion NL; subst. cbn [app]. constructor.
  - intros H. apply in_app_or in H. destruct H as [H|H]; [contradiction | exact (D a (or_introl eq_refl) H)].
  - apply IH; [assumption | assumption | intros x Hx; apply D; right; exact Hx].
Qed.
Lemma coset_NoDup A : NoDup (coset A).
Proof.
  pose proof n_pos. apply NoDup_map_in; [apply seq_NoDup|]. intros x y Hx Hy EQ. apply in_seq in Hx, Hy.
  apply eadd_cancel_l in EQ. apply (proj1 (emul_G_eq _ _)) in EQ. rewrite !Z.mod_small in EQ by lia. lia.
Qed.
Lemma coset_meet A B C k j : C = eadd A (emul k eG) -> C = eadd B (emul j eG) -> eadd A (eopp B) = emul (j - k) eG.
Proof.
  intros -> H. rewrite emul_sub. apply (eadd_cancel_l (emul k eG)). apply (eadd_cancel_l B).
  rewrite (eadd_assoc (emul k eG)), (eadd_comm (emul k eG) A), H.
  rewrite (eadd_assoc (emul k eG)), (eadd_comm (emul k eG) (emul j eG)), <- (eadd_assoc (emul j eG)), eadd_opp_r, eadd_0_r.
  rewrite (eadd_comm _ (eopp B)), (eadd_assoc B), eadd_opp_r, eadd_0_l. reflexivity.
Qed.
Lemma half_ok P k : eadd P P = emul k eG -> exists j, P = emul j eG.
Proof.
  intros H. assert (Hj : exists j, (2 * j) mod n = k mod n).
  { exists (k * ((n + 1) / 2)). replace (2 * (k * ((n + 1) / 2))) with (k + k * n).
    - apply Z_mod_plus_full.
    - assert (Q : 2 * ((n + 1) / 2) = n + 1) by (vm_compute; reflexivity). lia. }
  destruct Hj as [j Hj]. exists j. apply emul_G_eq in Hj. rewrite emul_double in Hj. rewrite <- H in Hj.
  set (Q := emul j eG) in *. set (T := eadd P (eopp Q)).
  assert (T2 : eadd T T = e0).
  { unfold T. rewrite eadd_4, <- Hj, <- eopp_add. apply eadd_opp_r. }
  assert (T0 : T = e0).
  { apply pt_inj. change (pt e0) with FInf. pose proof (pt_on T) as OT. apply (f_equal pt) in T2. change (pt (eadd T T)) with (ptadd (pt T) (pt T)) in T2.
    change (pt e0) with FInf in T2. destruct (pt T) as [|x y]; [reflexivity|exfalso]. cbn [ptadd] in T2. feq x x; [|contradiction].
    feq (y + y)%F f0; [|discriminate T2]. apply (fmul_neq0 _ _ f2_neq0 (no_torsion2 _ _ OT)). match goal with K : (y + y)%F = f0 |- _ => rewrite <- K; ring end. }
  unfold T in T0. apply eopp_unique in T0. rewrite <- (eopp_opp P), <- T0. apply eopp_opp.
Qed.

Theorem cyclic A : exists k, A = emul k eG.
Proof.
  (* decide membership in the finite list <G> *)
  assert (DE : forall x y : E, {x = y} + {x <> y}).
  { intros x y. destruct (Z.eq_dec (enc x) (enc y)) as [K|K]; [left; apply enc_inj; exact K | right; congruence]. }
  destruct (in_dec DE A (coset e0)) as [I|NI].
  { apply in_coset in I. destruct I as [k ->]. exists k. apply eadd_0_l. }
  destruct (in_dec DE (eadd A A) (coset e0)) as [I|NI2].
  { apply in_coset in I. destruct I as [k Hk]. rewrite eadd_0_l in Hk. exact (half_ok A k Hk). }
  exfalso.
  assert (MEM : forall B k, B = emul k eG -> In B (coset e0)).
  { intros B k ->. rewrite <- emul_mod_G. apply in_map_iff. exists (Z.to_nat (k mod n)). pose proof (Z.mod_pos_bound k n n_pos).
    split; [rewrite Z2Nat.id by lia; apply eadd_0_l | apply in_seq; lia]. }
  assert (ND : NoDup (coset e0 ++ coset A ++ coset (eadd A A))).
  { apply NoDup_append; [apply coset_NoDup | apply NoDup_append; [apply coset_NoDup | apply coset_NoDup |] |].
    - intros C H1 H2. apply in_coset in H1, H2. destruct H1 as [k H1], H2 as [j H2].
      pose proof (coset_meet _ _ _ _ _ H2 H1) as M. apply NI.
      rewrite <- eadd_assoc, eadd_opp_r, eadd_0_r in M. exact (MEM _ _ M).
    - intros C H1 H2. apply in_coset in H1. destruct H1 as [k H1]. apply in_app_or in H2. destruct H2 as [H2|H2]; apply in_coset in H2; destruct H2 as [j H2].
      + pose proof (coset_meet _ _ _ _ _ H2 H1) as M. rewrite eopp_0, eadd_0_r in M. apply NI. exact (MEM _ _ M).
      + pose proof (coset_meet _ _ _ _ _ H2 H1) as M. rewrite eopp_0, eadd_0_r in M. apply NI2. exact (MEM _ _ M). }
  apply pigeon in ND. rewrite !app_length, !coset_len in ND.
  pose proof n_pos. assert (BIG : 2 * p + 1 < 3 * n) by (rewrite p_eq; vm_compute; reflexivity). lia.
Qed.
Theorem emul_n A : emul n A = e0.
Proof. destruct (cyclic A) as [k ->]. rewrite <- emul_mul, Z.mul_comm, emul_mul, emul_n_G. apply emul_e0. Qed.
Lemma emul_mod k A : emul (k mod n) A = emul k A.
Proof.
  rewrite (Z.div_mod k n) at 2 by (intros H; discriminate H). rewrite (Z.mul_comm n), emul_add, (emul_mul _ n), emul_n, emul_e0, eadd_0_l.
  reflexivity.
Qed.
(** every non-zero point has order n *)
Lemma emul_eq0 k A : A <> e0 -> emul k A = e0 -> k mod n = 0.
Proof.
  intros NA H. destruct (cyclic A) as [a ->]. rewrite <- emul_mul in H. apply (proj1 (emul_G_0 _)) in H.
  apply Z.mod_divide in H; [|intros K; discriminate K]. apply prime_mult in H; [|exact prime_n]. destruct H as [D|D].
  - apply Z.mod_divide; [intros K; discriminate K | exact D].
  - exfalso. apply NA. apply emul_G_0. apply Z.mod_divide; [intros K; discriminate K | exact D].
Qed.
Lemma emul_inj a b A : A <> e0 -> emul a A = emul b A -> a mod n = b mod n.
Proof.
  intros NA H. assert (D : (a - b) mod n = 0) by (apply (emul_eq0 _ A NA); rewrite emul_sub, H; apply eadd_opp_r).
  apply Z.mod_divide in D; [|intros K; discriminate K]. destruct D as [c Hc].
  replace a with (b + c * n) by lia. apply Z_mod_plus_full.
Qed.
Print Assumptions cyclic.
