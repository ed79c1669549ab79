(** The prime field of p elements: a type with Leibniz equality, its ring and field structure. *)
From Coq Require Import ZArith Znumtheory Zpow_facts List Bool Lia Eqdep_dec Ring Field.
From Verif Require Import Fermat Primes Spec.
Open Scope Z_scope.

Lemma p_eq : p = 115792089237316195423570985008687907853269984665640564039457584007908834671663.
Proof. reflexivity. Qed.
Lemma prime_p : prime p.
Proof. rewrite p_eq. exact prime_field_p. Qed.
Lemma prime_n : prime n.
Proof. exact prime_order_n. Qed.
Lemma p_pos : 0 < p. Proof. reflexivity. Qed.
Lemma n_pos : 0 < n. Proof. reflexivity. Qed.
#[global] Opaque p n.

(** ** the extended Euclidean algorithm *)
Lemma egcd_ok m x k : 0 < m -> forall a b u v, 0 <= b <= a -> a * b < 2 ^ Z.of_nat k ->
  Z.gcd a b = 1 -> (u * x) mod m = a mod m -> (v * x) mod m = b mod m ->
  (egcd (S k) a b u v * x) mod m = 1 mod m.
Proof.
  intros Hm; induction k as [|k IH]; intros a b u v Hab HB HG Hu Hv.
  - cbn [egcd]. assert (b = 0) as -> by (change (2 ^ Z.of_nat 0) with 1 in HB; nia).
    rewrite Z.eqb_refl. rewrite Z.gcd_0_r, Z.abs_eq in HG by lia. rewrite Hu, HG. reflexivity.
  - change (egcd (S (S k)) a b u v) with (if b =? 0 then u else egcd (S k) b (a mod b) v (u - a / b * v)).
    destruct (b =? 0) eqn:E; [apply Z.eqb_eq in E; subst b | apply Z.eqb_neq in E].
    + rewrite Z.gcd_0_r, Z.abs_eq in HG by lia. rewrite Hu, HG. reflexivity.
    + pose proof (Z.mod_pos_bound a b ltac:(lia)) as MB.
      pose proof (Z.div_mod a b ltac:(lia)) as DM.
      assert (1 <= a / b) by (apply Z.div_le_lower_bound; lia).
      apply IH.
      * lia.
      * rewrite Nat2Z.inj_succ, Z.pow_succ_r in HB by lia. nia.
      * rewrite Z.gcd_comm, Z.gcd_mod by lia. rewrite Z.gcd_comm. exact HG.
      * exact Hv.
      * replace ((u - a / b * v) * x) with (u * x - a / b * (v * x)) by ring.
        rewrite <- Zminus_mod_idemp_l, Hu, Zminus_mod_idemp_l.
        rewrite <- Zminus_mod_idemp_r, <- (Zmult_mod_idemp_r (v * x)), Hv, Zmult_mod_idemp_r, Zminus_mod_idemp_r.
        f_equal. lia.
Qed.

Lemma inv_mod_ok m x : prime m -> m < 2 ^ 256 -> x mod m <> 0 -> (inv_mod m x * x) mod m = 1.
Proof.
  intros Pm Hm Hx. pose proof (prime_ge_2 m Pm).
  unfold inv_mod. rewrite (proj2 (Z.eqb_neq _ _)) by exact Hx.
  rewrite Zmult_mod_idemp_l.
  rewrite <- Zmult_mod_idemp_r. transitivity (1 mod m); [|apply Z.mod_1_l; lia].
  pose proof (Z.mod_pos_bound x m ltac:(lia)) as B.
  change (Z.to_nat 520) with (S (Z.to_nat 519)).
  apply egcd_ok; [lia | lia | | | | ].
  - rewrite Z2Nat.id by lia. apply Z.lt_le_trans with (2 ^ 256 * 2 ^ 256); [nia|].
    rewrite <- Z.pow_add_r by lia. apply Z.pow_le_mono_r; lia.
  - apply Zgcd_1_rel_prime. apply prime_rel_prime; [exact Pm|].
    intros D. apply Z.divide_pos_le in D; lia.
  - rewrite Z.mul_0_l, Z.mod_0_l, Z_mod_same_full by lia. reflexivity.
  - rewrite Z.mul_1_l. reflexivity.
Qed.
Lemma inv_mod_range m x : 0 < m -> 0 <= inv_mod m x < m.
Proof.
  intros Hm. unfold inv_mod. destruct (x mod m =? 0); [lia | apply Z.mod_pos_bound; exact Hm].
Qed.

(** ** the type *)
Definition F : Type := {x : Z | (x mod p =? x) = true}.
Definition val (a : F) : Z := proj1_sig a.
Lemma toF_pf x : ((x mod p) mod p =? x mod p) = true.
Proof. apply Z.eqb_eq. apply Zmod_mod. Qed.
Definition toF (x : Z) : F := exist _ (x mod p) (toF_pf x).

Lemma val_inj a b : val a = val b -> a = b.
Proof.
  destruct a as [a Ha], b as [b Hb]; cbn; intros ->. f_equal. apply UIP_dec, bool_dec.
Qed.
Lemma val_range a : 0 <= val a < p.
Proof.
  destruct a as [a Ha]; cbn. apply Z.eqb_eq in Ha. rewrite <- Ha. apply Z.mod_pos_bound, p_pos.
Qed.
Lemma val_toF x : val (toF x) = x mod p.
Proof. reflexivity. Qed.
Lemma toF_val a : toF (val a) = a.
Proof. apply val_inj. rewrite val_toF. apply Z.mod_small, val_range. Qed.
Lemma toF_eq x y : toF x = toF y <-> x mod p = y mod p.
Proof.
  split; [intros H; rewrite <- !val_toF, H; reflexivity | intros H; apply val_inj; exact H].
Qed.

Definition f0 : F := toF 0.
Definition f1 : F := toF 1.
Definition fadd (a b : F) : F := toF (val a + val b).
Definition fmul (a b : F) : F := toF (val a * val b).
Definition fopp (a : F) : F := toF (- val a).
Definition fsub (a b : F) : F := toF (val a - val b).
Definition finv (a : F) : F := toF (inv_mod p (val a)).
Definition fdiv (a b : F) : F := fmul a (finv b).

Lemma toF_add x y : toF (x + y) = fadd (toF x) (toF y).
Proof. apply val_inj; unfold fadd; rewrite !val_toF. apply Zplus_mod. Qed.
Lemma toF_mul x y : toF (x * y) = fmul (toF x) (toF y).
Proof. apply val_inj; unfold fmul; rewrite !val_toF. apply Zmult_mod. Qed.
Lemma toF_sub x y : toF (x - y) = fsub (toF x) (toF y).
Proof. apply val_inj; unfold fsub; rewrite !val_toF. apply Zminus_mod. Qed.
Lemma toF_opp x : toF (- x) = fopp (toF x).
Proof.
  apply val_inj; unfold fopp; rewrite !val_toF.
  replace (- x) with (0 - x) by ring. replace (- (x mod p)) with (0 - x mod p) by ring.
  rewrite Zminus_mod_idemp_r. reflexivity.
Qed.
Lemma toF_mod x : toF (x mod p) = toF x.
Proof. apply toF_eq. apply Zmod_mod. Qed.
Lemma toF_p : toF p = f0.
Proof. apply toF_eq. rewrite Z_mod_same_full. reflexivity. Qed.

(** induction on representatives: an identity holds if it holds on all [toF x] *)
Ltac toF_all := repeat match goal with a : F |- _ => rewrite <- (toF_val a); generalize (val a); clear a; intros a end.

Lemma F_ring : ring_theory f0 f1 fadd fmul fsub fopp (@eq F).
Proof.
  constructor; intros; toF_all; unfold f0, f1;
  repeat (rewrite <- toF_add || rewrite <- toF_mul || rewrite <- toF_sub || rewrite <- toF_opp); f_equal; ring.
Qed.
Lemma f1_neq_f0 : f1 <> f0.
Proof.
  intros H. apply toF_eq in H. rewrite Z.mod_0_l in H by (pose proof p_pos; lia).
  rewrite Z.mod_1_l in H by (pose proof (prime_ge_2 p prime_p); lia). discriminate.
Qed.
Lemma p_lt_2_256 : p < 2 ^ 256.
Proof. rewrite p_eq. reflexivity. Qed.
Lemma n_lt_2_256 : n < 2 ^ 256.
Proof. reflexivity. Qed.
Lemma finv_l a : a <> f0 -> fmul (finv a) a = f1.
Proof.
  intros H. apply val_inj. unfold fmul, finv. rewrite !val_toF.
  rewrite Zmult_mod_idemp_l. unfold f1. rewrite val_toF.
  rewrite (Z.mod_1_l p) by (pose proof (prime_ge_2 p prime_p); lia).
  apply inv_mod_ok; [exact prime_p | exact p_lt_2_256 |].
  intros E. apply H. apply val_inj. unfold f0. rewrite val_toF, Z.mod_0_l by (pose proof p_pos; lia).
  rewrite <- E. symmetry. apply Z.mod_small, val_range.
Qed.
Lemma F_field : field_theory f0 f1 fadd fmul fsub fopp fdiv finv (@eq F).
Proof.
  constructor; [exact F_ring | exact f1_neq_f0 | reflexivity | exact finv_l].
Qed.

(** equality test *)
Definition feqb (a b : F) : bool := val a =? val b.
Lemma feqb_spec a b : reflect (a = b) (feqb a b).
Proof.
  unfold feqb. destruct (Z.eqb_spec (val a) (val b)) as [E|E]; constructor.
  - apply val_inj; exact E.
  - intros ->; contradiction.
Qed.
Lemma F_dec (a b : F) : {a = b} + {a <> b}.
Proof. destruct (feqb_spec a b); [left | right]; assumption. Qed.

Declare Scope F_scope.
Delimit Scope F_scope with F.
Bind Scope F_scope with F.
Notation "0" := f0 : F_scope.
Notation "1" := f1 : F_scope.
Infix "+" := fadd : F_scope.
Infix "*" := fmul : F_scope.
Infix "-" := fsub : F_scope.
Notation "- x" := (fopp x) : F_scope.
Infix "/" := fdiv : F_scope.

(** constants for the ring tactic *)
Lemma toF_0 : toF 0 = f0. Proof. reflexivity. Qed.
Lemma toF_1 : toF 1 = f1. Proof. reflexivity. Qed.
Lemma F_morph : ring_morph f0 f1 fadd fmul fsub fopp (@eq F) 0%Z 1%Z Z.add Z.mul Z.sub Z.opp Z.eqb toF.
Proof.
  constructor; intros; try reflexivity;
    [apply toF_add | apply toF_sub | apply toF_mul | apply toF_opp | apply Z.eqb_eq in H; subst; reflexivity].
Qed.
Definition fpow (a : F) (k : N) : F := pow_N f1 fmul a k.
Lemma F_pow_th : power_theory f1 fmul (@eq F) id fpow.
Proof. constructor. intros; reflexivity. Qed.
Ltac F_const t :=
  lazymatch t with
  | f0 => constr:(0%Z)
  | f1 => constr:(1%Z)
  | toF ?z => match isZcst z with true => z | _ => constr:(InitialRing.NotConstant) end
  | _ => constr:(InitialRing.NotConstant)
  end.
Ltac F_pow_tac t := match isNcst t with true => t | _ => constr:(InitialRing.NotConstant) end.
Add Field Ffield : F_field (morphism F_morph, constants [F_const], power_tac F_pow_th [F_pow_tac]).

Lemma fmul_eq0 (a b : F) : (a * b = 0 -> a = 0 \/ b = 0)%F.
Proof.
  intros H. destruct (F_dec a f0) as [->|N]; [left; reflexivity | right].
  replace b with (finv a * (a * b))%F by (field; exact N). rewrite H. ring.
Qed.
Lemma fmul_neq0 (a b : F) : (a <> 0 -> b <> 0 -> a * b <> 0)%F.
Proof. intros Ha Hb H. destruct (fmul_eq0 a b H); contradiction. Qed.
Lemma fsub_eq0 (a b : F) : (a - b = 0 <-> a = b)%F.
Proof.
  split; [intros H; replace a with (b + (a - b))%F by ring; rewrite H; ring | intros ->; ring].
Qed.
Lemma fadd_eq0 (a b : F) : (a + b = 0 <-> a = - b)%F.
Proof.
  split; [intros H; replace a with ((a + b) - b)%F by ring; rewrite H; ring | intros ->; ring].
Qed.
Lemma fopp_eq0 (a : F) : (- a = 0 <-> a = 0)%F.
Proof. split; [intros H; replace a with (- - a)%F by ring; rewrite H; ring | intros ->; ring]. Qed.
Lemma toF_neq0 z : 0 < z < p -> toF z <> f0.
Proof.
  intros H E. apply toF_eq in E. rewrite Z.mod_0_l, Z.mod_small in E by lia. lia.
Qed.
Lemma f2_neq0 : toF 2 <> f0. Proof. apply toF_neq0; rewrite p_eq; lia. Qed.
Lemma f3_neq0 : toF 3 <> f0. Proof. apply toF_neq0; rewrite p_eq; lia. Qed.

(** powers by integers and Fermat *)
Definition fexp (a : F) (k : Z) : F := toF (val a ^ k).
Lemma fexp_toF x k : 0 <= k -> fexp (toF x) k = toF (x ^ k).
Proof.
  intros Hk. apply toF_eq. rewrite val_toF. symmetry. apply Zpower_mod. apply p_pos.
Qed.
Lemma fexp_0 a : fexp a 0 = f1. Proof. reflexivity. Qed.
Lemma fexp_1 a : fexp a 1 = a. Proof. unfold fexp. rewrite Z.pow_1_r. apply toF_val. Qed.
Lemma fexp_add a i j : 0 <= i -> 0 <= j -> fexp a (i + j) = fmul (fexp a i) (fexp a j).
Proof. intros. unfold fexp. rewrite Z.pow_add_r by assumption. apply toF_mul. Qed.
Lemma fexp_mul a i j : 0 <= i -> 0 <= j -> fexp a (i * j) = fexp (fexp a i) j.
Proof. intros. unfold fexp at 1 3. rewrite Z.pow_mul_r by assumption. symmetry. apply fexp_toF. assumption. Qed.
Lemma fexp_mul_l a b i : 0 <= i -> fexp (fmul a b) i = fmul (fexp a i) (fexp b i).
Proof.
  intros. unfold fmul at 1. rewrite fexp_toF by assumption. rewrite Z.pow_mul_l. unfold fexp. apply toF_mul.
Qed.
Lemma fexp_2 a : fexp a 2 = fmul a a.
Proof. change 2%Z with (1 + 1)%Z. rewrite fexp_add, fexp_1 by lia. reflexivity. Qed.
Lemma fexp_fermat a : a <> f0 -> fexp a (p - 1) = f1.
Proof.
  intros H. apply toF_eq. rewrite (Z.mod_1_l p) by (pose proof (prime_ge_2 p prime_p); lia).
  apply fermat; [exact prime_p|]. intros D. apply H. apply val_inj.
  unfold f0. rewrite val_toF, Z.mod_0_l by (pose proof p_pos; lia).
  apply Z.mod_divide in D; [|pose proof p_pos; lia].
  rewrite Z.mod_small in D by apply val_range. exact D.
Qed.
Lemma fexp_1_l k : 0 <= k -> fexp f1 k = f1.
Proof. intros. unfold f1. rewrite fexp_toF, Z.pow_1_l by assumption. reflexivity. Qed.
Lemma fexp_0_l k : 0 < k -> fexp f0 k = f0.
Proof. intros. unfold f0. rewrite fexp_toF, Z.pow_0_l by lia. reflexivity. Qed.
Lemma fexp_inv a : fexp a (p - 2) = finv a.
Proof.
  pose proof (prime_ge_2 p prime_p).
  destruct (F_dec a f0) as [->|N].
  - rewrite fexp_0_l by (rewrite p_eq; lia). apply toF_eq. unfold f0. rewrite val_toF, Z.mod_0_l by lia.
    unfold inv_mod. rewrite Z.mod_0_l by lia. reflexivity.
  - pose proof (fexp_fermat a N) as E. replace (p - 1) with (p - 2 + 1) in E by lia.
    rewrite fexp_add, fexp_1 in E by lia.
    replace (fexp a (p - 2)) with (fmul (fmul (fexp a (p - 2)) a) (finv a)) by (field; exact N).
    rewrite E. ring.
Qed.
