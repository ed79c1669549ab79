(** Fermat's little theorem over Z and a Pocklington primality criterion. *)
From Coq Require Import ZArith Znumtheory List Permutation Lia Bool.
Import ListNotations.
Open Scope Z_scope.

Lemma prime_pos q : prime q -> 2 <= q.
Proof. intros H; apply prime_ge_2; exact H. Qed.

(** residues 1 .. m *)
Definition zseq (m : nat) : list Z := map Z.of_nat (seq 1 m).

Lemma in_zseq m x : In x (zseq m) <-> 1 <= x <= Z.of_nat m.
Proof.
  unfold zseq; rewrite in_map_iff; split.
  - intros (k & <- & H); apply in_seq in H; lia.
  - intros H; exists (Z.to_nat x); split; [lia | apply in_seq; lia].
Qed.
Lemma NoDup_zseq m : NoDup (zseq m).
Proof.
  unfold zseq. apply FinFun.Injective_map_NoDup; [intros ? ?; lia | apply seq_NoDup].
Qed.
Lemma length_zseq m : length (zseq m) = m.
Proof. unfold zseq; rewrite map_length, seq_length; reflexivity. Qed.

Definition zprod (l : list Z) : Z := fold_right Z.mul 1 l.

Lemma zprod_perm l l' : Permutation l l' -> zprod l = zprod l'.
Proof. induction 1; unfold zprod in *; cbn [fold_right]; try lia. Qed.

Lemma zprod_map_mod q a l : 0 < q ->
  zprod (map (fun i => (a * i) mod q) l) mod q = (a ^ Z.of_nat (length l) * zprod l) mod q.
Proof.
  intros Hq; induction l as [|x l IH]; [reflexivity|].
  cbn [map length]. unfold zprod in *; cbn [fold_right].
  rewrite Nat2Z.inj_succ, Z.pow_succ_r by lia.
  rewrite Zmult_mod, Zmod_mod, IH, <- Zmult_mod. f_equal. ring.
Qed.

Lemma prime_not_div_prod q l : prime q -> (forall x, In x l -> ~ (q | x)) -> ~ (q | zprod l).
Proof.
  intros Hq; induction l as [|x l IH]; intros H; unfold zprod in *; cbn [fold_right].
  - intros D. apply Z.divide_1_r_nonneg in D; [|pose proof (prime_pos q Hq); lia].
    pose proof (prime_pos q Hq); lia.
  - intros D. apply prime_mult in D; [|exact Hq]. destruct D as [D|D].
    + apply (H x); [left; reflexivity | exact D].
    + apply IH; [intros y Hy; apply H; right; exact Hy | exact D].
Qed.

Theorem fermat q a : prime q -> ~ (q | a) -> (a ^ (q - 1)) mod q = 1.
Proof.
  intros Hq Ha. pose proof (prime_pos q Hq) as Q2.
  set (m := Z.to_nat (q - 1)).
  assert (Hm : Z.of_nat m = q - 1) by (unfold m; lia).
  set (L := zseq m). set (L' := map (fun i => (a * i) mod q) L).
  assert (NI : forall x, In x L -> ~ (q | x)).
  { intros x Hx D. apply in_zseq in Hx. apply Z.divide_pos_le in D; lia. }
  assert (ND : NoDup L').
  { unfold L'. assert (forall l, NoDup l -> (forall x, In x l -> In x L) -> NoDup (map (fun i => (a * i) mod q) l)) as K.
    { induction l as [|x l IH]; intros N S; cbn [map]; [constructor|].
      inversion N; subst. constructor; [|apply IH; [assumption | intros y Hy; apply S; right; exact Hy]].
      intros I. apply in_map_iff in I. destruct I as (y & E & Hy).
      assert (Hx : In x L) by (apply S; left; reflexivity).
      assert (Hy' : In y L) by (apply S; right; exact Hy).
      apply in_zseq in Hx, Hy'.
      assert (D : (q | a * (y - x))).
      { apply Z.mod_divide; [lia|]. replace (a * (y - x)) with (a * y - a * x) by ring.
        rewrite Zminus_mod, E, Z.sub_diag. apply Z.mod_0_l; lia. }
      apply prime_mult in D; [|exact Hq]. destruct D as [D|D]; [contradiction|].
      destruct (Z.eq_dec y x) as [->|NE]; [contradiction|].
      destruct D as [c Hc].
      assert (c = 0) by nia. subst c. lia. }
    apply K; [apply NoDup_zseq | auto]. }
  assert (INC : incl L' L).
  { intros y Hy. unfold L' in Hy. apply in_map_iff in Hy. destruct Hy as (x & <- & Hx).
    apply in_zseq. rewrite Hm.
    pose proof (Z.mod_pos_bound (a * x) q ltac:(lia)).
    assert ((a * x) mod q <> 0).
    { intros E. apply Z.mod_divide in E; [|lia]. apply prime_mult in E; [|exact Hq].
      destruct E as [E|E]; [contradiction|]. apply (NI x Hx E). }
    lia. }
  assert (P : Permutation L' L).
  { apply NoDup_Permutation_bis; [exact ND | unfold L', L; rewrite map_length; lia | exact INC]. }
  assert (E : (a ^ (q - 1) * zprod L) mod q = zprod L mod q).
  { pose proof (zprod_map_mod q a L ltac:(lia)) as E. fold L' in E.
    rewrite (zprod_perm _ _ P) in E. rewrite E. unfold L at 2. rewrite length_zseq, Hm. reflexivity. }
  assert (D : (q | zprod L * (a ^ (q - 1) - 1))).
  { apply Z.mod_divide; [lia|].
    replace (zprod L * (a ^ (q - 1) - 1)) with (a ^ (q - 1) * zprod L - zprod L) by ring.
    rewrite Zminus_mod, E, Z.sub_diag. apply Z.mod_0_l; lia. }
  apply prime_mult in D; [|exact Hq]. destruct D as [D|D].
  - exfalso. apply (prime_not_div_prod q L Hq NI D).
  - destruct D as [c Hc]. replace (a ^ (q - 1)) with (1 + c * q) by lia.
    rewrite Z_mod_plus_full. apply Z.mod_1_l; lia.
Qed.

Lemma pow_mod_1 b m k : 1 < m -> 0 <= k -> b mod m = 1 -> (b ^ k) mod m = 1.
Proof.
  intros Hm Hk H. revert k Hk. apply natlike_ind; [cbn; apply Z.mod_1_l; lia|].
  intros x Hx IH. rewrite Z.pow_succ_r by lia. rewrite Zmult_mod, H, IH.
  apply Z.mod_1_l; lia.
Qed.

(** if b^i = 1 and b^j = 1 with i, j coprime then b = 1 *)
Lemma pow_coprime b m i j : 1 < m -> 0 < i -> 0 < j -> Z.gcd i j = 1 ->
  (b ^ i) mod m = 1 -> (b ^ j) mod m = 1 -> b mod m = 1.
Proof.
  intros Hm Hi Hj G Ei Ej.
  destruct (Z.gcd_bezout i j 1 G) as (u & v & E).
  (* make the coefficient of i positive and that of j negative *)
  set (k := Z.abs u + Z.abs v + 1).
  set (u' := u + k * j). set (v' := k * i - v).
  assert (0 <= u') by (unfold u', k; nia).
  assert (0 <= v') by (unfold v', k; nia).
  assert (E' : i * u' = j * v' + 1) by (unfold u', v'; lia).
  assert (A : (b ^ (i * u')) mod m = 1).
  { rewrite Z.pow_mul_r by lia. apply pow_mod_1; assumption. }
  assert (B : (b ^ (j * v')) mod m = 1).
  { rewrite Z.pow_mul_r by lia. apply pow_mod_1; assumption. }
  assert (0 <= j * v') by (apply Z.mul_nonneg_nonneg; lia).
  rewrite E', Z.pow_add_r, Z.pow_1_r in A by (assumption || lia).
  rewrite Zmult_mod, B, Z.mul_1_l, Zmod_mod in A. exact A.
Qed.

Lemma prime_divisor_le n : 2 <= n -> exists q, prime q /\ (q | n) /\ q <= n.
Proof.
  intros H. assert (W : 0 <= n) by lia. revert H. revert n W.
  apply (Z_lt_induction (fun n => 2 <= n -> exists q, prime q /\ (q | n) /\ q <= n)).
  intros n IH Hn. destruct (prime_dec n) as [P|P].
  - exists n; split; [exact P | split; [apply Z.divide_refl | lia]].
  - apply not_prime_divide in P; [|lia]. destruct P as (d & Hd & D).
    destruct (IH d ltac:(lia) ltac:(lia)) as (q & Pq & Dq & Lq).
    exists q; split; [exact Pq | split; [eapply Z.divide_trans; eassumption | lia]].
Qed.

Lemma prime_by_divisors n : 2 <= n -> (forall q, prime q -> (q | n) -> n < q * q) -> prime n.
Proof.
  intros Hn H. destruct (prime_dec n) as [P|P]; [exact P|exfalso].
  apply not_prime_divide in P; [|lia]. destruct P as (d & Hd & D).
  destruct D as [e He].
  assert (0 < e) by nia.
  destruct (Z.le_gt_cases d e) as [L|L].
  - destruct (prime_divisor_le d ltac:(lia)) as (q & Pq & Dq & Lq).
    pose proof (prime_pos q Pq).
    assert (n < q * q) by (apply H; [exact Pq | eapply Z.divide_trans; [exact Dq | exists e; lia]]).
    nia.
  - assert (2 <= e) by nia.
    destruct (prime_divisor_le e ltac:(lia)) as (q & Pq & Dq & Lq).
    pose proof (prime_pos q Pq).
    assert (n < q * q) by (apply H; [exact Pq | eapply Z.divide_trans; [exact Dq | exists d; lia]]).
    nia.
Qed.

(** one prime factor r of n-1 with a witness b = a^((n-1)/r) *)
Definition pock_step (n r b : Z) : Prop :=
  prime r /\ (b ^ r) mod n = 1 /\ exists u w, u * (b - 1) = 1 + w * n.

Lemma pock_step_ok n r b q : 1 < n -> pock_step n r b -> prime q -> (q | n) -> (r | q - 1).
Proof.
  intros Hn (Pr & E & u & w & U) Pq D.
  pose proof (prime_pos q Pq). pose proof (prime_pos r Pr).
  assert (Eq : (b ^ r) mod q = 1).
  { destruct D as [c ->]. rewrite (Z.mul_comm c q) in E. 
    rewrite <- (Z.mod_1_l q) by lia. rewrite <- E.
    rewrite <- Zmod_div_mod; [reflexivity| lia | nia | exists c; ring]. }
  assert (NB : ~ (q | b)).
  { intros [c ->]. rewrite Zmod_divide_minus in Eq || idtac.
    rewrite Z.pow_mul_l in Eq.
    assert ((q | q ^ r)). { replace r with (Z.succ (r - 1)) by lia. rewrite Z.pow_succ_r by lia. exists (q ^ (r-1)); ring. }
    destruct H1 as [d Hd]. rewrite Hd, Z.mul_assoc, Z_mod_mult in Eq. lia. }
  destruct (Zdivide_dec r (q - 1)) as [Y|N]; [exact Y|exfalso].
  assert (G : Z.gcd r (q - 1) = 1).
  { apply Zgcd_1_rel_prime. apply prime_rel_prime; assumption. }
  assert (B1 : b mod q = 1).
  { destruct (Z.eq_dec q 2) as [->|].
    - pose proof (Z.mod_pos_bound b 2 ltac:(lia)).
      destruct (Z.eq_dec (b mod 2) 0) as [Z0|]; [|lia].
      exfalso; apply NB. apply Z.mod_divide; [lia | exact Z0].
    - apply (pow_coprime b q r (q - 1)); try lia; try assumption. apply fermat; assumption. }
  assert ((q | 1)).
  { assert ((q | b - 1)).
    { apply Z.mod_divide; [lia|]. rewrite Zminus_mod, B1, Z.mod_1_l by lia. apply Z.mod_0_l; lia. }
    replace 1 with (u * (b - 1) - w * n) by lia.
    apply Z.divide_sub_r; [apply Z.divide_mul_r; assumption | apply Z.divide_mul_r; assumption]. }
  apply Z.divide_pos_le in H1; lia.
Qed.

(** Pocklington: pairwise distinct primes whose product squared exceeds n *)
Lemma pocklington n (l : list (Z * Z)) : 1 < n ->
  Forall (fun rb => pock_step n (fst rb) (snd rb)) l ->
  NoDup (map fst l) -> n < zprod (map fst l) * zprod (map fst l) -> prime n.
Proof.
  intros Hn F ND B. apply prime_by_divisors; [lia|]. intros q Pq D.
  pose proof (prime_pos q Pq).
  assert (K : (zprod (map fst l) | q - 1) /\ 0 < zprod (map fst l)).
  { clear B. induction l as [|[r b] l IH]; unfold zprod in *; cbn [map fold_right fst].
    - split; [apply Z.divide_1_l | lia].
    - inversion F; subst. cbn [map] in ND. inversion ND; subst.
      destruct (IH H3 H5) as [IH1 IH2]. cbn [fst snd] in *.
      pose proof (pock_step_ok n r b q Hn H2 Pq D) as R. destruct H2 as (Pr & _).
      pose proof (prime_pos r Pr).
      split; [|nia].
      assert (RP : rel_prime r (fold_right Z.mul 1 (map fst l))).
      { apply prime_rel_prime; [exact Pr|].
        clear - F H4 Pr. inversion F; subst. clear F H1.
        induction l as [|[r' b'] l IH]; cbn [map fold_right fst] in *.
        - intros D. apply Z.divide_1_r_nonneg in D; pose proof (prime_pos r Pr); lia.
        - intros D. apply prime_mult in D; [|exact Pr]. inversion H2; subst.
          destruct D as [D|D].
          + destruct H1 as (Pr' & _). cbn [fst] in *.
            apply prime_div_prime in D; [|assumption..]. apply H4. left. symmetry; exact D.
          + apply IH; [intros I; apply H4; right; exact I | assumption | exact D]. }
      destruct R as [c Hc].
      assert (DD : (fold_right Z.mul 1 (map fst l) | c)).
      { apply (Gauss _ r); [rewrite Z.mul_comm, <- Hc; exact IH1|]. apply rel_prime_sym; exact RP. }
      destruct DD as [d ->]. exists d. rewrite Hc. ring. }
  destruct K as [K1 K2].
  apply Z.divide_pos_le in K1; [|lia]. nia.
Qed.

(** trial division *)
Fixpoint trial (k : nat) (d n : Z) : bool :=
  match k with
  | O => false
  | S k' => if n <? d * d then true else if n mod d =? 0 then false else trial k' (d + 1) n
  end.
Lemma trial_ok k d n : 2 <= d -> 2 <= n -> (forall e, 2 <= e < d -> ~ (e | n)) ->
  trial k d n = true -> prime n.
Proof.
  revert d; induction k as [|k IH]; intros d Hd Hn H T; cbn [trial] in T; [discriminate|].
  destruct (n <? d * d) eqn:E.
  - apply Z.ltb_lt in E. apply prime_by_divisors; [lia|]. intros q Pq D.
    pose proof (prime_pos q Pq).
    destruct (Z.le_gt_cases d q); [nia|]. exfalso; apply (H q); [lia | exact D].
  - destruct (n mod d =? 0) eqn:E2; [discriminate|]. apply Z.eqb_neq in E2.
    apply (IH (d + 1)); [lia | lia | | exact T].
    intros e He D. destruct (Z.eq_dec e d) as [->|].
    + apply E2. apply Z.mod_divide; [lia | exact D].
    + apply (H e); [lia | exact D].
Qed.
Lemma prime_trial k n : (2 <=? n) = true -> trial k 2 n = true -> prime n.
Proof. intros H T. apply Z.leb_le in H. apply (trial_ok k 2 n); try lia. exact T. Qed.

(** certified modular exponentiation: one entry per bit, the quotient of the squaring and, for
    a one bit, the quotient of the multiplication *)
Fixpoint powc (n a x : Z) (l : list (Z * option Z)) : Z :=
  match l with
  | [] => x
  | (q, None) :: t => powc n a (x * x - q * n) t
  | (q, Some q2) :: t => powc n a ((x * x - q * n) * a - q2 * n) t
  end.
Fixpoint expo (e : Z) (l : list (Z * option Z)) : Z :=
  match l with
  | [] => e
  | (_, None) :: t => expo (2 * e) t
  | (_, Some _) :: t => expo (2 * e + 1) t
  end.
Lemma sub_mul_mod x q n : (x - q * n) mod n = x mod n.
Proof. replace (x - q * n) with (x + (- q) * n) by ring. apply Z_mod_plus_full. Qed.
Lemma powc_ok n a l : 0 < n -> forall x e, 0 <= e -> x mod n = (a ^ e) mod n ->
  powc n a x l mod n = (a ^ (expo e l)) mod n.
Proof.
  intros Hn; induction l as [|[q [q2|]] t IH]; intros x e He Hx; cbn [powc expo]; [exact Hx| |];
  (assert (S : (x * x - q * n) mod n = (a ^ (2 * e)) mod n);
   [rewrite sub_mul_mod; replace (2 * e) with (e + e) by ring; rewrite Z.pow_add_r by lia;
    rewrite Zmult_mod, Hx, <- Zmult_mod; reflexivity|]); apply IH; try lia; try exact S.
  rewrite sub_mul_mod, Z.pow_add_r, Z.pow_1_r by lia. rewrite Zmult_mod, S, <- Zmult_mod. reflexivity.
Qed.
Lemma powc_pow n a e l r : (0 <? n) = true -> expo 0 l = e -> powc n a 1 l = r ->
  (a ^ e) mod n = r mod n.
Proof.
  intros Hn He Hr. apply Z.ltb_lt in Hn. rewrite <- He, <- Hr. symmetry. apply powc_ok; [lia | lia | reflexivity].
Qed.

(** checker for one Pocklington step *)
Definition pock_check (n r b u w : Z) (l : list (Z * option Z)) : bool :=
  (1 <? n) && (expo 0 l =? r) && (powc n b 1 l =? 1) && (u * (b - 1) =? 1 + w * n).
Lemma pock_check_ok n r b u w l : prime r -> pock_check n r b u w l = true -> pock_step n r b.
Proof.
  unfold pock_check; rewrite !andb_true_iff, Z.ltb_lt, !Z.eqb_eq. intros Pr (((Hn & He) & Hp) & Hu).
  split; [exact Pr | split; [|exists u, w; exact Hu]].
  rewrite <- (Z.mod_1_l n) by lia. apply (powc_pow n b r l 1); [apply Z.ltb_lt; lia | assumption..].
Qed.
