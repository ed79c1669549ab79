(** The hash under the nonce generator is SHA-256 as FIPS 180-4 defines it and its keyed form is RFC 2104. *)
From Coq Require Import Znumtheory.
From Verif Require Import Word MScalar MDer MApi MDrbg WP ScalarAcc ScalarMul Spec Fp Bits ScalarOps ScalarRed ScalarMore ScalarBits Denote ApiScalar ApiPub ApiDer ApiDrbg.
Local Open Scope Z_scope.

(** ** FIPS 180-4, section 4.1.2, in bits *)
(** the word whose i-th bit is [f i], for i < k *)
Fixpoint of_bits (k : nat) (f : Z -> bool) : Z :=
  match k with O => 0 | S k' => 2 * of_bits k' (fun i => f (i + 1)) + Z.b2z (f 0) end.
Definition bit_rotr (k : Z) (x i : Z) : bool := Z.testbit x ((i + k) mod 32).
Definition bit_shr (k : Z) (x i : Z) : bool := (i + k <? 32) && Z.testbit x (i + k).
Definition xor3 (f g h : Z -> bool) (i : Z) : bool := xorb (f i) (xorb (g i) (h i)).
Definition Ch (x y z : Z) : Z := of_bits 32 (fun i => if Z.testbit x i then Z.testbit y i else Z.testbit z i).
Definition Maj (x y z : Z) : Z :=
  of_bits 32 (fun i => if Bool.eqb (Z.testbit x i) (Z.testbit y i) then Z.testbit x i else Z.testbit z i).
Definition Sigma0 (x : Z) : Z := of_bits 32 (xor3 (bit_rotr 2 x) (bit_rotr 13 x) (bit_rotr 22 x)).
Definition Sigma1 (x : Z) : Z := of_bits 32 (xor3 (bit_rotr 6 x) (bit_rotr 11 x) (bit_rotr 25 x)).
Definition sigma0 (x : Z) : Z := of_bits 32 (xor3 (bit_rotr 7 x) (bit_rotr 18 x) (bit_shr 3 x)).
Definition sigma1 (x : Z) : Z := of_bits 32 (xor3 (bit_rotr 17 x) (bit_rotr 19 x) (bit_shr 10 x)).

(** ** Sections 4.2.2 and 5.3.3: the constants *)
(** [q] is the prime with exactly [t] primes below it *)
Definition nth_prime (t : nat) (q : Z) : Prop :=
  prime q /\ exists l, NoDup l /\ length l = t /\ forall r, In r l <-> prime r /\ r < q.
(** the first 32 bits of the fractional part of the cube root, and of the square root *)
Definition cbrt_bits (q k : Z) : Prop := exists c, 0 <= c /\ c ^ 3 <= q * 2 ^ 96 < (c + 1) ^ 3 /\ k = c mod 2 ^ 32.
Definition sqrt_bits (q k : Z) : Prop := exists c, 0 <= c /\ c ^ 2 <= q * 2 ^ 64 < (c + 1) ^ 2 /\ k = c mod 2 ^ 32.
Definition round_constants (K : nat -> Z) : Prop := forall t, (t < 64)%nat -> exists q, nth_prime t q /\ cbrt_bits q (K t).
Definition initial_hash (H : list Z) : Prop :=
  length H = 8%nat /\ forall t, (t < 8)%nat -> exists q, nth_prime t q /\ sqrt_bits q (nth t H 0).

(** ** Section 6.2.2: one block; [V t] are the working variables a, ..., h after [t] rounds *)
Definition schedule (M : list Z) (W : nat -> Z) : Prop :=
  (forall t, (t < 16)%nat -> W t = nth t M 0) /\
  (forall t, (16 <= t < 64)%nat -> W t = (sigma1 (W (t - 2)%nat) + W (t - 7)%nat + sigma0 (W (t - 15)%nat) + W (t - 16)%nat) mod 2 ^ 32).
Definition rounds (K : nat -> Z) (H : list Z) (W : nat -> Z) (V : nat -> nat -> Z) : Prop :=
  (forall j, (j < 8)%nat -> V O j = nth j H 0) /\
  (forall t, (t < 64)%nat -> exists T1 T2,
     T1 = (V t 7%nat + Sigma1 (V t 4%nat) + Ch (V t 4%nat) (V t 5%nat) (V t 6%nat) + K t + W t) mod 2 ^ 32 /\
     T2 = (Sigma0 (V t 0%nat) + Maj (V t 0%nat) (V t 1%nat) (V t 2%nat)) mod 2 ^ 32 /\
     V (S t) 0%nat = (T1 + T2) mod 2 ^ 32 /\ V (S t) 4%nat = (V t 3%nat + T1) mod 2 ^ 32 /\
     V (S t) 1%nat = V t 0%nat /\ V (S t) 2%nat = V t 1%nat /\ V (S t) 3%nat = V t 2%nat /\
     V (S t) 5%nat = V t 4%nat /\ V (S t) 6%nat = V t 5%nat /\ V (S t) 7%nat = V t 6%nat).
(** the i-th word of a block of bytes *)
Definition word_at (b : list Z) (i : nat) : Z := be_val (firstn 4 (skipn (4 * i) b)).
Definition fips_block (K : nat -> Z) (H b H' : list Z) : Prop :=
  exists W V, schedule (map (word_at b) (seq 0 16)) W /\ rounds K H W V /\
    H' = map (fun j => (nth j H 0 + V 64%nat j) mod 2 ^ 32) (seq 0 8).
Inductive fips_chain (K : nat -> Z) : list Z -> list Z -> list Z -> Prop :=
| chain_nil H : fips_chain K H [] H
| chain_cons H b l H1 H' : length b = 64%nat -> fips_block K H b H1 -> fips_chain K H1 l H' -> fips_chain K H (b ++ l) H'.
(** section 5.1.1: padding *)
Definition padded (m p : list Z) : Prop :=
  exists k, (k < 64)%nat /\ p = m ++ [128] ++ repeat 0 k ++ be_bytes 8 (8 * Z.of_nat (length m)) /\ (64 | Z.of_nat (length p)).
Definition fips_sha256 (m d : list Z) : Prop :=
  exists K H0 p H', round_constants K /\ initial_hash H0 /\ padded m p /\ fips_chain K H0 p H' /\ d = flat_map (be_bytes 4) H'.

(** ** Bits *)
Lemma of_bits_testbit : forall k f i, 0 <= i -> Z.testbit (of_bits k f) i = (i <? Z.of_nat k) && f i.
Proof.
  induction k; intros f i Hi.
  - cbn [of_bits]. rewrite Z.bits_0. destruct (Z.ltb_spec i (Z.of_nat 0)); [lia|reflexivity].
  - cbn [of_bits]. destruct (Z.eq_dec i 0) as [->|N].
    + rewrite Z.testbit_0_r. destruct (Z.ltb_spec 0 (Z.of_nat (S k))); [reflexivity|lia].
    + replace i with (Z.succ (i - 1)) at 1 by lia. rewrite Z.testbit_succ_r by lia. rewrite IHk by lia.
      replace (i - 1 + 1) with i by lia. destruct (Z.ltb_spec (i - 1) (Z.of_nat k)), (Z.ltb_spec i (Z.of_nat (S k))); try lia; reflexivity.
Qed.
Definition word (x : Z) : Prop := 0 <= x < 2 ^ 32.
Lemma word_high : forall x i, word x -> 32 <= i -> Z.testbit x i = false.
Proof.
  intros x i Hx Hi. destruct (Z.eq_dec x 0) as [->|N]; [apply Z.bits_0|].
  apply Z.bits_above_log2; [unfold word in Hx; lia|]. apply Z.lt_le_trans with 32; [|lia].
  apply Z.log2_lt_pow2; unfold word in Hx; lia.
Qed.
Lemma w32_mod : forall x, w32 x = x mod 2 ^ 32.
Proof. intros x. unfold w32. change 4294967295 with (Z.ones 32). apply Z.land_ones. lia. Qed.
Lemma rotr_bit : forall k x i, word x -> 0 < k < 32 -> 0 <= i -> Z.testbit (rotr k x) i = (i <? 32) && bit_rotr k x i.
Proof.
  intros k x i Hx Hk Hi. unfold rotr, bit_rotr. rewrite Z.lor_spec, Z.shiftr_spec by lia. unfold w32.
  change 4294967295 with (Z.ones 32). rewrite Z.land_spec, Z.shiftl_spec, Z.testbit_ones_nonneg by lia.
  destruct (Z.ltb_spec i 32) as [L|L]; cbn [andb].
  - destruct (Z_lt_dec (i + k) 32) as [A|A].
    + rewrite (Z.mod_small (i + k)) by lia. rewrite (Z.testbit_neg_r x (i - (32 - k))) by lia. rewrite Bool.orb_false_r. reflexivity.
    + rewrite (word_high x (i + k)) by (auto; lia). cbn [orb]. rewrite Bool.andb_true_r. f_equal.
      symmetry. rewrite <- (Zmod_unique (i + k) 32 1 (i + k - 32)) by lia. lia.
  - rewrite (word_high x (i + k)) by (auto; lia). rewrite Bool.andb_false_r. reflexivity.
Qed.
Lemma shr_bit : forall k x i, word x -> 0 < k < 32 -> 0 <= i -> Z.testbit (Z.shiftr x k) i = (i <? 32) && bit_shr k x i.
Proof.
  intros k x i Hx Hk Hi. unfold bit_shr. rewrite Z.shiftr_spec by lia.
  destruct (Z.ltb_spec (i + k) 32) as [A|A]; cbn [andb].
  - destruct (Z.ltb_spec i 32); [reflexivity|lia].
  - rewrite Bool.andb_false_r. apply word_high; auto; lia.
Qed.
Lemma xor3_word : forall a b c f g h, (forall i, 0 <= i -> Z.testbit a i = (i <? 32) && f i) -> (forall i, 0 <= i -> Z.testbit b i = (i <? 32) && g i) ->
  (forall i, 0 <= i -> Z.testbit c i = (i <? 32) && h i) -> Z.lxor (Z.lxor a b) c = of_bits 32 (xor3 f g h).
Proof.
  intros a b c f g h A B C. apply Z.bits_inj'. intros i Hi. rewrite of_bits_testbit, !Z.lxor_spec, A, B, C by lia.
  change (Z.of_nat 32) with 32. unfold xor3. destruct (i <? 32), (f i), (g i), (h i); reflexivity.
Qed.
Lemma bsig0_ok : forall x, word x -> bsig0 x = Sigma0 x.
Proof. intros x Hx. apply xor3_word; intros; apply rotr_bit; auto; lia. Qed.
Lemma bsig1_ok : forall x, word x -> bsig1 x = Sigma1 x.
Proof. intros x Hx. apply xor3_word; intros; apply rotr_bit; auto; lia. Qed.
Lemma ssig0_ok : forall x, word x -> ssig0 x = sigma0 x.
Proof. intros x Hx. apply xor3_word; intros; solve [apply rotr_bit; auto; lia | apply shr_bit; auto; lia]. Qed.
Lemma ssig1_ok : forall x, word x -> ssig1 x = sigma1 x.
Proof. intros x Hx. apply xor3_word; intros; solve [apply rotr_bit; auto; lia | apply shr_bit; auto; lia]. Qed.
Lemma not_bit : forall x i, word x -> 0 <= i -> Z.testbit (4294967295 - x) i = (i <? 32) && negb (Z.testbit x i).
Proof.
  intros x i Hx Hi. replace (4294967295 - x) with (Z.lnot x mod 2 ^ 32).
  2:{ unfold Z.lnot. symmetry. apply (Zmod_unique _ _ (-1)); unfold word in Hx; lia. }
  rewrite Z.testbit_mod_pow2 by lia. rewrite Z.lnot_spec by lia. reflexivity.
Qed.
Lemma ch_ok : forall x y z, word x -> word y -> word z -> ch x y z = Ch x y z.
Proof.
  intros x y z Hx Hy Hz. apply Z.bits_inj'. intros i Hi. unfold ch, Ch. rewrite of_bits_testbit, Z.lxor_spec, !Z.land_spec, not_bit by auto.
  change (Z.of_nat 32) with 32. destruct (Z.ltb_spec i 32).
  - destruct (Z.testbit x i), (Z.testbit y i), (Z.testbit z i); reflexivity.
  - rewrite (word_high x), (word_high y) by auto. reflexivity.
Qed.
Lemma maj_ok : forall x y z, word x -> word y -> word z -> maj x y z = Maj x y z.
Proof.
  intros x y z Hx Hy Hz. apply Z.bits_inj'. intros i Hi. unfold maj, Maj. rewrite of_bits_testbit, !Z.lxor_spec, !Z.land_spec by auto.
  change (Z.of_nat 32) with 32. destruct (Z.ltb_spec i 32).
  - destruct (Z.testbit x i), (Z.testbit y i), (Z.testbit z i); reflexivity.
  - rewrite (word_high x), (word_high y), (word_high z) by auto. reflexivity.
Qed.

(** ** Constants *)
Definition trial (q : Z) : bool := forallb (fun d => negb (q mod Z.of_nat d =? 0)) (seq 2 (Z.to_nat (q - 2))).
Lemma trial_ok : forall q, 2 <= q -> (trial q = true <-> prime q).
Proof.
  intros q Hq. rewrite <- prime_alt. unfold trial. rewrite forallb_forall. split.
  - intros F. split; [lia|]. intros d Hd D. assert (I : In (Z.to_nat d) (seq 2 (Z.to_nat (q - 2)))) by (apply in_seq; lia).
    pose proof (F _ I) as E. rewrite Z2Nat.id in E by lia. apply Z.mod_divide in D; [|lia]. rewrite D in E. discriminate.
  - intros [_ F] d I. apply in_seq in I. apply Bool.negb_true_iff. apply Z.eqb_neq. intros E. apply Z.mod_divide in E; [|lia].
    apply (F (Z.of_nat d)); [lia|auto].
Qed.
Definition primes64 : list Z := filter trial (map Z.of_nat (seq 2 310)).
Lemma primes64_in : forall q, In q primes64 <-> prime q /\ q < 312.
Proof.
  intros q. unfold primes64. rewrite filter_In, in_map_iff. split.
  - intros [[d [<- I]] T]. apply in_seq in I. split; [apply trial_ok; auto; lia|lia].
  - intros [P L]. pose proof (prime_ge_2 q P). split; [exists (Z.to_nat q); split; [lia|apply in_seq; lia]|apply trial_ok; auto].
Qed.
Definition primes_list : list Z :=
  [2; 3; 5; 7; 11; 13; 17; 19; 23; 29; 31; 37; 41; 43; 47; 53; 59; 61; 67; 71; 73; 79; 83; 89; 97; 101; 103; 107; 109; 113; 127; 131;
   137; 139; 149; 151; 157; 163; 167; 173; 179; 181; 191; 193; 197; 199; 211; 223; 227; 229; 233; 239; 241; 251; 257; 263; 269; 271; 277; 281; 283; 293; 307; 311].
Lemma primes64_eq : primes64 = primes_list.
Proof. vm_compute. reflexivity. Qed.
(** every entry is larger than those before it *)
Fixpoint increasing (lo : Z) (l : list Z) : bool := match l with [] => true | a :: t => (lo <? a) && increasing a t end.
Lemma increasing_gt : forall l lo a, increasing lo l = true -> In a l -> lo < a.
Proof.
  induction l as [|b l IH]; intros lo a Hl Ha; [destruct Ha|]. cbn [increasing] in Hl. apply Bool.andb_true_iff in Hl. destruct Hl as [A B].
  apply Z.ltb_lt in A. destruct Ha as [<-|Ha]; [lia|]. specialize (IH b a B Ha). lia.
Qed.
Lemma increasing_split : forall t l lo, increasing lo l = true -> (t < length l)%nat ->
  NoDup (firstn t l) /\ forall r, In r (firstn t l) <-> In r l /\ r < nth t l 0.
Proof.
  induction t; intros l lo Hl Ht; destruct l as [|a l]; cbn [length] in Ht; try lia; cbn [increasing] in Hl; apply Bool.andb_true_iff in Hl; destruct Hl as [A B].
  - cbn [firstn nth]. split; [constructor|]. intros r. split; [intros []|]. intros [[->|I] L]; [lia|]. pose proof (increasing_gt _ _ _ B I). lia.
  - destruct (IHt l a B ltac:(lia)) as [N E]. cbn [firstn nth]. split.
    + constructor; auto. intros I. apply E in I. destruct I as [I _]. pose proof (increasing_gt _ _ _ B I). lia.
    + intros r. split.
      * intros [->|I]; [split; [left; auto|]; apply (increasing_gt _ _ _ B), nth_In; lia|]. apply E in I. split; [right; tauto|tauto].
      * intros [[->|I] L]; [left; auto|right; apply E; auto].
Qed.
Lemma nth_prime_list : forall t, (t < 64)%nat -> nth_prime t (nth t primes_list 0).
Proof.
  intros t Ht. assert (L : length primes_list = 64%nat) by reflexivity. assert (P : forall q, In q primes_list <-> prime q /\ q < 312) by (rewrite <- primes64_eq; apply primes64_in).
  assert (I : In (nth t primes_list 0) primes_list) by (apply nth_In; lia).
  split; [apply P; auto|]. exists (firstn t primes_list).
  destruct (increasing_split t primes_list 0 eq_refl ltac:(lia)) as [N E]. split; [auto|]. split; [rewrite firstn_length; lia|].
  intros r. rewrite E, P. apply P in I. split; [tauto|]. intros [A B]. split; [split; [exact A|lia]|exact B].
Qed.
Lemma nth_prime_unique : forall t q q', nth_prime t q -> nth_prime t q' -> q = q'.
Proof.
  assert (W : forall t q q', nth_prime t q -> nth_prime t q' -> ~ q < q').
  { intros t q q' [P [l [N [L E]]]] [P' [l' [N' [L' E']]]] C.
    assert (X : (length (q :: l) <= length l')%nat).
    { apply NoDup_incl_length.
      - constructor; auto. intros I. apply E in I. lia.
      - intros r [<-|I]; apply E'; [auto|]. apply E in I. split; [tauto|lia]. }
    cbn [length] in X. lia. }
  intros t q q' A B. pose proof (W t q q' A B). pose proof (W t q' q B A). lia.
Qed.
Lemma root_unique : forall e c c' v, 0 < e -> 0 <= c -> 0 <= c' -> c ^ e <= v < (c + 1) ^ e -> c' ^ e <= v < (c' + 1) ^ e -> c = c'.
Proof.
  assert (W : forall e c c' v, 0 < e -> 0 <= c -> c ^ e <= v < (c + 1) ^ e -> c' ^ e <= v < (c' + 1) ^ e -> ~ c < c').
  { intros e c c' v He Hc A B C. assert (X : (c + 1) ^ e <= c' ^ e) by (apply Z.pow_le_mono_l; lia). lia. }
  intros e c c' v He Hc Hc' A B. pose proof (W e c c' v He Hc A B). pose proof (W e c' c v He Hc' B A). lia.
Qed.
Lemma cbrt_bits_unique : forall q k k', cbrt_bits q k -> cbrt_bits q k' -> k = k'.
Proof. intros q k k' [c [A [B ->]]] [c' [A' [B' ->]]]. rewrite (root_unique 3 c c' (q * 2 ^ 96)); auto; lia. Qed.
Lemma sqrt_bits_unique : forall q k k', sqrt_bits q k -> sqrt_bits q k' -> k = k'.
Proof. intros q k k' [c [A [B ->]]] [c' [A' [B' ->]]]. rewrite (root_unique 2 c c' (q * 2 ^ 64)); auto; lia. Qed.
(** the integer parts of the roots *)
Definition cbrt_int : list Z := [1; 1; 1; 1; 2; 2; 2; 2; 2; 3; 3; 3; 3; 3; 3; 3; 3; 3; 4; 4; 4; 4; 4; 4; 4; 4; 4; 4; 4; 4; 5; 5; 5; 5; 5; 5; 5; 5; 5; 5; 5; 5; 5; 5; 5; 5; 5; 6; 6; 6; 6; 6; 6; 6; 6; 6; 6; 6; 6; 6; 6; 6; 6; 6].
Definition sqrt_int : list Z := [1; 1; 2; 2; 3; 3; 4; 4].
Definition cbrt_check (t : nat) : bool :=
  let c := nth t cbrt_int 0 * 2 ^ 32 + nth t sha_k 0 in
  let v := nth t primes_list 0 * 2 ^ 96 in
  (0 <=? c) && (c ^ 3 <=? v) && (v <? (c + 1) ^ 3) && (nth t sha_k 0 =? c mod 2 ^ 32).
Definition sqrt_check (t : nat) : bool :=
  let c := nth t sqrt_int 0 * 2 ^ 32 + nth t sha_h 0 in
  let v := nth t primes_list 0 * 2 ^ 64 in
  (0 <=? c) && (c ^ 2 <=? v) && (v <? (c + 1) ^ 2) && (nth t sha_h 0 =? c mod 2 ^ 32).
Lemma cbrt_all : forallb cbrt_check (seq 0 64) = true.
Proof. vm_compute. reflexivity. Qed.
Lemma sqrt_all : forallb sqrt_check (seq 0 8) = true.
Proof. vm_compute. reflexivity. Qed.
Lemma cbrt_ok : forall t, (t < 64)%nat -> cbrt_bits (nth t primes_list 0) (nth t sha_k 0).
Proof.
  intros t Ht. pose proof cbrt_all as A. rewrite forallb_forall in A. specialize (A t). rewrite in_seq in A. specialize (A ltac:(lia)).
  unfold cbrt_check in A. cbv zeta in A. apply Bool.andb_true_iff in A. destruct A as [A E]. apply Bool.andb_true_iff in A. destruct A as [A U].
  apply Bool.andb_true_iff in A. destruct A as [N L]. apply Z.leb_le in N, L. apply Z.ltb_lt in U. apply Z.eqb_eq in E.
  eexists. split; [exact N|]. split; [split; [exact L|exact U]|exact E].
Qed.
Lemma sqrt_ok : forall t, (t < 8)%nat -> sqrt_bits (nth t primes_list 0) (nth t sha_h 0).
Proof.
  intros t Ht. pose proof sqrt_all as A. rewrite forallb_forall in A. specialize (A t). rewrite in_seq in A. specialize (A ltac:(lia)).
  unfold sqrt_check in A. cbv zeta in A. apply Bool.andb_true_iff in A. destruct A as [A E]. apply Bool.andb_true_iff in A. destruct A as [A U].
  apply Bool.andb_true_iff in A. destruct A as [N L]. apply Z.leb_le in N, L. apply Z.ltb_lt in U. apply Z.eqb_eq in E.
  eexists. split; [exact N|]. split; [split; [exact L|exact U]|exact E].
Qed.
Lemma round_constants_iff : forall K, round_constants K <-> forall t, (t < 64)%nat -> K t = nth t sha_k 0.
Proof.
  intros K. split; intros A t Ht.
  - destruct (A t Ht) as [q [P C]]. rewrite (nth_prime_unique t _ _ P (nth_prime_list t Ht)) in C. exact (cbrt_bits_unique _ _ _ C (cbrt_ok t Ht)).
  - exists (nth t primes_list 0). split; [apply nth_prime_list; auto|]. rewrite (A t Ht). apply cbrt_ok; auto.
Qed.
Lemma initial_hash_iff : forall H, initial_hash H <-> H = sha_h.
Proof.
  intros H. split.
  - intros [L A]. apply (nth_ext _ _ 0 0); [rewrite L; reflexivity|]. intros t Ht. rewrite L in Ht. destruct (A t Ht) as [q [P C]].
    rewrite (nth_prime_unique t _ _ P (nth_prime_list t ltac:(lia))) in C. exact (sqrt_bits_unique _ _ _ C (sqrt_ok t Ht)).
  - intros ->. split; [reflexivity|]. intros t Ht. exists (nth t primes_list 0). split; [apply nth_prime_list; lia|apply sqrt_ok; auto].
Qed.

(** ** One block *)
Definition new_vars (v : list Z) (k w : Z) : list Z :=
  let t1 := nth 7 v 0 + bsig1 (nth 4 v 0) + ch (nth 4 v 0) (nth 5 v 0) (nth 6 v 0) + k + w in
  let t2 := bsig0 (nth 0 v 0) + maj (nth 0 v 0) (nth 1 v 0) (nth 2 v 0) in
  [w32 (t1 + t2); nth 0 v 0; nth 1 v 0; nth 2 v 0; w32 (nth 3 v 0 + t1); nth 4 v 0; nth 5 v 0; nth 6 v 0].
Definition new_word (w : list Z) : Z := w32 (ssig1 (nth 14 w 0) + nth 9 w 0 + ssig0 (nth 1 w 0) + nth 0 w 0).
Lemma sha_round_eq : forall v w k, length v = 8%nat -> length w = 16%nat -> sha_round (v, w) k = (new_vars v k (nth 0 w 0), tl w ++ [new_word w]).
Proof.
  intros v w k Hv Hw. do 8 (destruct v as [|? v]; [discriminate Hv|]). destruct v; [|discriminate Hv].
  do 16 (destruct w as [|? w]; [discriminate Hw|]). destruct w; [|discriminate Hw]. reflexivity.
Qed.
Section Block.
Variables h M : list Z.
Hypothesis Hh : length h = 8%nat.
Hypothesis Wh : Forall word h.
Hypothesis HM : length M = 16%nat.
Hypothesis WM : Forall word M.
Definition st (t : nat) : list Z * list Z := fold_left sha_round (firstn t sha_k) (h, M).
Lemma firstn_S : forall (l : list Z) t, (t < length l)%nat -> firstn (S t) l = firstn t l ++ [nth t l 0].
Proof.
  induction l as [|a l IH]; intros t Ht; [cbn [length] in Ht; lia|]. destruct t; [reflexivity|].
  cbn [firstn nth app]. cbn [length] in Ht. rewrite <- IH by lia. reflexivity.
Qed.
Lemma st_S : forall t, (t < 64)%nat -> st (S t) = sha_round (st t) (nth t sha_k 0).
Proof. intros t Ht. unfold st. rewrite (firstn_S sha_k) by exact Ht. rewrite fold_left_app. reflexivity. Qed.
Lemma w32_word : forall x, word (w32 x).
Proof. intros x. rewrite w32_mod. apply Z.mod_pos_bound. reflexivity. Qed.
Lemma word_nth : forall l i, Forall word l -> word (nth i l 0).
Proof.
  intros l i F. destruct (Nat.lt_ge_cases i (length l)) as [L|L].
  - rewrite Forall_forall in F. apply F, nth_In, L.
  - rewrite nth_overflow by exact L. split; reflexivity || discriminate.
Qed.
Lemma st_shape : forall t, (t <= 64)%nat -> length (fst (st t)) = 8%nat /\ length (snd (st t)) = 16%nat /\ Forall word (fst (st t)) /\ Forall word (snd (st t)).
Proof.
  induction t; intros Ht; [repeat split; assumption|]. destruct (IHt ltac:(lia)) as [A [B [C D]]]. rewrite st_S by lia.
  destruct (st t) as [v w]. cbn [fst snd] in *. rewrite sha_round_eq by assumption. cbn [fst snd]. split; [reflexivity|]. split.
  - rewrite app_length. destruct w; [discriminate B|]. cbn [length tl] in *. lia.
  - split.
    + unfold new_vars. cbv zeta. repeat (constructor; [first [apply w32_word | apply word_nth; assumption]|]). constructor.
    + apply Forall_app. split; [|repeat constructor; apply w32_word]. destruct w; [constructor|]. cbn [tl]. inversion D; assumption.
Qed.
Lemma st_vars : forall t, (t < 64)%nat -> fst (st (S t)) = new_vars (fst (st t)) (nth t sha_k 0) (nth 0 (snd (st t)) 0).
Proof.
  intros t Ht. destruct (st_shape t ltac:(lia)) as [A [B _]]. rewrite st_S by lia. destruct (st t) as [v w]. cbn [fst snd] in *.
  rewrite sha_round_eq by assumption. reflexivity.
Qed.
Lemma st_words : forall t, (t < 64)%nat -> snd (st (S t)) = tl (snd (st t)) ++ [new_word (snd (st t))].
Proof.
  intros t Ht. destruct (st_shape t ltac:(lia)) as [A [B _]]. rewrite st_S by lia. destruct (st t) as [v w]. cbn [fst snd] in *.
  rewrite sha_round_eq by assumption. reflexivity.
Qed.
Lemma st_shift : forall t i, (t < 64)%nat -> (i < 15)%nat -> nth i (snd (st (S t))) 0 = nth (S i) (snd (st t)) 0.
Proof.
  intros t i Ht Hi. destruct (st_shape t ltac:(lia)) as [_ [B _]]. rewrite st_words by lia. destruct (snd (st t)) as [|a w]; [discriminate B|].
  cbn [tl nth length] in *. apply app_nth1. lia.
Qed.
Lemma st_last : forall t, (t < 64)%nat -> nth 15 (snd (st (S t))) 0 = new_word (snd (st t)).
Proof.
  intros t Ht. destruct (st_shape t ltac:(lia)) as [_ [B _]]. rewrite st_words by lia.
  rewrite app_nth2; [|destruct (snd (st t)); cbn [tl length] in *; lia].
  replace (15 - length (tl (snd (st t))))%nat with 0%nat; [reflexivity|]. destruct (snd (st t)); cbn [tl length] in *; lia.
Qed.
(** the schedule and the variables of the model *)
Definition mW (t : nat) : Z := nth 0 (snd (st t)) 0.
Definition mV (t j : nat) : Z := nth j (fst (st t)) 0.
Lemma window : forall i t, (i < 16)%nat -> (t + i <= 64)%nat -> nth i (snd (st t)) 0 = mW (t + i).
Proof.
  induction i; intros t Hi Ht; [rewrite Nat.add_0_r; reflexivity|]. rewrite <- st_shift by lia. rewrite IHi by lia. f_equal. lia.
Qed.
Lemma mW_word : forall t, (t <= 64)%nat -> word (mW t).
Proof. intros t Ht. apply word_nth. apply st_shape; lia. Qed.
Lemma mV_word : forall t j, (t <= 64)%nat -> word (mV t j).
Proof. intros t j Ht. apply word_nth. apply st_shape; lia. Qed.
Lemma mW_schedule : schedule M mW.
Proof.
  split; intros t Ht.
  - change (mW t) with (mW (0 + t)). rewrite <- (window t 0) by lia. reflexivity.
  - assert (E : exists s, t = (s + 16)%nat /\ (s < 48)%nat) by (exists (t - 16)%nat; lia). destruct E as [s [-> Hs]].
    replace (s + 16)%nat with (S s + 15)%nat at 1 by lia. rewrite <- window by lia. rewrite st_last by lia. unfold new_word.
    rewrite !window by lia. rewrite w32_mod, ssig1_ok, ssig0_ok by (apply mW_word; lia).
    replace (s + 16 - 2)%nat with (s + 14)%nat by lia. replace (s + 16 - 7)%nat with (s + 9)%nat by lia.
    replace (s + 16 - 15)%nat with (s + 1)%nat by lia. replace (s + 16 - 16)%nat with (s + 0)%nat by lia. reflexivity.
Qed.
Lemma mV_rounds : forall K, (forall t, (t < 64)%nat -> K t = nth t sha_k 0) -> rounds K h mW mV.
Proof.
  intros K HK. split; [reflexivity|]. intros t Ht. rewrite HK by exact Ht.
  assert (E : forall j, mV (S t) j = nth j (new_vars (fst (st t)) (nth t sha_k 0) (mW t)) 0) by (intros j; unfold mV; rewrite st_vars by exact Ht; reflexivity).
  assert (W : forall j, word (mV t j)) by (intros j; apply mV_word; lia).
  eexists. eexists. split; [reflexivity|]. split; [reflexivity|]. rewrite !E. unfold new_vars. cbv zeta. cbn [nth].
  rewrite !w32_mod. fold (mV t 0) (mV t 1) (mV t 2) (mV t 3) (mV t 4) (mV t 5) (mV t 6) (mV t 7).
  rewrite bsig0_ok, bsig1_ok, ch_ok, maj_ok by apply W. rewrite <- Zplus_mod, Zplus_mod_idemp_r. repeat split.
Qed.
(** any schedule and variables as in the standard are those of the model *)
Lemma schedule_unique : forall W, schedule M W -> forall t, (t < 64)%nat -> W t = mW t.
Proof.
  intros W [A B] t. destruct mW_schedule as [A' B']. induction t as [t IH] using lt_wf_ind. intros Ht.
  destruct (Nat.lt_ge_cases t 16) as [L|L]; [rewrite A, A' by exact L; reflexivity|].
  rewrite B, B' by lia. rewrite !IH by lia. reflexivity.
Qed.
Lemma rounds_unique : forall K W V, (forall t, (t < 64)%nat -> K t = nth t sha_k 0) -> (forall t, (t < 64)%nat -> W t = mW t) -> rounds K h W V ->
  forall t j, (t <= 64)%nat -> (j < 8)%nat -> V t j = mV t j.
Proof.
  intros K W V HK HW [A B] t. destruct (mV_rounds K HK) as [A' B']. induction t; intros j Ht Hj; [rewrite A, A' by exact Hj; reflexivity|].
  assert (I : forall i, (i < 8)%nat -> V t i = mV t i) by (intros i Hi; apply IHt; [lia|exact Hi]). clear IHt.
  destruct (B t ltac:(lia)) as (T1 & T2 & E1 & E2 & E). destruct (B' t ltac:(lia)) as (T1' & T2' & E1' & E2' & E').
  rewrite (HW t ltac:(lia)), !I in E1 by lia. rewrite !I in E2 by lia. rewrite <- E1' in E1. rewrite <- E2' in E2. subst T1 T2.
  rewrite !I in E by lia. clear E1' E2'. destruct E as (F0 & F4 & F1 & F2 & F3 & F5 & F6 & F7). destruct E' as (G0 & G4 & G1 & G2 & G3 & G5 & G6 & G7).
  do 8 (destruct j; [congruence|]). lia.
Qed.
End Block.

(** ** The message *)
Lemma words_length : forall k l, length l = (4 * k)%nat -> words l = map (word_at l) (seq 0 k).
Proof.
  induction k; intros l Hl.
  - destruct l; [reflexivity|cbn [length] in Hl; lia].
  - do 4 (destruct l as [|? l]; [cbn [length] in Hl; lia|]). cbn [words seq map]. f_equal.
    rewrite IHk by (cbn [length] in Hl; lia). rewrite <- (seq_shift k 0), map_map. apply map_ext. intros i. unfold word_at.
    replace (4 * S i)%nat with (S (S (S (S (4 * i))))) by lia. reflexivity.
Qed.
Lemma be4_word : forall l, bytes l -> (length l <= 4)%nat -> word (be_val l).
Proof.
  intros l B L. pose proof (be_val_range l B) as R. unfold word. assert (P : 256 ^ Z.of_nat (length l) <= 256 ^ 4) by (apply Z.pow_le_mono_r; lia).
  change (256 ^ 4) with (2 ^ 32) in P. lia.
Qed.
Lemma words_word : forall k l, bytes l -> Forall word (map (word_at l) (seq 0 k)).
Proof.
  intros k l B. apply Forall_forall. intros x I. apply in_map_iff in I. destruct I as [i [<- _]]. unfold word_at. apply be4_word.
  - apply bytes_firstn, bytes_skipn, B.
  - rewrite firstn_length. lia.
Qed.
Lemma firstn_sha_k : firstn 64 sha_k = sha_k.
Proof. reflexivity. Qed.
Lemma st_all : forall H M, fold_left sha_round sha_k (H, M) = st H M 64.
Proof. intros H M. unfold st. rewrite firstn_sha_k. reflexivity. Qed.
Lemma combine_words : forall H v, length H = 8%nat -> length v = 8%nat -> map (fun '(x, y) => w32 (x + y)) (combine H v) = map (fun j => (nth j H 0 + nth j v 0) mod 2 ^ 32) (seq 0 8).
Proof.
  intros H v LH LV. do 8 (destruct H as [|? H]; [discriminate LH|]). destruct H; [|discriminate LH].
  do 8 (destruct v as [|? v]; [discriminate LV|]). destruct v; [|discriminate LV].
  cbn [combine map seq nth]. rewrite !w32_mod. reflexivity.
Qed.
Lemma sha_block_eq : forall H b, length H = 8%nat -> Forall word H -> length b = 64%nat -> bytes b ->
  sha_block H b = map (fun j => (nth j H 0 + mV H (map (word_at b) (seq 0 16)) 64 j) mod 2 ^ 32) (seq 0 8).
Proof.
  intros H b LH WH Lb Bb. pose proof (words_length 16 b Lb) as EW. pose proof (words_word 16 b Bb) as WW.
  set (M := map (word_at b) (seq 0 16)) in *. assert (LW : length M = 16%nat) by (unfold M; rewrite map_length, seq_length; reflexivity). clearbody M.
  unfold sha_block. rewrite EW, st_all. rewrite combine_words; [|exact LH|exact (proj1 (st_shape H M LH WH LW WW 64 (le_n 64)))].
  apply map_ext. intros j. unfold mV. reflexivity.
Qed.
Lemma block_ok : forall K H b, (forall t, (t < 64)%nat -> K t = nth t sha_k 0) -> length H = 8%nat -> Forall word H -> length b = 64%nat -> bytes b ->
  (forall H', fips_block K H b H' <-> H' = sha_block H b) /\ length (sha_block H b) = 8%nat /\ Forall word (sha_block H b).
Proof.
  intros K H b HK LH WH Lb Bb. pose proof (words_length 16 b Lb) as EW. pose proof (words_word 16 b Bb) as WW.
  assert (E : sha_block H b = map (fun j => (nth j H 0 + mV H (map (word_at b) (seq 0 16)) 64 j) mod 2 ^ 32) (seq 0 8)).
  { exact (sha_block_eq H b LH WH Lb Bb). }
  clear EW. set (M := map (word_at b) (seq 0 16)) in *. assert (LW : length M = 16%nat) by (unfold M; rewrite map_length, seq_length; reflexivity).
  unfold fips_block. fold M. clearbody M.
  split; [|split].
  - intros H'. split.
    + intros (W & V & S & R & ->). rewrite E. apply map_ext_in. intros j I. apply in_seq in I.
      rewrite (rounds_unique H _ LH WH LW WW K W V HK) with (t := 64%nat) (j := j); [reflexivity| | |lia|lia].
      * apply (schedule_unique H _ LH WH LW WW W S).
      * exact R.
    + intros ->. eexists. eexists. split; [exact (mW_schedule H _ LH WH LW WW)|]. split; [exact (mV_rounds H _ LH WH LW WW K HK)|exact E].
  - rewrite E. reflexivity.
  - rewrite E. apply Forall_forall. intros x I. apply in_map_iff in I. destruct I as [j [<- _]]. apply Z.mod_pos_bound. reflexivity.
Qed.
Lemma chain_ok : forall K, (forall t, (t < 64)%nat -> K t = nth t sha_k 0) -> forall k H p, length H = 8%nat -> Forall word H -> length p = (64 * k)%nat -> bytes p ->
  forall H', fips_chain K H p H' <-> H' = sha_blocks k H p.
Proof.
  intros K HK. induction k; intros H p LH WH Lp Bp H'.
  - destruct p; [|cbn [length] in Lp; lia]. cbn [sha_blocks]. split.
    + intros C. inversion C as [|? b l ? ? Lb ? ? E1]; subst; [reflexivity|]. destruct b; [discriminate Lb|discriminate].
    + intros ->. constructor.
  - cbn [sha_blocks].
    assert (Lf : length (firstn 64 p) = 64%nat) by (rewrite firstn_length; lia).
    assert (Ls : length (skipn 64 p) = (64 * k)%nat) by (rewrite skipn_length; lia).
    destruct (block_ok K H (firstn 64 p) HK LH WH Lf (bytes_firstn _ _ Bp)) as [E [L1 W1]].
    pose proof (IHk _ _ L1 W1 Ls (bytes_skipn _ _ Bp)) as I. split.
    + intros C. inversion C as [|? b l H1 ? Lb Cb Cl E1]; subst; [cbn [length] in Lp; lia|].
      assert (F : firstn 64 (b ++ l) = b) by (rewrite <- Lb at 1; rewrite firstn_app, firstn_all, Nat.sub_diag; apply app_nil_r).
      assert (S : skipn 64 (b ++ l) = l) by (rewrite <- Lb at 1; rewrite skipn_app, skipn_all, Nat.sub_diag; reflexivity).
      rewrite F in E. rewrite F, S in I. rewrite F, S. apply E in Cb. subst H1. apply I. exact Cl.
    + intros ->. rewrite <- (firstn_skipn 64 p) at 1. econstructor; [exact Lf|apply E; reflexivity|apply I; reflexivity].
Qed.
Lemma pad_ok : forall m p, padded m p <-> p = sha_pad m.
Proof.
  assert (U : forall m k, (k < 64)%nat -> (64 | Z.of_nat (length (m ++ [128] ++ repeat 0 k ++ be_bytes 8 (8 * Z.of_nat (length m))))) <-> k = Z.to_nat ((55 - Z.of_nat (length m)) mod 64)).
  { intros m k Hk. rewrite !app_length, repeat_length, be_bytes_length. cbn [length]. set (L := Z.of_nat (length m)).
    replace (Z.of_nat (length m + (1 + (k + 8)))) with (L + Z.of_nat k + 9) by (unfold L; lia). split.
    - intros [q D]. assert (E : (55 - L) mod 64 = Z.of_nat k). { symmetry. apply (Zmod_unique _ _ (1 - q)); lia. } rewrite E. lia.
    - intros ->. pose proof (Z.mod_pos_bound (55 - L) 64 ltac:(lia)). rewrite Z2Nat.id by lia. pose proof (Z.div_mod (55 - L) 64 ltac:(lia)).
      exists (1 - (55 - L) / 64). lia. }
  intros m p. unfold sha_pad. cbv zeta. split.
  - intros (k & Hk & -> & D). apply U in D; [|exact Hk]. subst k. reflexivity.
  - intros ->. pose proof (Z.mod_pos_bound (55 - Z.of_nat (length m)) 64 ltac:(lia)).
    exists (Z.to_nat ((55 - Z.of_nat (length m)) mod 64)). split; [lia|]. split; [reflexivity|]. apply U; [lia|reflexivity].
Qed.
Lemma sha256_fips : forall m d, bytes m -> (fips_sha256 m d <-> d = sha256 m).
Proof.
  intros m d Bm. assert (Lp : length (sha_pad m) = (64 * (length (sha_pad m) / 64))%nat).
  { assert (P : padded m (sha_pad m)) by (apply pad_ok; reflexivity). destruct P as (k & _ & _ & [q D]).
    assert (E : length (sha_pad m) = (64 * Z.to_nat q)%nat) by lia. rewrite E, (Nat.mul_comm 64 (Z.to_nat q)), Nat.div_mul by lia. lia. }
  assert (Bp : bytes (sha_pad m)).
  { unfold sha_pad. cbv zeta. apply bytes_app; [exact Bm|]. apply bytes_app; [repeat constructor; lia|]. apply bytes_app; [apply bytes_repeat0|apply bytes_be]. }
  assert (Wh : Forall word sha_h) by (repeat constructor; unfold word; lia).
  unfold fips_sha256, sha256. cbv zeta. split.
  - intros (K & H0 & p & H' & RK & I & P & C & ->). apply initial_hash_iff in I. apply pad_ok in P. subst H0 p. rewrite round_constants_iff in RK.
    apply (chain_ok K RK _ sha_h (sha_pad m) eq_refl Wh Lp Bp) in C. subst H'. reflexivity.
  - intros ->. exists (fun t => nth t sha_k 0), sha_h, (sha_pad m). eexists. split; [apply round_constants_iff; reflexivity|]. split; [apply initial_hash_iff; reflexivity|].
    split; [apply pad_ok; reflexivity|]. split; [|reflexivity]. apply (chain_ok _ (fun t _ => eq_refl) _ sha_h (sha_pad m) eq_refl Wh Lp Bp). reflexivity.
Qed.

(** RFC 2104: the key, hashed if longer than a block, filled up with zeros to a block; [xor] with the bytes 0x5c and 0x36 *)
Definition block_key (key k0 : list Z) : Prop :=
  length k0 = 64%nat /\
  exists k z, k0 = k ++ z /\ Forall (eq 0) z /\ ((length key <= 64)%nat /\ k = key \/ (64 < length key)%nat /\ fips_sha256 key k).
Definition xor_pad (c : Z) (k0 r : list Z) : Prop :=
  length r = length k0 /\ forall i, (i < length k0)%nat -> nth i r 0 = of_bits 8 (fun j => xorb (Z.testbit (nth i k0 0) j) (Z.testbit c j)).
Definition rfc2104 (key m d : list Z) : Prop :=
  exists k0 ik ok inner, block_key key k0 /\ xor_pad 0x36 k0 ik /\ xor_pad 0x5c k0 ok /\ fips_sha256 (ik ++ m) inner /\ fips_sha256 (ok ++ inner) d.

Lemma byte_high : forall x i, 0 <= x < 256 -> 8 <= i -> Z.testbit x i = false.
Proof.
  intros x i Hx Hi. destruct (Z.eq_dec x 0) as [->|N]; [apply Z.bits_0|].
  apply Z.bits_above_log2; [lia|]. apply Z.lt_le_trans with 8; [|lia]. apply Z.log2_lt_pow2; lia.
Qed.
Lemma xor_pad_ok : forall c k0 r, 0 <= c < 256 -> bytes k0 -> (xor_pad c k0 r <-> r = map (Z.lxor c) k0).
Proof.
  intros c k0 r Hc B. assert (X : forall i, (i < length k0)%nat -> of_bits 8 (fun j => xorb (Z.testbit (nth i k0 0) j) (Z.testbit c j)) = Z.lxor c (nth i k0 0)).
  { intros i Hi. assert (Y : 0 <= nth i k0 0 < 256) by (unfold bytes in B; rewrite Forall_forall in B; apply B, nth_In, Hi).
    apply Z.bits_inj'. intros j Hj. rewrite of_bits_testbit, Z.lxor_spec by exact Hj. change (Z.of_nat 8) with 8.
    destruct (Z.ltb_spec j 8); [destruct (Z.testbit c j), (Z.testbit (nth i k0 0) j); reflexivity|].
    rewrite (byte_high c), (byte_high (nth i k0 0)) by assumption. reflexivity. }
  assert (Y : forall i, (i < length k0)%nat -> nth i (map (Z.lxor c) k0) 0 = Z.lxor c (nth i k0 0)).
  { intros i Hi. rewrite (nth_indep _ 0 (Z.lxor c 0)) by (rewrite map_length; exact Hi). apply map_nth. }
  split.
  - intros [L E]. apply (nth_ext _ _ 0 0); [rewrite map_length; exact L|]. intros i Hi. rewrite L in Hi. rewrite E, X, Y by exact Hi. reflexivity.
  - intros ->. split; [apply map_length|]. intros i Hi. rewrite X, Y by exact Hi. reflexivity.
Qed.
Lemma zeros_repeat : forall z, Forall (eq 0) z -> z = repeat 0 (length z).
Proof. induction z as [|a z IH]; intros F; [reflexivity|]. inversion F as [|? ? E F']. cbn [length repeat]. rewrite <- IH by exact F'. rewrite <- E. reflexivity. Qed.
Lemma zeros_all : forall k, Forall (eq 0) (repeat 0 k).
Proof. induction k; cbn [repeat]; constructor; auto. Qed.
Lemma xor_bytes : forall c l, 0 <= c < 256 -> bytes l -> bytes (map (Z.lxor c) l).
Proof.
  intros c l Hc B. apply Forall_forall. intros x I. apply in_map_iff in I. destruct I as [y [<- I]]. unfold bytes in B. rewrite Forall_forall in B. specialize (B y I). cbv beta in B.
  split; [apply Z.lxor_nonneg; lia|]. destruct (Z.eq_dec (Z.lxor c y) 0) as [->|N]; [lia|].
  change 256 with (2 ^ 8). apply Z.log2_lt_pow2; [assert (0 <= Z.lxor c y) by (apply Z.lxor_nonneg; lia); lia|].
  pose proof (Z.log2_lxor c y ltac:(lia) ltac:(lia)) as U. assert (V : forall v, 0 <= v < 256 -> Z.log2 v < 8).
  { intros v Hv. destruct (Z.eq_dec v 0) as [->|M]; [reflexivity|]. apply Z.log2_lt_pow2; lia. }
  pose proof (V c Hc). pose proof (V y B). lia.
Qed.
Lemma hmac_rfc2104 : forall key m d, bytes key -> bytes m -> (rfc2104 key m d <-> d = hmac sha256 key m).
Proof.
  intros key m d Bk Bm.
  set (k := if Nat.ltb 64 (length key) then sha256 key else key).
  assert (Lk : (length k <= 64)%nat). { unfold k. destruct (Nat.ltb_spec 64 (length key)); [|lia]. rewrite (proj1 (proj1 C69_hmac_sha256_pf key)). lia. }
  assert (Bk' : bytes k). { unfold k. destruct (Nat.ltb_spec 64 (length key)); [apply C69_hmac_sha256_pf|exact Bk]. }
  assert (E : forall k0, block_key key k0 <-> k0 = k ++ repeat 0 (64 - length k)).
  { intros k0. unfold block_key, k. destruct (Nat.ltb_spec 64 (length key)) as [L|L].
    - split.
      + intros [L0 (k1 & z & -> & Z0 & [[A _]|[_ A]])]; [lia|]. apply (sha256_fips key k1 Bk) in A. subst k1. rewrite (zeros_repeat z Z0) at 1. f_equal. f_equal.
        rewrite app_length in L0. lia.
      + intros ->. split; [rewrite app_length, repeat_length; unfold k in Lk; destruct (Nat.ltb_spec 64 (length key)) in Lk; lia|].
        eexists. eexists. split; [reflexivity|]. split; [apply zeros_all|]. right. split; [exact L|]. apply sha256_fips; [exact Bk|reflexivity].
    - split.
      + intros [L0 (k1 & z & -> & Z0 & [[_ ->]|[A _]])]; [|lia]. rewrite (zeros_repeat z Z0) at 1. f_equal. f_equal. rewrite app_length in L0. lia.
      + intros ->. split; [rewrite app_length, repeat_length; lia|]. eexists. eexists. split; [reflexivity|]. split; [apply zeros_all|]. left. split; [exact L|reflexivity]. }
  set (k0 := k ++ repeat 0 (64 - length k)) in *. assert (B0 : bytes k0) by (apply bytes_app; [exact Bk'|apply bytes_repeat0]).
  assert (BI : bytes (map (Z.lxor 54) k0 ++ m)) by (apply bytes_app; [apply xor_bytes; [lia|exact B0]|exact Bm]).
  assert (BO : bytes (map (Z.lxor 92) k0 ++ sha256 (map (Z.lxor 54) k0 ++ m))) by (apply bytes_app; [apply xor_bytes; [lia|exact B0]|apply C69_hmac_sha256_pf]).
  change (hmac sha256 key m) with (sha256 (map (Z.lxor 92) k0 ++ sha256 (map (Z.lxor 54) k0 ++ m))). unfold rfc2104. split.
  - intros (k1 & ik & ok & inner & A & P & Q & I & O). apply E in A. subst k1. apply (xor_pad_ok 54 k0 ik ltac:(lia) B0) in P. apply (xor_pad_ok 92 k0 ok ltac:(lia) B0) in Q. subst ik ok.
    apply (sha256_fips _ _ BI) in I. subst inner. apply (sha256_fips _ _ BO) in O. exact O.
  - intros ->. exists k0, (map (Z.lxor 54) k0), (map (Z.lxor 92) k0), (sha256 (map (Z.lxor 54) k0 ++ m)).
    split; [apply E; reflexivity|]. split; [apply xor_pad_ok; [lia|exact B0|reflexivity]|]. split; [apply xor_pad_ok; [lia|exact B0|reflexivity]|].
    split; [apply sha256_fips; [exact BI|reflexivity]|apply sha256_fips; [exact BO|reflexivity]].
Qed.

(** The hash of the model is the one FIPS 180-4 defines: bit functions, constants from the primes, schedule, rounds, chaining and padding. *)
Lemma C69_sha256_fips_pf : forall m d, bytes m -> (fips_sha256 m d <-> d = sha256 m).
Proof. exact sha256_fips. Qed.
(** The keyed hash of the model is HMAC of RFC 2104 over it. *)
Lemma C69_hmac_rfc2104_pf : forall key m d, bytes key -> bytes m -> (rfc2104 key m d <-> d = hmac sha256 key m).
Proof. exact hmac_rfc2104. Qed.
Lemma C69_sha256_fips_example_pf : bytes [97; 98; 99] /\ fips_sha256 [97; 98; 99] (be_bytes 32 0xba7816bf8f01cfea414140de5dae2223b00361a396177a9cb410ff61f20015ad).
Proof.
  assert (B : bytes [97; 98; 99]) by (repeat constructor; lia). split; [exact B|]. apply (sha256_fips _ _ B). rewrite <- (proj1 C69_hmac_sha256_example_pf).
  exact (be_bytes_32 _ (proj1 (proj1 C69_hmac_sha256_pf _)) (proj2 (proj1 C69_hmac_sha256_pf _))).
Qed.
Lemma C69_hmac_rfc2104_example_pf : bytes [74; 101; 102; 101] /\ rfc2104 [74; 101; 102; 101]
  [119; 104; 97; 116; 32; 100; 111; 32; 121; 97; 32; 119; 97; 110; 116; 32; 102; 111; 114; 32; 110; 111; 116; 104; 105; 110; 103; 63]
  (be_bytes 32 0x5bdcc146bf60754e6a042426089575c75a003f089d2739839dec58b964ec3843).
Proof.
  assert (B : bytes [74; 101; 102; 101]) by (repeat constructor; lia). split; [exact B|]. apply hmac_rfc2104; [exact B|repeat constructor; lia|].
  rewrite <- (proj2 (proj2 C69_hmac_sha256_example_pf)).
  exact (be_bytes_32 _ (proj1 (proj2 C69_hmac_sha256_pf _ _)) (proj2 (proj2 C69_hmac_sha256_pf _ _))).
Qed.
