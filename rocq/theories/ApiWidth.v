(** The DER parsers on targets with a [usize] of 32 bits, compared with the 64-bit ones. *)
From Verif Require Import Word MScalar MEcdsa MDer MApi MWidth WP ScalarAcc ScalarMul Spec Fp Bits ScalarOps ScalarRed ScalarMore ScalarBits Denote ApiScalar ApiDer ApiGrammar.

(** * Specification *)

(** a length field that stands for 2^32 - 1, followed by at least 16 MiB *)
Definition huge_field (b : list Z) : Prop :=
  exists pre rest, b = pre ++ [132; 255; 255; 255; 255] ++ rest /\ 2 ^ 24 <= len rest.

(** * The strict parser *)

Lemma shl64 ret : 0 <= ret < 2 ^ 55 -> Z.shiftl ret 8 mod 2 ^ 64 = ret * 256.
Proof.
  intros R. rewrite Z.shiftl_mul_pow2 by lia. change (2 ^ 8) with 256. apply Z.mod_small.
  change (2 ^ 55) with 36028797018963968 in R. change (2 ^ 64) with 18446744073709551616. lia.
Qed.
Lemma shl32 ret : 0 <= ret < 2 ^ 24 -> Z.shiftl ret 8 mod 2 ^ (8 * 4) = ret * 256.
Proof.
  intros R. rewrite Z.shiftl_mul_pow2 by lia. change (2 ^ 8) with 256. apply Z.mod_small.
  change (2 ^ 24) with 16777216 in R. change (2 ^ (8 * 4)) with 4294967296. lia.
Qed.
Lemma lor256 ret v : 0 <= ret -> 0 <= v < 256 -> Z.lor (ret * 256) v = ret * 256 + v.
Proof. intros R V. rewrite Z.lor_comm. change 256 with (2 ^ 8). rewrite lor_add by (change (2 ^ 8) with 256; lia). lia. Qed.

Definition same_or_huge {A} (dbg : bool) (o32 o64 : option (result A)) (b : list Z) : Prop :=
  o32 = o64 \/ (dbg = true /\ o32 = None /\ o64 = derr /\ huge_field b).

Section Build.
Variable dbg : bool.

(** one round of the two loops *)
Lemma loop64_S k ret v t : 0 <= ret < 2 ^ 54 -> 0 <= v < 256 -> Z.of_nat k < 2 ^ 54 ->
  read_len_loop dbg (S k) ret (v :: t) = if len t <? ret * 256 + v + Z.of_nat (S k) then derr else read_len_loop dbg k (ret * 256 + v) t.
Proof.
  intros R V K. cbn [read_len_loop d_read rbind]. change (2 ^ 54) with 18014398509481984 in *.
  rewrite shl64 by (change (2 ^ 55) with 36028797018963968; lia). rewrite lor256 by lia.
  change (bind (Some ?x) ?f) with (f x). cbv beta. unfold add64.
  rewrite uchk_ok by (change (2 ^ 64) with 18446744073709551616; lia). reflexivity.
Qed.
Lemma loop32_S k ret v t : 0 <= ret < 2 ^ 24 -> 0 <= v < 256 -> ret * 256 + v + Z.of_nat (S k) < 2 ^ 32 ->
  read_len_loop_w dbg 4 (S k) ret (v :: t) = if len t <? ret * 256 + v + Z.of_nat (S k) then derr else read_len_loop_w dbg 4 k (ret * 256 + v) t.
Proof.
  intros R V K. cbn [read_len_loop_w d_read rbind]. rewrite shl32 by lia. rewrite lor256 by lia.
  change (bind (Some ?x) ?f) with (f x). cbv beta. unfold add_usize. rewrite uchk_ok by (change (8 * 4) with 32; lia). reflexivity.
Qed.
Lemma loop32_over t : read_len_loop_w dbg 4 1 (2 ^ 24 - 1) (255 :: t) = if dbg then None else Some (Ok (2 ^ 32 - 1, t)).
Proof.
  cbn [read_len_loop_w d_read rbind]. rewrite shl32 by lia. rewrite lor256 by lia.
  change (bind (Some ?x) ?f) with (f x). cbv beta. change (add_usize dbg 4 ((2 ^ 24 - 1) * 256 + 255) (Z.of_nat 1)) with (if dbg then @None Z else Some 0).
  destruct dbg; [reflexivity|]. cbn [bind]. unfold remaining_len. destruct (Z.ltb_spec (len t) 0); [lia | reflexivity].
Qed.

Lemma loop_rel k : forall ret d, (k <= 4)%nat -> bytes d -> 0 <= ret < 256 ^ (4 - Z.of_nat k) -> len d < 2 ^ 32 - 1 ->
  read_len_loop_w dbg 4 k ret d = read_len_loop dbg k ret d \/
  (exists rest, (0 < k)%nat /\ d = repeat 255 k ++ rest /\ ret = 256 ^ (4 - Z.of_nat k) - 1 /\ ((2 <= k)%nat -> 2 ^ 24 <= len rest) /\
     read_len_loop dbg k ret d = derr /\ read_len_loop_w dbg 4 k ret d = if dbg then None else Some (Ok (2 ^ 32 - 1, rest))).
Proof.
  induction k as [|k IH]; intros ret d K B R L; [left; reflexivity|].
  destruct d as [|v t]; [left; reflexivity|]. apply Forall_cons_iff in B. destruct B as [V Bt]. unfold byte in V. cbn [length] in L.
  assert (P : 256 ^ (4 - Z.of_nat k) = 256 * 256 ^ (4 - Z.of_nat (S k))) by (rewrite <- Z.pow_succ_r by lia; f_equal; lia).
  assert (P4 : 256 ^ (4 - Z.of_nat k) <= 256 ^ 4) by (apply Z.pow_le_mono_r; lia). change (256 ^ 4) with 4294967296 in P4.
  change (2 ^ 32) with 4294967296 in *. change (2 ^ 24) with 16777216 in *.
  rewrite loop64_S by (change (2 ^ 54) with 18014398509481984; lia).
  destruct k as [|k].
  - change (256 ^ (4 - Z.of_nat 1)) with 16777216 in *. change (Z.of_nat 1) with 1 in *.
    destruct (Z.eqb_spec (ret * 256 + v) 4294967295) as [E|E].
    + assert (ret = 16777215 /\ v = 255) as [-> ->] by lia. right. exists t. split; [lia|]. split; [reflexivity|]. split; [reflexivity|]. split; [lia|].
      change (16777215 * 256 + 255 + 1) with 4294967296. destruct (Z.ltb_spec (len t) 4294967296); [|lia]. split; [reflexivity|].
      exact (loop32_over t).
    + left. rewrite loop32_S by (change (2 ^ 24) with 16777216; change (2 ^ 32) with 4294967296; lia). reflexivity.
  - assert (P3 : 256 ^ (4 - Z.of_nat (S k)) <= 256 ^ 3) by (apply Z.pow_le_mono_r; lia). change (256 ^ 3) with 16777216 in P3.
    rewrite loop32_S by (change (2 ^ 24) with 16777216; change (2 ^ 32) with 4294967296; lia).
    destruct (Z.ltb_spec (len t) (ret * 256 + v + Z.of_nat (S (S k)))) as [?C|?C]; [left; reflexivity|].
    destruct (IH (ret * 256 + v) t) as [E | (rest & _ & E & Er & Hr & E1 & E2)]; [lia | exact Bt | lia | lia | left; exact E|].
    right. exists rest. assert (ret = 256 ^ (4 - Z.of_nat (S (S k))) - 1 /\ v = 255) as [-> ->] by lia.
    split; [lia|]. split; [rewrite E; reflexivity|]. split; [reflexivity|]. split; [|split; assumption].
    intros _. destruct k as [|k]; [|apply Hr; lia].
    change (256 ^ (4 - Z.of_nat 2)) with 65536 in *. rewrite E in C. change (repeat 255 1 ++ rest) with (255 :: rest) in C. cbn [length] in C. lia.
Qed.

Lemma loop_lower k : forall ret d, (k <= 8)%nat -> bytes d -> 0 <= ret < 2 ^ 32 -> len d < 2 ^ 32 ->
  wpr (read_len_loop dbg k ret d) (fun '(r, _) => ret * 256 ^ Z.of_nat k <= r < 2 ^ 32).
Proof.
  change (2 ^ 32) with 4294967296. induction k as [|k IH]; intros ret d K B R L.
  - cbn. lia.
  - destruct d as [|v t]; [reflexivity|]. apply Forall_cons_iff in B. destruct B as [V Bt]. unfold byte in V. cbn [length] in L.
    rewrite loop64_S by (change (2 ^ 54) with 18014398509481984; lia).
    destruct (Z.ltb_spec (len t) (ret * 256 + v + Z.of_nat (S k))); [reflexivity|].
    eapply wpr_mono; [apply IH; [lia | exact Bt | lia | lia]|]. intros [r d'] [H1 H2].
    assert (P : 256 ^ Z.of_nat (S k) = 256 * 256 ^ Z.of_nat k) by (rewrite <- Z.pow_succ_r by lia; f_equal; lia).
    assert (0 < 256 ^ Z.of_nat k) by (apply Z.pow_pos_nonneg; lia). split; [rewrite P; nia | exact H2].
Qed.
(** five to eight length bytes never end well on inputs below 4 GiB *)
Lemma loop_long k v t : (5 <= k <= 8)%nat -> v <> 0 -> bytes (v :: t) -> len (v :: t) < 2 ^ 32 -> read_len_loop dbg k 0 (v :: t) = derr.
Proof.
  intros K V0 B L. change (2 ^ 32) with 4294967296 in *. destruct k as [|k]; [lia|].
  pose proof B as B'. apply Forall_cons_iff in B'. destruct B' as [V Bt]. unfold byte in V. cbn [length] in L.
  rewrite loop64_S by (change (2 ^ 54) with 18014398509481984; lia). rewrite Z.mul_0_l, Z.add_0_l.
  destruct (len t <? v + Z.of_nat (S k)); [reflexivity|].
  assert (W : wpr (read_len_loop dbg k v t) (fun '(r, _) => v * 256 ^ Z.of_nat k <= r < 2 ^ 32)).
  { apply loop_lower; [lia | exact Bt | change (2 ^ 32) with 4294967296; lia | change (2 ^ 32) with 4294967296; lia]. }
  change (2 ^ 32) with 4294967296 in W.
  destruct (read_len_loop dbg k v t) as [[[r d']|e]|]; cbn [wpr] in W; [|rewrite W; reflexivity|contradiction].
  exfalso. destruct W as [W1 W2].
  assert (256 ^ 4 <= 256 ^ Z.of_nat k) by (apply Z.pow_le_mono_r; lia). change (256 ^ 4) with 4294967296 in *. nia.
Qed.

Lemma read_len_rel d : bytes d -> len d < 2 ^ 32 - 1 ->
  d_read_len_w dbg 4 d = d_read_len dbg d \/
  (exists rest, d = [132; 255; 255; 255; 255] ++ rest /\ 2 ^ 24 <= len rest /\ d_read_len dbg d = derr /\
     d_read_len_w dbg 4 d = if dbg then None else Some (Ok (2 ^ 32 - 1, rest))).
Proof.
  intros B L. destruct d as [|b1 t]; [left; reflexivity|]. pose proof B as B'. apply Forall_cons_iff in B'. destruct B' as [V Bt]. unfold byte in V. cbn [length] in L.
  unfold d_read_len_w, d_read_len. cbn [d_read rbind].
  destruct (Z.eqb_spec b1 255) as [?E|?E]; [left; reflexivity|]. rewrite land128 by exact V.
  destruct (Z.ltb_spec b1 128) as [?C|?C]; [left; reflexivity|].
  destruct (Z.eqb_spec b1 128) as [?E|?E]; [left; reflexivity|].
  assert (LL : Z.land b1 127 = b1 - 128).
  { change 127 with (Z.ones 7). rewrite Z.land_ones by lia. symmetry. apply (Z.mod_unique _ _ 1); lia. }
  rewrite LL. change (bind (Some ?x) ?f) with (f x). cbv beta.
  destruct (remaining_len t <? b1 - 128); [left; reflexivity|].
  destruct t as [|v t]; [left; reflexivity|]. cbn [d_peek nth_error rbind].
  destruct (Z.eqb_spec v 0) as [?E|?E]; [left; reflexivity|].
  destruct (Z.ltb_spec 8 (b1 - 128)) as [?C|?C]; destruct (Z.ltb_spec 4 (b1 - 128)) as [?C|?C]; [left; reflexivity | lia | |].
  - left. rewrite loop_long; [reflexivity | lia | assumption | exact Bt | lia].
  - set (k := Z.to_nat (b1 - 128)). assert (K : Z.of_nat k = b1 - 128) by (unfold k; lia).
    destruct (loop_rel k 0 (v :: t)) as [H | (rest & K1 & E2 & R0 & Hr & E3 & E4)]; [lia | exact Bt | split; [lia | apply Z.pow_pos_nonneg; lia] | lia | |].
    + left. rewrite H. reflexivity.
    + right. assert (k = 4%nat) as K4.
      { destruct (Nat.eq_dec k 4) as [->|NE]; [reflexivity|]. exfalso.
        assert (256 ^ 1 <= 256 ^ (4 - Z.of_nat k)) by (apply Z.pow_le_mono_r; lia). change (256 ^ 1) with 256 in *. lia. }
      rewrite K4 in *. exists rest. split; [rewrite E2; cbn [repeat app]; f_equal; lia|]. split; [apply Hr; lia|]. rewrite E3, E4. split; [reflexivity|].
      destruct dbg; [reflexivity|]. cbn [rbind]. destruct (Z.ltb_spec (2 ^ 32 - 1) 128) as [C'|]; [|reflexivity]. change (2 ^ 32) with 4294967296 in C'. lia.
Qed.

Lemma read_integer_unfold d : d_read_integer dbg d =
  rbind (d_read d) (fun '(tag, d) => if negb (tag =? 2) then derr else rbind (d_read_len dbg d) (fun '(rlen, d) => d_integer_body dbg rlen d)).
Proof. reflexivity. Qed.
Lemma body_huge dg rest : len rest < 2 ^ 32 - 1 -> d_integer_body dg (2 ^ 32 - 1) rest = derr.
Proof.
  intros L. unfold d_integer_body, remaining_len. destruct (Z.ltb_spec (len rest) (2 ^ 32 - 1)) as [C|C]; [|lia]. rewrite orb_true_r. reflexivity.
Qed.


Lemma huge_app a b : huge_field b -> huge_field (a ++ b).
Proof. intros (pre & rest & -> & H). exists (a ++ pre), rest. rewrite <- !app_assoc. split; [reflexivity | exact H]. Qed.

Lemma read_integer_rel d : bytes d -> len d < 2 ^ 32 - 1 -> same_or_huge dbg (d_read_integer_w dbg 4 d) (d_read_integer dbg d) d.
Proof.
  intros B L. rewrite read_integer_unfold. unfold d_read_integer_w. destruct d as [|tag t]; [left; reflexivity|]. cbn [d_read rbind].
  destruct (negb (tag =? 2)); [left; reflexivity|]. apply Forall_cons_iff in B. destruct B as [_ B]. cbn [length] in L.
  destruct (read_len_rel t B) as [E | (rest & E & Hr & E1 & E2)]; [lia | left; rewrite E; reflexivity|].
  rewrite E1, E2. assert (Lr : len rest < 2 ^ 32 - 1) by (rewrite E, app_length in L; lia).
  destruct dbg.
  - right. split; [reflexivity|]. split; [reflexivity|]. split; [reflexivity|]. exists [tag], rest. rewrite E. split; [reflexivity | exact Hr].
  - left. cbn [rbind]. rewrite (body_huge false rest Lr). reflexivity.
Qed.

(** what a reader leaves is a suffix of what it was given *)
Definition sfx {A} (o : option (result (A * decoder))) (d : decoder) : Prop :=
  match o with Some (Ok (_, d')) => exists e, d = e ++ d' | _ => True end.
Lemma sfx_refl {A} (a : A) d : sfx (Some (Ok (a, d))) d.
Proof. exists []. reflexivity. Qed.
Lemma sfx_cons {A} (o : option (result (A * decoder))) x d : sfx o d -> sfx o (x :: d).
Proof. destruct o as [[[a d']|e]|]; cbn; auto. intros [e ->]. exists (x :: e). reflexivity. Qed.
Lemma sfx_bind {A B} (o : option (result (A * decoder))) (f : A * decoder -> option (result (B * decoder))) d :
  sfx o d -> (forall a d', sfx (f (a, d')) d') -> sfx (rbind o f) d.
Proof.
  destruct o as [[[a d']|e]|]; cbn [rbind sfx]; auto. intros [e ->] H. specialize (H a d').
  destruct (f (a, d')) as [[[b d2]|e2]|]; cbn [sfx] in *; auto. destruct H as [e2 ->]. exists (e ++ e2). apply app_assoc.
Qed.
Lemma read_sfx d : sfx (d_read d) d.
Proof. destruct d as [|v t]; [exact I|]. exists [v]. reflexivity. Qed.
Lemma loop_sfx k : forall ret d, sfx (read_len_loop dbg k ret d) d.
Proof.
  induction k as [|k IH]; intros ret d; cbn [read_len_loop]; [apply sfx_refl|].
  apply sfx_bind; [apply read_sfx|]. intros v t. change (bind (Some ?x) ?f) with (f x). cbv beta.
  destruct (add64 dbg _ _); cbn [bind]; [|exact I]. destruct (remaining_len t <? z); [exact I | apply IH].
Qed.
Lemma read_len_sfx d : sfx (d_read_len dbg d) d.
Proof.
  unfold d_read_len. apply sfx_bind; [apply read_sfx|]. intros v t.
  destruct (v =? 255); [exact I|]. destruct (Z.land v 128 =? 0); [apply sfx_refl|]. destruct (v =? 128); [exact I|].
  change (bind (Some ?x) ?f) with (f x). cbv beta. destruct (remaining_len t <? Z.land v 127); [exact I|].
  destruct (d_peek t 0) as [[b|e]|]; cbn [rbind]; try exact I. destruct (b =? 0); [exact I|]. destruct (8 <? Z.land v 127); [exact I|].
  apply sfx_bind; [apply loop_sfx|]. intros r d'. destruct (r <? 128); [exact I | apply sfx_refl].
Qed.
Lemma skip_zeros_sfx d : forall k, match skip_zeros d k with Some (Ok (d', _)) => exists e, d = e ++ d' | _ => True end.
Proof.
  induction d as [|a t IH]; intros k; cbn [skip_zeros].
  - destruct (0 <? k); [exact I|]. exists []. reflexivity.
  - destruct (0 <? k); [|exists []; reflexivity]. destruct (a =? 0); [|exists []; reflexivity].
    specialize (IH (k - 1)). destruct (skip_zeros t (k - 1)) as [[[d' k']|e]|]; auto. destruct IH as [e ->]. exists (a :: e). reflexivity.
Qed.
Lemma read_scalar_sfx d k : sfx (read_scalar dbg d k) d.
Proof.
  unfold read_scalar, d_peek_slice, d_skip. destruct (bad_span d k); [exact I|]. cbn [rbind].
  change (bind (Some ?x) ?f) with (f x). cbv beta. cbn [rbind].
  destruct (s_set_b32 dbg _) as [[x ov]|]; cbn [bind]; [|exact I]. exists (firstn (Z.to_nat k) d). symmetry. apply firstn_skipn.
Qed.
Lemma body_sfx k d : sfx (d_integer_body dbg k d) d.
Proof.
  unfold d_integer_body. destruct ((k =? 0) || (remaining_len d <? k)); [exact I|].
  destruct (d_peek d 0) as [[b0|e]|]; cbn [rbind]; try exact I.
  set (o1 := if (b0 =? 0) && (1 <? k) then _ else _). destruct o1 as [[[|]|e]|]; cbn [rbind]; try exact I.
  set (o2 := if (b0 =? 255) && (1 <? k) then _ else _). destruct o2 as [[[|]|e]|]; cbn [rbind]; try exact I.
  change (bind (Some ?x) ?f) with (f x). cbv beta. pose proof (skip_zeros_sfx d k) as H.
  destruct (skip_zeros d k) as [[[d' k']|e]|]; cbn [rbind]; try exact I. destruct H as [e ->].
  repeat (change (bind (Some ?x) ?f) with (f x); cbv beta).
  match goal with |- context [negb ?x] => destruct (negb x) end.
  - pose proof (read_scalar_sfx d' k') as H. destruct (read_scalar dbg d' k') as [[[x d2]|e2]|]; cbn [sfx] in *; auto.
    destruct H as [e2 ->]. exists (e ++ e2). apply app_assoc.
  - exists e. reflexivity.
Qed.
Lemma read_integer_sfx d : sfx (d_read_integer dbg d) d.
Proof.
  rewrite read_integer_unfold. apply sfx_bind; [apply read_sfx|]. intros tag t. destruct (negb (tag =? 2)); [exact I|].
  apply sfx_bind; [apply read_len_sfx|]. intros k d'. apply body_sfx.
Qed.
Lemma parse_der_rel b : bytes b -> len b < 2 ^ 32 - 1 -> same_or_huge dbg (sig_parse_der_w dbg 4 b) (sig_parse_der dbg b) b.
Proof.
  intros B L. unfold sig_parse_der_w, sig_parse_der, d_read_constructed_sequence. destruct b as [|c d]; cbn [d_read rbind derr]; [left; reflexivity|].
  destruct (c =? 48); cbn [rbind derr]; [|left; reflexivity]. apply Forall_cons_iff in B. destruct B as [_ B]. cbn [length] in L.
  destruct (read_len_rel d B) as [E | (rest & E & Hr & E1 & E2)]; [lia | |].
  - rewrite E. pose proof (read_len_sfx d) as W.
    destruct (d_read_len dbg d) as [[[rl d1]|e]|]; cbn [rbind]; [|left; reflexivity|left; reflexivity].
    cbn [sfx] in W. destruct W as (e1 & ->).
    destruct (negb (rl =? remaining_len d1)); [left; reflexivity|].
    apply Forall_app in B. destruct B as [_ B1]. rewrite app_length in L.
    destruct (read_integer_rel d1 B1) as [E1 | (D & E1 & E2 & E3)]; [lia | |].
    + rewrite E1. pose proof (read_integer_sfx d1) as W.
      destruct (d_read_integer dbg d1) as [[[r d2]|e]|]; cbn [rbind]; [|left; reflexivity|left; reflexivity].
      cbn [sfx] in W. destruct W as (e2 & ->). apply Forall_app in B1. destruct B1 as [_ B2]. rewrite app_length in L.
      destruct (read_integer_rel d2 B2) as [E2 | (D & E2 & E3 & E4)]; [lia | |].
      * rewrite E2. left. reflexivity.
      * right. rewrite E2, E3. split; [exact D|]. split; [reflexivity|]. split; [reflexivity|].
        change (c :: e1 ++ e2 ++ d2) with ([c] ++ e1 ++ e2 ++ d2). apply huge_app, huge_app, huge_app, E4.
    + right. rewrite E1, E2. split; [exact D|]. split; [reflexivity|]. split; [reflexivity|].
      change (c :: e1 ++ d1) with ([c] ++ e1 ++ d1). apply huge_app, huge_app, E3.
  - rewrite E1, E2. destruct dbg; cbn [rbind].
    + right. split; [reflexivity|]. split; [reflexivity|]. split; [reflexivity|]. exists [c], rest. rewrite E. split; [reflexivity | exact Hr].
    + left. unfold remaining_len. rewrite E, app_length in L. destruct (Z.eqb_spec (2 ^ 32 - 1) (len rest)) as [C|C]; [lia | reflexivity].
Qed.

(** * The lax parser *)

Lemma lax_loop32 t : forall ret rest, bytes t -> (length t <= 3)%nat -> 0 <= ret < 256 ^ (3 - len t) ->
  lax_len_loop_w dbg 4 (length t) ret (t ++ rest) = Some (Ok (ret * 256 ^ len t + be_val t, rest)).
Proof.
  induction t as [|v t IH]; intros ret rest B K R.
  - cbn. do 3 f_equal. lia.
  - apply Forall_cons_iff in B. destruct B as [V B]. unfold byte in V. cbn [length] in *. cbn [app lax_len_loop_w d_read rbind].
    assert (P : 256 ^ (3 - len t) = 256 * 256 ^ (3 - Z.of_nat (S (length t)))) by (rewrite <- Z.pow_succ_r by lia; f_equal; lia).
    assert (P3 : 256 ^ (3 - len t) <= 256 ^ 3) by (apply Z.pow_le_mono_r; lia). change (256 ^ 3) with 16777216 in P3.
    rewrite shl32 by (change (2 ^ 24) with 16777216; lia). unfold add_usize.
    rewrite uchk_ok by (change (2 ^ (8 * 4)) with 4294967296; lia). cbn [bind]. rewrite IH; [|exact B | lia | lia].
    do 3 f_equal. cbn [be_val]. rewrite Nat2Z.inj_succ, Z.pow_succ_r by lia. ring.
Qed.

Lemma read_len_lax_rel d : bytes d ->
  d_read_len_lax_w dbg 4 d = d_read_len_lax dbg d \/ (d_read_len_lax_w dbg 4 d = derr /\ 2 ^ 24 < len d).
Proof.
  intros B. destruct d as [|v t]; [left; reflexivity|]. apply Forall_cons_iff in B. destruct B as [V Bt]. unfold byte in V.
  unfold d_read_len_lax_w, d_read_len_lax. cbn [d_read rbind]. rewrite land128 by exact V.
  destruct (Z.ltb_spec v 128) as [?C|?C]; cbn [negb rbind]; [left; reflexivity|].
  unfold sub8. rewrite uchk_ok by (change (2 ^ 8) with 256; lia). cbn [bind].
  change (remaining_len t) with (len t). destruct (Z.ltb_spec (len t) (v - 128)) as [?C|?C]; cbn [rbind derr]; [left; reflexivity|].
  rewrite lax_skip_zeros_eq. pose proof (skip_zeros_wp t (v - 128) Bt ltac:(lia)) as W.
  destruct (skip_zeros t (v - 128)) as [[[u k]|e]|]; cbn [rbind]; [|left; reflexivity|left; reflexivity].
  cbn [wpr] in W. destruct W as (j & Eu & Ek & K & Kz).
  destruct (Z.leb_spec 8 k) as [?C|?C]; destruct (Z.leb_spec 4 k) as [?C|?C]; cbn [rbind derr]; [left; reflexivity | lia | |].
  - assert (Bu : bytes u) by (rewrite Eu in Bt; apply Forall_app in Bt; apply Bt).
    assert (Lt : length t = (j + length u)%nat) by (rewrite Eu, app_length, repeat_length; reflexivity).
    set (x := firstn (Z.to_nat k) u). assert (Ex : u = x ++ skipn (Z.to_nat k) u) by (symmetry; apply firstn_skipn).
    assert (Lx : length x = Z.to_nat k) by (unfold x; rewrite firstn_length; lia).
    assert (Bx : bytes x) by (apply bytes_firstn, Bu).
    assert (E : lax_len_loop dbg (Z.to_nat k) 0 u = Some (Ok (be_val x, skipn (Z.to_nat k) u))).
    { rewrite Ex at 1. rewrite <- Lx at 1. rewrite lax_len_loop_eq; [reflexivity | exact Bx | lia | split; [lia | apply Z.pow_pos_nonneg; lia]]. }
    rewrite E. cbn [rbind]. unfold remaining_len. destruct (Z.ltb_spec (len (skipn (Z.to_nat k) u)) (be_val x)) as [?C|?C]; [left; reflexivity|].
    right. split; [reflexivity|].
    assert (2 ^ 24 <= be_val x).
    { specialize (Kz ltac:(lia)). rewrite Ex in Kz. destruct x as [|a x]; [cbn [length] in Lx; lia|]. cbn [app length] in *.
      apply Forall_cons_iff in Bx. destruct Bx as [A Bx]. unfold byte in A. cbn [be_val]. pose proof (be_val_range x Bx).
      assert (256 ^ 3 <= 256 ^ len x) by (apply Z.pow_le_mono_r; lia). change (256 ^ 3) with 16777216 in *. change (2 ^ 24) with 16777216. nia. }
    assert (length (skipn (Z.to_nat k) u) <= length u)%nat by (rewrite skipn_length; lia). cbn [length]. lia.
  - left. assert (Bu : bytes u) by (rewrite Eu in Bt; apply Forall_app in Bt; apply Bt).
    assert (Lt : length t = (j + length u)%nat) by (rewrite Eu, app_length, repeat_length; reflexivity).
    set (x := firstn (Z.to_nat k) u). assert (Ex : u = x ++ skipn (Z.to_nat k) u) by (symmetry; apply firstn_skipn).
    assert (Lx : length x = Z.to_nat k) by (unfold x; rewrite firstn_length; lia).
    assert (Bx : bytes x) by (apply bytes_firstn, Bu).
    assert (E : lax_len_loop dbg (Z.to_nat k) 0 u = Some (Ok (be_val x, skipn (Z.to_nat k) u))).
    { rewrite Ex at 1. rewrite <- Lx at 1. rewrite lax_len_loop_eq; [reflexivity | exact Bx | lia | split; [lia | apply Z.pow_pos_nonneg; lia]]. }
    assert (E' : lax_len_loop_w dbg 4 (Z.to_nat k) 0 u = Some (Ok (be_val x, skipn (Z.to_nat k) u))).
    { rewrite Ex at 1. rewrite <- Lx at 1. rewrite lax_loop32; [reflexivity | exact Bx | lia | split; [lia | apply Z.pow_pos_nonneg; lia]]. }
    rewrite E, E'. reflexivity.
Qed.

Lemma read_len_lax_sfx d : bytes d -> sfx (d_read_len_lax dbg d) d.
Proof.
  intros B. pose proof (d_read_len_lax_inv dbg d B) as W. destruct (d_read_len_lax dbg d) as [[[L d']|e]|]; cbn [wpr sfx] in *; auto.
  destruct W as (e & -> & _). exists e. reflexivity.
Qed.
Lemma read_integer_lax_sfx d : bytes d -> sfx (d_read_integer_lax dbg d) d.
Proof.
  intros B. unfold d_read_integer_lax. destruct d as [|tag t]; [exact I|]. cbn [d_read rbind].
  destruct (negb (tag =? 2)); [exact I|]. apply Forall_cons_iff in B. destruct B as [_ B]. apply sfx_cons.
  apply sfx_bind; [apply read_len_lax_sfx, B|]. intros k d'. pose proof (skip_zeros_sfx d' k) as H.
  destruct (skip_zeros d' k) as [[[d2 k']|e]|]; cbn [rbind]; try exact I. destruct H as [e ->].
  destruct (32 <? k'); [exists e; reflexivity|].
  pose proof (read_scalar_sfx d2 k') as H. destruct (read_scalar dbg d2 k') as [[[x d3]|e3]|]; cbn [sfx] in *; auto.
  destruct H as [e2 ->]. exists (e ++ e2). apply app_assoc.
Qed.
Lemma seq_len_lax_sfx d : sfx (d_read_seq_len_lax dbg d) d.
Proof.
  unfold d_read_seq_len_lax. apply sfx_bind; [apply read_sfx|]. intros v t. destruct (negb _); [|apply sfx_refl].
  destruct (sub8 dbg v 128) as [k|]; cbn [bind]; [|exact I]. destruct (remaining_len t <? k); [exact I|].
  unfold d_skip. destruct (bad_span t k); cbn [rbind derr]; [exact I|]. exists (firstn (Z.to_nat k) t). symmetry. apply firstn_skipn.
Qed.
Lemma read_integer_lax_rel d : bytes d ->
  d_read_integer_lax_w dbg 4 d = d_read_integer_lax dbg d \/ (d_read_integer_lax_w dbg 4 d = derr /\ 2 ^ 24 < len d).
Proof.
  intros B. unfold d_read_integer_lax_w, d_read_integer_lax. destruct d as [|tag t]; cbn [d_read rbind derr]; [left; reflexivity|].
  destruct (negb (tag =? 2)); [left; reflexivity|]. apply Forall_cons_iff in B. destruct B as [_ B].
  destruct (read_len_lax_rel t B) as [E | [E L]]; rewrite E; [left; reflexivity|]. right. split; [reflexivity|]. cbn [length]. lia.
Qed.
Lemma parse_der_lax_rel b : bytes b ->
  sig_parse_der_lax_w dbg 4 b = sig_parse_der_lax dbg b \/ (sig_parse_der_lax_w dbg 4 b = derr /\ 2 ^ 24 < len b).
Proof.
  intros B. unfold sig_parse_der_lax_w, sig_parse_der_lax, d_read_constructed_sequence. destruct b as [|c d]; cbn [d_read rbind derr]; [left; reflexivity|].
  destruct (c =? 48); cbn [rbind derr]; [|left; reflexivity]. apply Forall_cons_iff in B. destruct B as [_ B].
  pose proof (seq_len_lax_sfx d) as W. destruct (d_read_seq_len_lax dbg d) as [[[q d0]|e]|]; cbn [rbind]; [|left; reflexivity|left; reflexivity].
  cbn [sfx] in W. destruct W as [e0 ->]. apply Forall_app in B. destruct B as [_ B0]. cbn [length]. rewrite app_length.
  destruct (read_integer_lax_rel d0 B0) as [E | [E L]]; rewrite E; cbn [rbind derr]; [|right; split; [reflexivity | lia]].
  pose proof (read_integer_lax_sfx d0 B0) as W. destruct (d_read_integer_lax dbg d0) as [[[r d1]|e]|]; cbn [rbind]; [|left; reflexivity|left; reflexivity].
  cbn [sfx] in W. destruct W as [e1 ->]. apply Forall_app in B0. destruct B0 as [_ B1]. rewrite app_length.
  destruct (read_integer_lax_rel d1 B1) as [E1 | [E1 L]]; rewrite E1; cbn [rbind derr]; [left; reflexivity | right; split; [reflexivity | lia]].
Qed.
End Build.

Lemma huge_len b : huge_field b -> 2 ^ 24 + 5 <= len b.
Proof. intros (pre & rest & -> & H). rewrite !app_length. cbn [length]. lia. Qed.

(** * The theorems *)

(** The parsers written for a pointer size of 8 bytes are the parsers of the other theorems. *)
Lemma C93_width_64_pf : forall dbg b, sig_parse_der_w dbg 8 b = sig_parse_der dbg b /\ sig_parse_der_lax_w dbg 8 b = sig_parse_der_lax dbg b.
Proof. intros dbg b. split; reflexivity. Qed.

(** The strict parser on 32-bit targets, for every array such a target can hold: in release builds it gives what 64-bit targets give; in debug builds too,
    except that it may panic on an array which 64-bit targets refuse and which contains a length field standing for 2^32 - 1 followed by 16 MiB or more. *)
Lemma C93_strict_pf : forall b, bytes b -> len b < 2 ^ 31 ->
  sig_parse_der_w false 4 b = sig_parse_der false b /\
  (sig_parse_der_w true 4 b = sig_parse_der true b \/
   (sig_parse_der_w true 4 b = None /\ sig_parse_der true b = Some (Err InvalidSignature) /\ huge_field b)).
Proof.
  intros b B L. assert (L' : len b < 2 ^ 32 - 1) by (change (2 ^ 31) with 2147483648 in L; change (2 ^ 32) with 4294967296; lia). split.
  - destruct (parse_der_rel false b B L') as [E | [E _]]; [exact E | discriminate].
  - destruct (parse_der_rel true b B L') as [E | (_ & E1 & E2 & E3)]; [left; exact E | right; split; [exact E1|]; split; [exact E2 | exact E3]].
Qed.
Lemma C93_strict_example_pf : bytes [48; 7; 2; 2; 0; 128; 2; 1; 1] /\ len [48; 7; 2; 2; 0; 128; 2; 1; 1] < 2 ^ 31 /\
  sig_parse_der_w true 4 [48; 7; 2; 2; 0; 128; 2; 1; 1] = Some (Ok (Sig (scalar_of 128) (scalar_of 1))).
Proof. split; [repeat constructor; discriminate|]. split; vm_compute; reflexivity. Qed.

(** The panic exists: a SEQUENCE whose length field stands for 2^32 - 1, followed by 16 MiB or more of anything, stops a 32-bit debug build; a release build and
    64-bit targets return an error. *)
Lemma C93_strict_panics_pf : forall rest, bytes rest -> 2 ^ 24 <= len rest < 2 ^ 31 ->
  sig_parse_der_w true 4 ([48; 132; 255; 255; 255; 255] ++ rest) = None /\
  sig_parse_der_w false 4 ([48; 132; 255; 255; 255; 255] ++ rest) = Some (Err InvalidSignature) /\
  (forall dbg, sig_parse_der dbg ([48; 132; 255; 255; 255; 255] ++ rest) = Some (Err InvalidSignature)).
Proof.
  intros rest B [L1 L2]. change (2 ^ 24) with 16777216 in L1. change (2 ^ 31) with 2147483648 in L2.
  assert (LL : forall k : nat, (k <= 6)%nat -> Z.of_nat (k + length rest) < 2 ^ 32 - 1) by (intros k K; change (2 ^ 32) with 4294967296; lia).
  assert (BB : bytes [48; 132; 255; 255; 255; 255]) by (repeat constructor; discriminate).
  assert (R64 : forall dbg, sig_parse_der dbg ([48; 132; 255; 255; 255; 255] ++ rest) = Some (Err InvalidSignature)).
  { intros dbg. cbn [app]. unfold sig_parse_der, d_read_constructed_sequence. cbn [d_read rbind]. change (48 =? 48) with true. cbv iota. cbn [rbind].
    destruct (read_len_rel dbg (132 :: 255 :: 255 :: 255 :: 255 :: rest)) as [E | (r & E & _ & E1 & _)].
    - repeat (apply Forall_cons; [split; [discriminate | reflexivity]|]); exact B.
    - change (length (132 :: 255 :: 255 :: 255 :: 255 :: rest)) with (5 + length rest)%nat. apply LL. lia.
    - unfold d_read_len. cbn [d_read rbind]. change (132 =? 255) with false. change (Z.land 132 128 =? 0) with false. change (132 =? 128) with false. cbv iota.
      change (bind (Some ?x) ?f) with (f x). cbv beta. change (Z.land 132 127) with 4. change (remaining_len (255 :: 255 :: 255 :: 255 :: rest)) with (Z.of_nat (4 + length rest)).
      destruct (Z.ltb_spec (Z.of_nat (4 + length rest)) 4); [reflexivity|]. cbn [d_peek nth_error rbind]. change (255 =? 0) with false. change (8 <? 4) with false. cbv iota.
      change (Z.to_nat 4) with 4%nat. rewrite loop64_S by lia. destruct (len (255 :: 255 :: 255 :: rest) <? _); [reflexivity|].
      rewrite loop64_S by lia. destruct (len (255 :: 255 :: rest) <? _); [reflexivity|].
      rewrite loop64_S by lia. destruct (len (255 :: rest) <? _); [reflexivity|].
      rewrite loop64_S by lia. change (((0 * 256 + 255) * 256 + 255) * 256 + 255) with 16777215. change (16777215 * 256 + 255 + Z.of_nat 1) with 4294967296.
      destruct (Z.ltb_spec (len rest) 4294967296); [reflexivity | lia].
    - rewrite E1. reflexivity. }
  split; [|split; [|exact R64]].
  - cbn [app]. unfold sig_parse_der_w, d_read_constructed_sequence. cbn [d_read rbind]. change (48 =? 48) with true. cbv iota. cbn [rbind].
    unfold d_read_len_w. cbn [d_read rbind]. change (132 =? 255) with false. change (Z.land 132 128 =? 0) with false. change (132 =? 128) with false. cbv iota.
    change (bind (Some ?x) ?f) with (f x). cbv beta. change (Z.land 132 127) with 4. change (remaining_len (255 :: 255 :: 255 :: 255 :: rest)) with (Z.of_nat (4 + length rest)).
    destruct (Z.ltb_spec (Z.of_nat (4 + length rest)) 4); [lia|]. cbn [d_peek nth_error rbind]. change (255 =? 0) with false. change (4 <? 4) with false. cbv iota.
    change (Z.to_nat 4) with 4%nat. rewrite loop32_S by lia.
    change (len (255 :: 255 :: 255 :: rest)) with (Z.of_nat (3 + length rest)). destruct (Z.ltb_spec (Z.of_nat (3 + length rest)) (0 * 256 + 255 + Z.of_nat 4)); [lia|].
    rewrite loop32_S by lia. change (len (255 :: 255 :: rest)) with (Z.of_nat (2 + length rest)).
    destruct (Z.ltb_spec (Z.of_nat (2 + length rest)) ((0 * 256 + 255) * 256 + 255 + Z.of_nat 3)); [lia|].
    rewrite loop32_S by lia. change (len (255 :: rest)) with (Z.of_nat (1 + length rest)).
    destruct (Z.ltb_spec (Z.of_nat (1 + length rest)) (((0 * 256 + 255) * 256 + 255) * 256 + 255 + Z.of_nat 2)); [lia|].
    change (((0 * 256 + 255) * 256 + 255) * 256 + 255) with (2 ^ 24 - 1). rewrite loop32_over. reflexivity.
  - rewrite <- (R64 false). destruct (parse_der_rel false ([48; 132; 255; 255; 255; 255] ++ rest)) as [E | [E _]]; [| |exact E|discriminate].
    + apply Forall_app. split; [exact BB | exact B].
    + change (length ([48; 132; 255; 255; 255; 255] ++ rest)) with (6 + length rest)%nat. apply LL. lia.
Qed.
Lemma bytes_zeros k : bytes (repeat 0 k).
Proof. induction k as [|k IH]; cbn [repeat]; constructor; [split; reflexivity || discriminate | exact IH]. Qed.
Lemma C93_strict_panics_example_pf : exists rest, bytes rest /\ 2 ^ 24 <= len rest < 2 ^ 31.
Proof.
  exists (repeat 0 (Z.to_nat (2 ^ 24))). split; [apply bytes_zeros|]. rewrite repeat_length, Z2Nat.id by (apply Z.pow_nonneg; lia).
  split; [apply Z.le_refl | reflexivity].
Qed.

(** "The strict parser never panics" is false on 32-bit targets in debug builds. *)
Lemma C93_no_panic_32_refuted_pf : exists b, bytes b /\ len b < 2 ^ 31 /\ sig_parse_der_w true 4 b = None.
Proof.
  set (rest := repeat 0 (Z.to_nat (2 ^ 24))). assert (B : bytes rest) by (apply bytes_zeros).
  assert (L : len rest = 16777216) by (unfold rest; rewrite repeat_length, Z2Nat.id by (apply Z.pow_nonneg; lia); reflexivity).
  clearbody rest. exists ([48; 132; 255; 255; 255; 255] ++ rest). split; [apply Forall_app; split; [repeat constructor; discriminate | exact B]|].
  split; [rewrite app_length; cbn [length]; change (2 ^ 31) with 2147483648; lia|].
  refine (proj1 (C93_strict_panics_pf rest B _)). rewrite L. split; [discriminate | reflexivity].
Qed.

(** The lax parser on 32-bit targets: it never panics, what it accepts is accepted by 64-bit targets with the same result, and it refuses something they accept
    only if the array is longer than 16 MiB. *)
Lemma C93_lax_pf : forall dbg b, bytes b ->
  sig_parse_der_lax_w dbg 4 b = sig_parse_der_lax dbg b \/
  (sig_parse_der_lax_w dbg 4 b = Some (Err InvalidSignature) /\ 2 ^ 24 < len b /\ exists g, sig_parse_der_lax dbg b = Some (Ok g)).
Proof.
  intros dbg b B. destruct (parse_der_lax_rel dbg b B) as [E | [E L]]; [left; exact E|].
  pose proof (sig_parse_der_lax_wp dbg b B) as W. destruct (sig_parse_der_lax dbg b) as [[g|e]|]; cbn [wpr] in W.
  - right. split; [exact E|]. split; [exact L|]. exists g. reflexivity.
  - left. rewrite E, W. reflexivity.
  - contradiction.
Qed.
Lemma C93_lax_example_pf : bytes [48; 6; 2; 1; 5; 2; 129; 1; 9; 77] /\ sig_parse_der_lax_w true 4 [48; 6; 2; 1; 5; 2; 129; 1; 9; 77] = Some (Ok (Sig (scalar_of 5) (scalar_of 9))).
Proof. split; [repeat constructor; discriminate | vm_compute; reflexivity]. Qed.

Lemma lax32_refuses dbg t : sig_parse_der_lax_w dbg 4 ([48; 0; 2; 132; 1; 0; 0; 1] ++ t) = Some (Err InvalidSignature).
Proof.
  cbn [app]. unfold sig_parse_der_lax_w, d_read_constructed_sequence. cbn [d_read rbind]. change (48 =? 48) with true. cbv iota. cbn [rbind].
  unfold d_read_seq_len_lax. cbn [d_read rbind]. change (negb (Z.land 0 128 =? 0)) with false. cbv iota. cbn [rbind].
  unfold d_read_integer_lax_w. cbn [d_read rbind]. change (negb (2 =? 2)) with false. cbv iota.
  unfold d_read_len_lax_w. cbn [d_read rbind]. change (negb (Z.land 132 128 =? 0)) with true. cbv iota.
  unfold sub8. rewrite uchk_ok by (change (2 ^ 8) with 256; lia). cbn [bind]. change (132 - 128) with 4.
  change (remaining_len (1 :: 0 :: 0 :: 1 :: t)) with (Z.of_nat (4 + length t)). destruct (Z.ltb_spec (Z.of_nat (4 + length t)) 4); [reflexivity|].
  cbn [lax_skip_zeros]. change (0 <? 4) with true. change (1 =? 0) with false. cbv iota. cbn [rbind]. reflexivity.
Qed.

(** "Both kinds of targets accept the same arrays" is false for the lax parser: an INTEGER padded with 2^24 zero bytes is read on 64-bit targets only. *)
Lemma C93_lax_same_refuted_pf : exists b, bytes b /\ len b < 2 ^ 31 /\
  (forall dbg, sig_parse_der_lax dbg b = Some (Ok (Sig (scalar_of 5) (scalar_of 1)))) /\
  (forall dbg, sig_parse_der_lax_w dbg 4 b = Some (Err InvalidSignature)).
Proof.
  set (j := Z.to_nat (2 ^ 24)). assert (J : Z.of_nat j = 16777216) by (unfold j; rewrite Z2Nat.id by (apply Z.pow_nonneg; lia); reflexivity). clearbody j.
  assert (BB : bytes ([48; 0; 2; 132; 1; 0; 0; 1] ++ repeat 0 j ++ [5; 2; 1; 1])).
  { apply Forall_app. split; [repeat constructor; discriminate|]. apply Forall_app. split; [apply bytes_zeros | repeat constructor; discriminate]. }
  exists ([48; 0; 2; 132; 1; 0; 0; 1] ++ repeat 0 j ++ [5; 2; 1; 1]). split; [exact BB|].
  split; [rewrite !app_length, repeat_length; cbn [length]; change (2 ^ 31) with 2147483648; lia|].
  split; [|intros dbg; apply lax32_refuses].
  intros dbg. apply lax_sig_eq; [exact BB|].
  exists 0, [], (2 :: [132; 1; 0; 0; 1] ++ repeat 0 j ++ [5] ++ [2; 1; 1]), [2; 1; 1], []. split; [reflexivity|]. split; [left; split; [lia | reflexivity]|]. split.
  - exists [132; 1; 0; 0; 1], j, [5], [2; 1; 1]. split; [reflexivity|]. split.
    + right. exists 0%nat, [1; 0; 0; 1]. split; [reflexivity|]. split; [cbn; lia|]. split; [discriminate|]. split; [cbn; lia|].
      change (be_val [1; 0; 0; 1]) with 16777217. cbn [length]. lia.
    + split; [discriminate|]. left. split; [cbn; lia|]. split; [discriminate|]. split; [|reflexivity]. unfold reduced. vm_compute. reflexivity.
  - exists [1], 0%nat, [1], []. split; [reflexivity|]. split; [left; split; [cbn; lia | reflexivity]|]. split; [discriminate|].
    left. split; [cbn; lia|]. split; [discriminate|]. split; [vm_compute; reflexivity | reflexivity].
Qed.

(** For arrays of up to 16 MiB the two parsers do not depend on the pointer size at all. *)
Lemma C93_small_pf : forall dbg b, bytes b -> len b <= 2 ^ 24 ->
  sig_parse_der_w dbg 4 b = sig_parse_der dbg b /\ sig_parse_der_lax_w dbg 4 b = sig_parse_der_lax dbg b.
Proof.
  intros dbg b B L. change (2 ^ 24) with 16777216 in L. split.
  - destruct (parse_der_rel dbg b B) as [E | (_ & _ & _ & H)]; [change (2 ^ 32) with 4294967296; lia | exact E|].
    apply huge_len in H. change (2 ^ 24) with 16777216 in H. lia.
  - destruct (parse_der_lax_rel dbg b B) as [E | [_ H]]; [exact E|]. change (2 ^ 24) with 16777216 in H. lia.
Qed.
Lemma C93_small_example_pf : bytes [48; 7; 2; 2; 0; 128; 2; 1; 1] /\ len [48; 7; 2; 2; 0; 128; 2; 1; 1] <= 2 ^ 24.
Proof. split; [repeat constructor; discriminate | vm_compute; discriminate]. Qed.
