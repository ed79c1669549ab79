(** Proof automation for the straight-line word arithmetic of the model: every step lemma
    discharges the overflow checks by interval bounds, so the conclusions hold in both build modes. *)
From Verif Require Import Word.

Lemma wp_some {A} (a : A) (Q : A -> Prop) : Q a -> wp (Some a) Q.
Proof. exact (fun h => h). Qed.

Lemma wp_bind {A B} (o : option A) (f : A -> option B) (P : A -> Prop) (Q : B -> Prop) :
  wp o P -> (forall a, P a -> wp (f a) Q) -> wp (bind o f) Q.
Proof. destruct o; cbn; [auto | tauto]. Qed.

Lemma wp_mono {A} (o : option A) (P Q : A -> Prop) :
  wp o P -> (forall a, P a -> Q a) -> wp o Q.
Proof. destruct o; cbn; auto. Qed.

Lemma wp_inv {A} (o : option A) (P : A -> Prop) : wp o P -> exists a, o = Some a /\ P a.
Proof. destruct o; cbn; [eauto | tauto]. Qed.

Lemma wp_dassert {B} dbg b (f : unit -> option B) Q :
  b = true -> wp (f tt) Q -> wp (bind (dassert dbg b) f) Q.
Proof. intros ->; destruct dbg; cbn; auto. Qed.

Lemma uchk_ok w dbg v : 0 <= v < 2 ^ w -> uchk w dbg v = Some v.
Proof.
  intros H; unfold uchk.
  rewrite (proj2 (Z.leb_le 0 v)) by lia. rewrite (proj2 (Z.ltb_lt v (2^w))) by lia. reflexivity.
Qed.

Lemma ichk_ok dbg v : - 2 ^ 31 <= v < 2 ^ 31 -> ichk dbg v = Some v.
Proof.
  intros H; unfold ichk.
  rewrite (proj2 (Z.leb_le _ v)) by lia. rewrite (proj2 (Z.ltb_lt v _)) by lia. reflexivity.
Qed.

(** [Rw e e' N]: the word expression [e] equals the plain integer expression [e'], bounded by [N] *)
Definition Rw (e e' N : Z) : Prop := e = e' /\ 0 <= e' <= N.

Lemma Rw_var x N : 0 <= x <= N -> Rw x x N.
Proof. unfold Rw; auto. Qed.
Lemma Rw_const c : (0 <=? c) = true -> Rw c c c.
Proof. unfold Rw; intros H; apply Z.leb_le in H; lia. Qed.
Lemma Rw_mul a a' A b b' B : Rw a a' A -> Rw b b' B -> Rw (a * b) (a' * b') (A * B).
Proof.
  unfold Rw; intros [-> ?] [-> ?]; split; auto.
  split; [apply Z.mul_nonneg_nonneg; lia | apply Z.mul_le_mono_nonneg; lia].
Qed.
Lemma Rw_add a a' A b b' B : Rw a a' A -> Rw b b' B -> Rw (a + b) (a' + b') (A + B).
Proof. unfold Rw; intros [-> ?] [-> ?]; split; auto; lia. Qed.
Lemma Rw_wadd64 a a' A b b' B :
  Rw a a' A -> Rw b b' B -> (A + B <? 2 ^ 64) = true -> Rw (wadd64 a b) (a' + b') (A + B).
Proof.
  unfold Rw, wadd64; intros [-> Ha] [-> Hb] H; apply Z.ltb_lt in H.
  rewrite Z.mod_small by lia; split; auto; lia.
Qed.
Lemma Rw_wadd32 a a' A b b' B :
  Rw a a' A -> Rw b b' B -> (A + B <? 2 ^ 32) = true -> Rw (wadd32 a b) (a' + b') (A + B).
Proof.
  unfold Rw, wadd32; intros [-> Ha] [-> Hb] H; apply Z.ltb_lt in H.
  rewrite Z.mod_small by lia; split; auto; lia.
Qed.
Lemma Rw_shl32 a a' A k :
  Rw a a' A -> (0 <=? k) = true -> (A * 2 ^ k <? 2 ^ 32) = true ->
  Rw (shl32 a k) (a' * 2 ^ k) (A * 2 ^ k).
Proof.
  unfold Rw, shl32; intros [-> Ha] Hk H; apply Z.ltb_lt in H; apply Z.leb_le in Hk.
  rewrite Z.shiftl_mul_pow2 by lia.
  assert (0 < 2 ^ k) by (apply Z.pow_pos_nonneg; lia).
  assert (a' * 2 ^ k <= A * 2 ^ k) by (apply Z.mul_le_mono_nonneg_r; lia).
  assert (0 <= a' * 2 ^ k) by (apply Z.mul_nonneg_nonneg; lia).
  rewrite Z.mod_small by lia; split; auto; lia.
Qed.
Lemma Rw_as_u32 a a' A : Rw a a' A -> (A <? 2 ^ 32) = true -> Rw (as_u32 a) a' A.
Proof.
  unfold Rw, as_u32; intros [-> Ha] H; apply Z.ltb_lt in H.
  rewrite Z.mod_small by lia; auto.
Qed.
Lemma Rw_as_u8 a a' A : Rw a a' A -> (A <? 2 ^ 8) = true -> Rw (as_u8 a) a' A.
Proof.
  unfold Rw, as_u8; intros [-> Ha] H; apply Z.ltb_lt in H.
  rewrite Z.mod_small by lia; auto.
Qed.

(** steps *)
Lemma wp_let_any {A B} (e : A) (f : A -> option B) Q : wp (f e) Q -> wp (bind (Some e) f) Q.
Proof. exact (fun h => h). Qed.

Lemma wp_let {B} e e' N (f : Z -> option B) Q :
  Rw e e' N -> (forall x, x = e' -> 0 <= x <= N -> wp (f x) Q) -> wp (bind (Some e) f) Q.
Proof. intros [-> Ha] H; cbn; apply H; auto. Qed.

Lemma wp_uadd {B} w dbg a a' A b b' Bn (f : Z -> option B) Q :
  Rw a a' A -> Rw b b' Bn -> (A + Bn <? 2 ^ w) = true ->
  (forall x, x = a' + b' -> 0 <= x <= A + Bn -> wp (f x) Q) -> wp (bind (uchk w dbg (a + b)) f) Q.
Proof.
  intros [-> Ha] [-> Hb] H K; apply Z.ltb_lt in H.
  rewrite uchk_ok by lia; cbn; apply K; auto; lia.
Qed.
Lemma wp_umul {B} w dbg a a' A b b' Bn (f : Z -> option B) Q :
  Rw a a' A -> Rw b b' Bn -> (A * Bn <? 2 ^ w) = true ->
  (forall x, x = a' * b' -> 0 <= x <= A * Bn -> wp (f x) Q) -> wp (bind (uchk w dbg (a * b)) f) Q.
Proof.
  intros Ha Hb H K; apply Z.ltb_lt in H.
  destruct (Rw_mul _ _ _ _ _ _ Ha Hb) as [-> ?].
  rewrite uchk_ok by lia; cbn; apply K; auto.
Qed.
(** subtraction: bounds of the minuend from below *)
Lemma wp_usub {B} w dbg a b N (f : Z -> option B) Q :
  0 <= a - b <= N -> (N <? 2 ^ w) = true ->
  (forall x, x = a - b -> 0 <= x <= N -> wp (f x) Q) -> wp (bind (uchk w dbg (a - b)) f) Q.
Proof.
  intros Ha H K; apply Z.ltb_lt in H.
  rewrite uchk_ok by lia; cbn; apply K; auto.
Qed.

(** splitting a word at bit [k] *)
Lemma split_at k m x N :
  0 <= x <= N -> (0 <=? k) = true -> m + 1 = 2 ^ k -> exists h l,
    Z.shiftr x k = h /\ Z.land x m = l /\ l = x - 2 ^ k * h /\
    0 <= h <= N / 2 ^ k /\ 0 <= l <= m.
Proof.
  intros Hx Hk Hm; apply Z.leb_le in Hk.
  assert (0 < 2 ^ k) by (apply Z.pow_pos_nonneg; lia).
  exists (x / 2 ^ k), (x mod 2 ^ k).
  rewrite Z.shiftr_div_pow2 by lia.
  assert (m = Z.ones k) as -> by (rewrite Z.ones_equiv; lia).
  rewrite Z.land_ones by lia.
  pose proof (Z.mod_pos_bound x (2 ^ k) ltac:(lia)).
  rewrite Z.ones_equiv.
  repeat split; try lia.
  - rewrite Z.mod_eq by lia; lia.
  - apply Z.div_pos; lia.
  - apply Z.div_le_mono; lia.
Qed.

Lemma shiftr_zero_ok x k N : 0 <= x <= N -> (N <? 2 ^ k) = true -> (Z.shiftr x k =? 0) = true.
Proof.
  intros Hx H; apply Z.ltb_lt in H. apply Z.eqb_eq.
  assert (0 <= k) by (destruct k; cbn in *; lia).
  rewrite Z.shiftr_div_pow2 by lia. apply Z.div_small; lia.
Qed.
Lemma leb_ok x N M : 0 <= x <= N -> (N <=? M) = true -> (x <=? M) = true.
Proof. rewrite !Z.leb_le; lia. Qed.

Ltac is_zconst e :=
  lazymatch e with
  | Z0 => idtac
  | Zpos ?q => is_pconst q
  | Zneg ?q => is_pconst q
  end
with is_pconst q :=
  lazymatch q with xH => idtac | xO ?r => is_pconst r | xI ?r => is_pconst r end.

(** proof of [Rw e ?e' ?N] with computed bound *)
Ltac rwp_norm pf :=
  let T := type of pf in
  lazymatch T with
  | Rw ?e ?e' ?N => let N' := eval vm_compute in N in constr:(pf : Rw e e' N')
  end.
Ltac rwp e :=
  lazymatch e with
  | wadd64 ?a ?b => let pa := rwp a in let pb := rwp b in
      rwp_norm constr:(Rw_wadd64 _ _ _ _ _ _ pa pb eq_refl)
  | wadd32 ?a ?b => let pa := rwp a in let pb := rwp b in
      rwp_norm constr:(Rw_wadd32 _ _ _ _ _ _ pa pb eq_refl)
  | shl32 ?a ?k => let pa := rwp a in rwp_norm constr:(Rw_shl32 _ _ _ k pa eq_refl eq_refl)
  | as_u32 ?a => let pa := rwp a in rwp_norm constr:(Rw_as_u32 _ _ _ pa eq_refl)
  | as_u8 ?a => let pa := rwp a in rwp_norm constr:(Rw_as_u8 _ _ _ pa eq_refl)
  | ?a * ?b => let pa := rwp a in let pb := rwp b in rwp_norm constr:(Rw_mul _ _ _ _ _ _ pa pb)
  | ?a + ?b => let pa := rwp a in let pb := rwp b in rwp_norm constr:(Rw_add _ _ _ _ _ _ pa pb)
  | Z0 => constr:(Rw_const e eq_refl)
  | Zpos _ => constr:(Rw_const e eq_refl)
  | _ => lazymatch goal with
         | H : 0 <= e <= ?N |- _ => constr:(Rw_var e N H)
         end
  end.

(** make sure the word variable [x] is split at bit [k] (mask [m]) *)
Ltac split_word x k :=
  let m := eval vm_compute in (2 ^ k - 1) in
  lazymatch goal with
  | H : 0 <= x <= ?N |- _ =>
      let N' := eval vm_compute in (N / 2 ^ k) in
      let h := fresh "h" in let l := fresh "l" in
      let e1 := fresh in let e2 := fresh in let El := fresh "El" in
      let Bh := fresh "Bh" in let Bl := fresh "Bl" in
      destruct (split_at k m x N H eq_refl eq_refl) as (h & l & e1 & e2 & El & Bh & Bl);
      change (N / 2 ^ k) with N' in Bh;
      try rewrite e1; try rewrite e2; clear e1 e2
  end.

Ltac wstep :=
  lazymatch goal with
  | |- wp (bind (dassert _ _) _) _ => refine (wp_dassert _ _ _ _ _ _)
  | |- wp (bind (Some ?e) _) _ =>
      let pf := rwp e in
      refine (wp_let _ _ _ _ _ pf _); let x := fresh "x" in let E := fresh "E" in let B := fresh "B" in
      intros x E B; cbv beta
  | |- wp (bind (uchk ?w ?d (?a + ?b)) _) _ =>
      let pa := rwp a in let pb := rwp b in
      refine (wp_uadd w d _ _ _ _ _ _ _ _ pa pb eq_refl _);
      let x := fresh "x" in let E := fresh "E" in let B := fresh "B" in
      intros x E B;
      let T := type of B in
      lazymatch T with 0 <= _ <= ?N => let N' := eval vm_compute in N in change N with N' in B end; cbv beta
  | |- wp (bind (uchk ?w ?d (?a * ?b)) _) _ =>
      let pa := rwp a in let pb := rwp b in
      refine (wp_umul w d _ _ _ _ _ _ _ _ pa pb eq_refl _);
      let x := fresh "x" in let E := fresh "E" in let B := fresh "B" in
      intros x E B;
      let T := type of B in
      lazymatch T with 0 <= _ <= ?N => let N' := eval vm_compute in N in change N with N' in B end; cbv beta
  end.

Ltac wsolve_assert :=
  lazymatch goal with
  | |- (Z.shiftr ?x ?k =? 0) = true =>
      lazymatch goal with H : 0 <= x <= ?N |- _ => exact (shiftr_zero_ok x k N H eq_refl) end
  | |- (?x <=? ?M) = true =>
      lazymatch goal with H : 0 <= x <= ?N |- _ => exact (leb_ok x N M H eq_refl) end
  end.

(** split the first word that is masked or shifted in [e] *)
Ltac wsplit_in e :=
  match e with
  | context [Z.land ?x ?m] =>
      is_var x; is_zconst m; let k := eval vm_compute in (Z.log2 (m + 1)) in split_word x k
  | context [Z.shiftr ?x ?k] => is_var x; is_zconst k; split_word x k
  end.

Ltac wauto1 :=
  lazymatch goal with
  | |- wp (bind (dassert _ _) _) _ => refine (wp_dassert _ _ _ _ _ _); [wsolve_assert |]; cbv beta
  | |- wp (bind (Some ?e) _) _ => first [wsplit_in e | wstep]
  | |- wp (bind (uchk _ _ ?e) _) _ => first [wsplit_in e | wstep]
  end.
Ltac unfold_words := unfold add32, sub32, mul32, add64, sub64, mul64, add8, sub8.

(** 32-bit words and eight of them, least significant first *)
Definition u32 (x : Z) : Prop := 0 <= x <= 4294967295.
Definition val8 (d0 d1 d2 d3 d4 d5 d6 d7 : Z) : Z :=
  d0 + d1 * 2 ^ 32 + d2 * 2 ^ 64 + d3 * 2 ^ 96 + d4 * 2 ^ 128 + d5 * 2 ^ 160 + d6 * 2 ^ 192 + d7 * 2 ^ 224.
Definition u32x8 (d0 d1 d2 d3 d4 d5 d6 d7 : Z) : Prop :=
  u32 d0 /\ u32 d1 /\ u32 d2 /\ u32 d3 /\ u32 d4 /\ u32 d5 /\ u32 d6 /\ u32 d7.
