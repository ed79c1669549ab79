(** The scalar multiplications on an argument whose coordinates are zero: the affine form of the
    point at infinity that the library itself produces.  Such a pair (0, 0) is no point of the
    curve; all intermediate results stay at x = y = 0. *)
From Coq Require Import Znumtheory Field.
From Verif Require Import Word MField MScalar MGroup MEcmult WP FieldMul FieldNorm FieldZero Spec Fp Bits FieldOps FieldCodec FieldStore
  ScalarMul ScalarOps ScalarMore ScalarBits Denote Curve Group Chain Order Jac JacOps Table Wnaf WnafC Ecmult MApi Ecdsa.

(** coordinates x = y = 0 *)
Definition zaf (a : affine) : Prop := frep 6 (af_x a) f0 /\ frep 6 (af_y a) f0 /\ af_inf a = false.
Definition zxy (j : jac) : Prop := frep 6 (j_x j) f0 /\ frep 6 (j_y j) f0 /\ exists z, frep 6 (j_z j) z.
Definition zj (j : jac) : Prop := zxy j /\ j_inf j = false.
Definition zj0 (j : jac) : Prop := zj j /\ frep 6 (j_z j) f0.
(** infinity, or zero coordinates *)
Definition zor (j : jac) : Prop := j_inf j = true \/ zj j.
Lemma frep_eq k f e e' : frep k f e -> e = e' -> frep k f e'. Proof. intros H <-. exact H. Qed.
Ltac z0 := eapply frep_mono; [eapply frep_eq; [eassumption | ring] | lia].
Lemma feqb_0 : feqb f0 f0 = true. Proof. destruct (feqb_spec f0 f0); [reflexivity | contradiction]. Qed.
Ltac feqz0 := match goal with K : ?b = feqb ?e f0 |- _ => replace e with f0 in K by ring; rewrite feqb_0 in K; subst b end.

Section B.
Variable dbg : bool.

Lemma double_var_zero self a rzr : zj a -> wp (j_double_var_in_place dbg self a rzr) (fun '(r, z) => zj0 r /\
  match rzr with None => z = None | Some _ => exists f, z = Some f /\ frep 6 f f0 end).
Proof.
  intros ((X & Y & z & Z) & I). unfold j_double_var_in_place. rewrite I.
  eapply (wp_bind _ _ (fun z => match rzr with None => z = None | Some _ => exists f, z = Some f /\ frep 6 f f0 end)).
  { destruct rzr; [|reflexivity]. fs. fs. apply wp_some. eexists. split; [reflexivity|]. z0. }
  intros rz RZ. cbv beta in RZ. do 19 fs. apply wp_some. split; [|exact RZ].
  split; [|z0]. split; [|reflexivity]. split; [z0|]. split; [z0|]. eexists. cbn [j_z]. fr.
Qed.
Lemma double_zero a : zor a -> wp (j_double dbg a) (fun r => (j_inf a = true -> r = j_set_infinity) /\ (j_inf a = false -> zj0 r)).
Proof.
  intros [I|H]; unfold j_double, j_double_var.
  - unfold j_double_var_in_place. rewrite I. cbn [bind]. apply wp_some. split; [reflexivity | congruence].
  - eapply wp_bind; [exact (double_var_zero j_default a None H)|]. intros [r z] [R _]. apply wp_some. split; [|intros _; exact R].
    destruct H as [_ I]. congruence.
Qed.
Lemma same_x_zero a i rzr : zj a -> frep 6 i f0 -> wp (j_add_same_x dbg a i rzr) (fun '(r, z) => zj0 r /\
  match rzr with None => z = None | Some _ => exists f, z = Some f /\ frep 6 f f0 end).
Proof. intros A I. unfold j_add_same_x. fs. feqz0. apply double_var_zero, A. Qed.
Lemma add_ge_var_zero a t rzr : zj a -> zaf t -> wp (j_add_ge_var dbg a t rzr) (fun '(r, z) => zj0 r /\
  match rzr with None => z = None | Some _ => exists f, z = Some f /\ frep 6 f f0 end).
Proof.
  intros A (TX & TY & TI). pose proof A as ((X & Y & z & Z) & I). unfold j_add_ge_var. rewrite I, TI.
  do 11 fs. feqz0. apply same_x_zero; [exact A | z0].
Qed.
Lemma add_ge_v_zero r t : zor r -> zaf t -> wp (j_add_ge_v dbg r t) zj.
Proof.
  intros R T. unfold j_add_ge_v. destruct (j_inf r) eqn:I.
  - unfold j_add_ge_var. rewrite I. rewrite dassert_true. cbn [bind]. unfold j_set_ge. destruct T as (TX & TY & TI).
    pose proof (f_set_int_rep dbg 1 ltac:(lia)) as W. destruct (f_set_int dbg 1) as [g|]; [|destruct W]. cbn [bind]. apply wp_some.
    split; [|exact TI]. split; [exact TX|]. split; [exact TY|]. exists (toF 1). apply fcrep_frep; [exact W | lia].
  - destruct R as [R|R]; [congruence|]. eapply wp_bind; [exact (add_ge_var_zero r t None R T)|]. intros [r' z] [R' _]. apply wp_some. apply R'.
Qed.
Lemma add_zinv_zero r t z T : zor r -> aok 6 f1 t T -> af_inf t = false -> frep 6 z f0 -> wp (j_add_zinv_var dbg r t z) zj.
Proof.
  intros R HT TI Z. apply aok_elim in HT. destruct HT as (x & y & TX & TY & _). unfold j_add_zinv_var. rewrite TI. destruct (j_inf r) eqn:I.
  - do 5 fs. apply wp_some. split; [|reflexivity]. split; [z0|]. split; [z0|]. eexists. cbn [j_z]. apply fcrep_frep; [eassumption | lia].
  - destruct R as [R|R]; [congruence|]. pose proof R as ((X & Y & rz & RZ) & _). do 12 fs. feqz0.
    eapply wp_bind; [eapply (same_x_zero r _ None R); z0|]. intros [r' w] [R' _]. apply wp_some. apply R'.
Qed.
Lemma set_gej_zinv_zero a zi ze : zxy a -> frep 6 zi ze -> wp (af_set_gej_zinv dbg a zi) (fun r => frep 6 (af_x r) f0 /\ frep 6 (af_y r) f0 /\ af_inf r = j_inf a).
Proof. intros (X & Y & z & Z) ZI. unfold af_set_gej_zinv. do 4 fs. apply wp_some. split; [z0|]. split; [z0 | reflexivity]. Qed.

(** the table *)
Lemma odd_mult_loop_zero k : forall prev t, zj prev -> zaf t -> wp (odd_mult_loop dbg k prev t) (fun '(pj, zr) =>
  Forall zj0 pj /\ Forall (fun f => frep 6 f f0) zr /\ length pj = k /\ length zr = k).
Proof.
  induction k as [|k IH]; intros prev t P T; cbn [odd_mult_loop]; [apply wp_some; repeat split; constructor|].
  eapply wp_bind; [exact (add_ge_var_zero prev t (Some f_default) P T)|]. intros [nx z] (N & f & -> & F). change (bind (Some ?x) ?g) with (g x). cbv beta.
  eapply wp_bind; [exact (IH nx t (proj1 N) T)|]. intros [pj zr] (PJ & ZR & L1 & L2). apply wp_some.
  split; [constructor; assumption|]. split; [constructor; assumption|]. cbn [length]. rewrite L1, L2. split; reflexivity.
Qed.
Lemma scale_last_zero dz : frep 6 dz f0 -> forall l, l <> [] -> Forall zj l -> wp (scale_last dbg l dz) (fun l' => exists i a, l' = i ++ [a] /\ Forall zj i /\ zj0 a /\ length l' = length l).
Proof.
  intros D. induction l as [|a l IH]; intros N F; [congruence|]. inversion F as [|? ? A F']; subst. destruct l as [|b l].
  - cbn [scale_last]. destruct A as ((X & Y & z & Z) & I). fs. apply wp_some. eexists [], _. split; [reflexivity|]. split; [constructor|]. split; [|reflexivity].
    split; [|z0]. split; [|exact I]. split; [exact X|]. split; [exact Y|]. eexists. cbn [j_z]. fr.
  - change (scale_last dbg (a :: b :: l) dz) with (let* t' := scale_last dbg (b :: l) dz in Some (a :: t')).
    eapply wp_bind; [apply IH; [discriminate | exact F']|]. cbv beta. intros t' (i & c & -> & HI & C & L). apply wp_some.
    exists (a :: i), c. split; [reflexivity|]. split; [constructor; assumption|]. split; [exact C|]. cbn [length]. rewrite L. reflexivity.
Qed.
Lemma set_table_loop_zero : forall ra rzr zi ze acc, Forall zj ra -> Forall (fun f => frep 6 f f0) rzr -> (length ra <= length rzr)%nat -> frep 6 zi ze -> Forall zaf acc ->
  wp (set_table_loop dbg ra rzr zi acc) (fun t => Forall zaf t /\ length t = (length ra + length acc)%nat).
Proof.
  induction ra as [|a ra IH]; intros rzr zi ze acc A Z L ZI AC; cbn [set_table_loop]; [apply wp_some; split; [exact AC | reflexivity]|].
  destruct rzr as [|zn rzr]; [cbn [length] in L; lia|]. inversion A as [|? ? A1 A2]; subst. inversion Z as [|? ? Z1 Z2]; subst.
  fs. eapply wp_bind; [eapply (set_gej_zinv_zero a); [apply A1 | fr]|]. cbv beta. intros r (RX & RY & RI).
  eapply wp_mono; [eapply IH; [exact A2 | exact Z2 | cbn [length] in L; lia | fr|]|].
  - constructor; [|exact AC]. split; [exact RX|]. split; [exact RY|]. rewrite RI. apply A1.
  - cbv beta. intros t [T L']. split; [exact T|]. rewrite L'. cbn [length]. lia.
Qed.
Lemma globalz_zero i a zr : Forall zj i -> i <> [] -> zj0 a -> Forall (fun f => frep 6 f f0) zr -> length zr = S (length i) ->
  wp (globalz_set_table_gej dbg (i ++ [a]) zr) (fun '(t, z) => Forall zaf t /\ length t = S (length i) /\ frep 6 z f0).
Proof.
  intros HI N A Z L. unfold globalz_set_table_gej. rewrite app_length, L. cbn [length]. rewrite Nat.add_1_r, Nat.eqb_refl, dassert_true. cbn [bind].
  rewrite rev_app_distr. cbn [rev app]. apply Forall_rev in HI, Z. rewrite <- rev_length in L.
  destruct (rev zr) as [|zl rzr] eqn:EZ; [discriminate L|]. inversion Z as [|? ? Z1 Z2]; subst. change (bind (Some ?x) ?g) with (g x). cbv beta.
  destruct (rev i) as [|a1 ra] eqn:EI; [destruct i as [|b i]; [congruence | apply (f_equal (@length _)) in EI; rewrite rev_length in EI; discriminate EI]|].
  inversion HI as [|? ? A1 A2]; subst. assert (LI : length i = S (length ra)) by (rewrite <- (rev_length i), EI; reflexivity). cbn [length] in L.
  eapply wp_bind; [eapply (set_gej_zinv_zero a1); [apply A1 | exact Z1]|]. cbv beta. intros r1 (RX & RY & RI).
  pose proof A as (((AX & AY & z & AZ) & AI) & AZ0).
  eapply wp_bind; [eapply (set_table_loop_zero ra rzr zl); [exact A2 | exact Z2 | lia | exact Z1|]|].
  - constructor; [split; [exact RX|]; split; [exact RY | rewrite RI; apply A1]|]. constructor; [|constructor]. split; [exact AX|]. split; [exact AY | reflexivity].
  - cbv beta. intros t [T LT]. apply wp_some. split; [exact T|]. split; [rewrite LT; cbn [length]; lia | exact AZ0].
Qed.
Lemma table_zero a : zxy a -> (dbg = true -> j_inf a = false) -> wp (odd_multiples_table_globalz_windowa dbg a) (fun '(t, z) => Forall zaf t /\ length t = 8%nat /\ frep 6 z f0).
Proof.
  intros A NI. unfold odd_multiples_table_globalz_windowa, odd_multiples_table, ECMULT_TABLE_SIZE_A.
  rewrite dassert_true. cbn [bind].
  assert (DA : dassert dbg (negb (j_inf a)) = Some tt) by (destruct dbg; [rewrite NI by reflexivity|]; reflexivity). rewrite DA. cbn [bind].
  eapply (wp_bind _ _ (fun '(prej, zr) => exists i b, prej = i ++ [b] /\ Forall zj i /\ zj0 b /\ length i = 7%nat /\ Forall (fun f => frep 6 f f0) zr /\ length zr = 8%nat)).
  2: { intros [prej zr] (i & b & -> & HI & B & LI & Z & LZ). eapply wp_mono; [apply globalz_zero; [exact HI | intros ->; discriminate LI | exact B | exact Z | rewrite LZ, LI; reflexivity]|].
       cbv beta. intros [t z] (T & LT & Z0). rewrite LI in LT. auto. }
  eapply (wp_bind _ _ (fun d => frep 6 (j_x d) f0 /\ frep 6 (j_y d) f0 /\ frep 6 (j_z d) f0)).
  { eapply wp_mono; [apply double_zero|].
    - destruct (j_inf a) eqn:I; [left; exact I | right; split; [exact A | exact I]].
    - cbv beta. intros d [D1 D2]. destruct (j_inf a).
      + rewrite (D1 eq_refl). pose proof (fcrep_frep _ _ 6 fcrep_default ltac:(lia)) as F0. cbn [j_set_infinity j_x j_y j_z]. auto.
      + destruct (D2 eq_refl) as (((X & Y & _) & _) & Z). auto. }
  cbv beta. intros d (DX & DY & DZ). change (bind (Some ?x) ?g) with (g x). cbv beta.
  eapply wp_bind; [eapply set_gej_zinv_zero; [exact A | exact DZ]|]. cbv beta. intros ag (GX & GY & _).
  change (bind (Some ?x) ?g) with (g x). cbv beta. set (p0 := Ja (af_x ag) (af_y ag) (j_z a) false).
  assert (P0 : zj p0) by (split; [|reflexivity]; split; [exact GX|]; split; [exact GY | exact (proj2 (proj2 A))]).
  eapply wp_bind; [apply (odd_mult_loop_zero 7 p0 (Af (j_x d) (j_y d) false) P0); repeat split; cbn [af_x af_y]; first [apply DX | apply DY]|].
  intros [pj zr] (PJ & ZR & L1 & L2). eapply wp_bind; [apply (scale_last_zero (j_z d) DZ (p0 :: pj)); [discriminate|]|].
  { constructor; [exact P0|]. eapply Forall_impl; [|exact PJ]. intros b B. apply B. }
  cbv beta. intros l' (i & b & -> & HI & B & L). apply wp_some. exists i, b. split; [reflexivity|]. split; [exact HI|]. split; [exact B|].
  rewrite app_length in L. cbn [length] in L. rewrite L1 in L. split; [lia|]. split; [constructor; assumption | cbn [length]; rewrite L2; reflexivity].
Qed.
Lemma table_get_zero t d w : 2 <= w -> 2 ^ (w - 1) = 2 * Z.of_nat (length t) -> Forall zaf t -> d mod 2 = 1 -> - 2 ^ (w - 1) < d < 2 ^ (w - 1) ->
  wp (table_get_ge dbg t d w) zaf.
Proof.
  intros W K H O R. unfold table_get_ge. rewrite digit_asserts_ok by assumption. cbn [bind].
  assert (LK : forall e, e mod 2 = 1 -> 0 < e < 2 ^ (w - 1) -> exists a, idx t (Z.quot (e - 1) 2) = Some a /\ zaf a).
  { intros e OE RE. destruct (odd_half e OE ltac:(lia)) as [H2 H0]. rewrite idx_nth by lia.
    destruct (nth_error t (Z.to_nat (Z.quot (e - 1) 2))) as [a|] eqn:E.
    - exists a. split; [reflexivity|]. apply nth_error_In in E. exact (proj1 (Forall_forall _ _) H a E).
    - apply nth_error_None in E. lia. }
  destruct (Z.ltb_spec 0 d) as [P|P].
  - destruct (LK d O ltac:(lia)) as (a & -> & Ha). exact Ha.
  - assert (d <> 0) by (intros ->; discriminate O). destruct (LK (- d) (odd_sign _ O) ltac:(lia)) as (a & -> & (X & Y & I)). cbn [bind].
    unfold af_neg. do 2 fs. apply wp_some. split; [exact X|]. split; [z0 | exact I].
Qed.

(** ** ecmult *)
Lemma ecmult_loop_zero z tg ta wa wg ba bg : frep 6 z f0 ->
  Forall2 asok tg (odds eG ECMULT_TABLE_SIZE_G 1) -> Forall zaf ta -> length ta = 8%nat ->
  Z.of_nat (length wa) = 256 -> Z.of_nat (length wg) = 256 ->
  (forall i, ba <= i -> digit wa i = 0) -> (forall i, bg <= i -> digit wg i = 0) ->
  (forall i, 0 <= i -> wdigit 5 (digit wa i)) -> (forall i, 0 <= i -> wdigit 16 (digit wg i)) ->
  forall k r, Z.of_nat k <= 256 -> zor r -> (j_inf r = true -> forall i, Z.of_nat k <= i -> digit wa i = 0 /\ digit wg i = 0) ->
  wp (ecmult_loop dbg k tg ta z wa wg ba bg r) (fun r' => zor r' /\ (j_inf r' = true -> forall i, 0 <= i -> digit wa i = 0 /\ digit wg i = 0)).
Proof.
  intros ZV TG TA LT LA LG ZA ZG DA DG. induction k; intros r HK H HZ; [apply wp_some; split; [exact H | intros I i Hi; apply HZ; [exact I | lia]]|].
  cbn [ecmult_loop]. change (bind (Some ?x) ?f) with (f x). cbv beta.
  set (i := Z.of_nat k).
  eapply wp_bind; [apply double_zero; exact H|]. cbv beta. intros r1 [R1 R1'].
  assert (Z1 : zor r1 /\ (j_inf r1 = true -> j_inf r = true)).
  { destruct (j_inf r) eqn:I; [rewrite (R1 eq_refl); split; [left; reflexivity | auto]|]. destruct (R1' eq_refl) as [ZJ _]. split; [right; exact ZJ | destruct ZJ; congruence]. }
  clear R1 R1'. destruct Z1 as [Z1 I1].
  rewrite idx_digit by lia. cbn [bind].
  eapply (wp_bind _ _ (fun r2 => zor r2 /\ (j_inf r2 = true -> j_inf r = true /\ digit wa i = 0))).
  { destruct (Z.eqb_spec (digit wa i) 0) as [E0|NE].
    - rewrite Bool.andb_false_r. apply wp_some. auto.
    - destruct (Z.ltb_spec i ba) as [LT'|GE]; [|elim NE; apply ZA; lia]. cbn [andb negb].
      destruct (DA i ltac:(lia)) as [E0|[O R]]; [contradiction|].
      eapply wp_bind; [apply (table_get_zero ta (digit wa i) 5); [lia | rewrite LT; reflexivity | exact TA | exact O | exact R]|]. cbv beta. intros t T.
      eapply wp_mono; [apply add_ge_v_zero; [exact Z1 | exact T]|]. cbv beta. intros r2 R2. split; [right; exact R2 | destruct R2; congruence]. }
  cbv beta. intros r2 [Z2 I2]. rewrite idx_digit by lia. cbn [bind].
  eapply (wp_bind _ _ (fun r3 => zor r3 /\ (j_inf r3 = true -> j_inf r = true /\ digit wa i = 0 /\ digit wg i = 0))).
  { destruct (Z.eqb_spec (digit wg i) 0) as [E0|NE].
    - rewrite Bool.andb_false_r. apply wp_some. split; [exact Z2|]. intros I. destruct (I2 I). auto.
    - destruct (Z.ltb_spec i bg) as [LT'|GE]; [|elim NE; apply ZG; lia]. cbn [andb negb].
      destruct (DG i ltac:(lia)) as [E0|[O R]]; [contradiction|].
      eapply wp_bind; [apply (table_get_ge_storage_ok dbg tg eG ECMULT_TABLE_SIZE_G 16 (digit wg i)); [lia | unfold ECMULT_TABLE_SIZE_G; rewrite Z2Nat.id by lia; reflexivity | exact TG | exact O | exact R]|].
      cbv beta. intros t T. assert (IT : af_inf t = false).
      { apply (aok_fin _ _ _ _ T). rewrite <- emul_mod. apply emul_nz. pose proof n_big. assert (2 ^ 16 < 2 ^ 255) by reflexivity. change (2 ^ (16 - 1)) with 32768 in R.
        assert (digit wg i mod n <> 0); [|pose proof (Z.mod_pos_bound (digit wg i) n n_pos); lia].
        intros M. apply Z.mod_divide in M; [|pose proof n_pos; lia]. destruct M as [q Q]. assert (q = 0) by nia. subst q. lia. }
      eapply wp_mono; [apply (add_zinv_zero r2 t z _ Z2 T IT ZV)|]. cbv beta. intros r3 R3. split; [right; exact R3 | destruct R3; congruence]. }
  cbv beta. intros r3 [Z3 I3]. apply IHk; [lia | exact Z3|]. intros I j Hj. destruct (I3 I) as (IR & E1 & E2).
  destruct (Z.eq_dec j i) as [->|NJ]; [auto | apply HZ; [exact IR | lia]].
Qed.
Lemma wsum_all_zero B l : (forall i, 0 <= i -> digit l i = 0) -> wsum B l = 0.
Proof. intros H. change l with (skipn 0 l). apply wsum_skip_zero. intros i Hi. apply H. lia. Qed.
Theorem ecmult_zero ctx a sa sg na ng : ctx_ok ctx -> zxy a -> (dbg = true -> j_inf a = false) -> recodes dbg WINDOW_A sa na -> recodes dbg WINDOW_G sg ng ->
  (na mod n <> 0 \/ ng mod n <> 0) -> wp (ecmult dbg ctx a sa sg) zj0.
Proof.
  intros HC A NI HA HG NZ. destruct ctx as [tg]. cbn [ctx_ok] in HC. unfold ecmult.
  eapply wp_bind; [exact HA|]. cbv beta. intros [wa ba] (LA & BA & SA & ZA & DA).
  eapply wp_bind; [apply table_zero; [exact A | exact NI]|]. cbv beta. intros [ta z] (TA & LT & ZV).
  eapply wp_bind; [exact HG|]. cbv beta. intros [wg bg] (LG & BG & SG & ZG & DG).
  change (bind (Some ?x) ?f) with (f x). cbv beta. set (bits := if ba <? bg then bg else ba).
  assert (HB : ba <= bits /\ bg <= bits /\ 0 <= bits <= 256) by (unfold bits; destruct (Z.ltb_spec ba bg); lia).
  eapply wp_bind.
  { apply (ecmult_loop_zero z tg ta wa wg ba bg ZV HC TA LT LA LG ZA ZG DA DG (Z.to_nat bits)); [lia | left; reflexivity|].
    intros _ i Hi. split; [apply ZA; lia | apply ZG; lia]. }
  cbv beta. intros r [R I]. destruct (j_inf r) eqn:IR.
  - exfalso. specialize (I eq_refl). rewrite (wsum_all_zero 2 wa) in SA by (intros i Hi; apply I, Hi). rewrite (wsum_all_zero 2 wg) in SG by (intros i Hi; apply I, Hi).
    rewrite Z.mod_0_l in SA, SG by (pose proof n_pos; lia). destruct NZ; congruence.
  - destruct R as [R|R]; [congruence|]. destruct R as ((X & Y & rz & RZ) & _). fs. apply wp_some.
    split; [|z0]. split; [|reflexivity]. split; [exact X|]. split; [exact Y|]. eexists. cbn [j_z]. fr.
Qed.

(** ** ecmult_const *)
Lemma add_ge_zero a b : zxy a -> zaf b -> wp (j_add_ge dbg a b) (fun r => zxy r /\ j_inf r = negb (j_inf a)).
Proof.
  intros (X1 & Y1 & z1 & Z1) (X2 & Y2 & IB). unfold j_add_ge. apply wp_dassert; [rewrite IB; reflexivity|].
  do 13 fs. feqz0. eapply (wp_bind _ _ (fun d => d = true)).
  { eapply wp_mono; [eapply f_normalizes_to_zero_rep; fr|]. cbv beta. intros d ->. match goal with |- feqb ?e _ = _ => replace e with f0 by ring end. apply feqb_0. }
  cbv beta. intros deg ->. do 2 fs.
  eapply (wp_cmov 6); [fr | fr |]. intros ra RA. eapply (wp_cmov 6); [fr | fr |]. intros ma MA. cbn [negb] in RA, MA.
  do 3 fs. eapply (wp_cmov 2); [fr | fr |]. intros nn NN. do 3 fs. fs. do 4 fs. fs. do 8 fs.
  eapply (wp_cmov 6); [fr | fr |]. intros x3 X3. eapply (wp_cmov 6); [fr | fr |]. intros y3 Y3.
  eapply (wp_cmov 6); [fr | apply fcrep_frep; [exact fcrep_FE1 | lia] |]. intros z3 Z3.
  apply wp_some. feqz0. split; [|reflexivity]. split; [cbn [j_x]; destruct (j_inf a); z0|]. split; [cbn [j_y]; destruct (j_inf a); z0|]. eexists. exact Z3.
Qed.
Lemma af_set_gej_zero a : zxy a -> wp (af_set_gej dbg a) (fun r => frep 6 (af_x r) f0 /\ frep 6 (af_y r) f0 /\ af_inf r = j_inf a).
Proof. intros (X & Y & z & Z). unfold af_set_gej. do 6 fs. apply wp_some. split; [z0|]. split; [z0 | reflexivity]. Qed.
Definition zafc (a : affine) : Prop := zaf a /\ frep 1 (af_y a) f0.
Lemma table_get_const_zero t r d : Forall zafc t -> length t = 8%nat -> odd15 d -> wp (table_get_ge_const dbg r t d 5) zaf.
Proof.
  intros H L [O R]. unfold table_get_ge_const. assert (d <> 0) by (intros ->; discriminate O).
  assert (AB : d * (b2z (0 <? d) * 2 - 1) = Z.abs d) by (destruct (Z.ltb_spec 0 d); cbn [b2z]; lia). rewrite AB.
  rewrite ichk_small by lia. cbn [bind]. rewrite digit_asserts_ok by (try assumption; change (2 ^ (5 - 1)) with 16; lia). cbn [bind].
  assert (OA : Z.abs d mod 2 = 1) by (destruct (Z.abs_spec d) as [[_ ->]|[_ ->]]; [exact O | apply odd_sign, O]).
  destruct (odd_half (Z.abs d) OA ltac:(lia)) as [H2 HP].
  assert (HQ : Z.quot (Z.abs d) 2 = Z.quot (Z.abs d - 1) 2).
  { rewrite !Z.quot_div_nonneg in * by lia. revert OA. Z.to_euclidean_division_equations; lia. }
  rewrite HQ. destruct (nth_error t (Z.to_nat (Z.quot (Z.abs d - 1) 2))) as [a|] eqn:HI; [|apply nth_error_None in HI; lia].
  rewrite (cmov_loop_ok t 0 _ _ _ a); [| rewrite Z.sub_0_r; exact HI | lia].
  apply nth_error_In in HI. destruct (proj1 (Forall_forall _ _) H a HI) as ((X & Y & I) & Y1).
  fs. apply wp_some. rewrite f_cmov_eq. split; [exact X|]. split; [|reflexivity]. cbn [af_y].
  destruct (negb (d =? Z.abs d)); z0.
Qed.
End B.

(** a field element of the value zero, stored *)
Definition zst (s : fstorage) : Prop := fs_ok s /\ fsv s = 0.
Lemma to_storage_zero a : frep 6 (af_x a) f0 -> frep 6 (af_y a) f0 -> wp (af_to_storage false a) (fun '(As sx sy) => zst sx /\ zst sy).
Proof.
  intros X Y. unfold af_to_storage. cbn [dassert bind].
  eapply wp_bind; [apply f_normalize_rep; fr|]. cbv beta. intros x' X'.
  eapply wp_bind; [apply f_normalize_rep; fr|]. cbv beta. intros y' Y'.
  eapply wp_bind; [apply f_to_storage_rep; exact X'|]. cbv beta. intros sx [SX VX].
  eapply wp_bind; [apply f_to_storage_rep; exact Y'|]. cbv beta. intros sy [SY VY]. apply wp_some.
  split; split; [exact SX | rewrite VX; reflexivity | exact SY | rewrite VY; reflexivity].
Qed.
Lemma from_storage_zero x y : zst x -> zst y -> zaf (af_from_storage (As x y)).
Proof.
  intros [X VX] [Y VY]. cbn [af_from_storage].
  pose proof p_pos as PP.
  pose proof (f_from_storage_rep _ X ltac:(rewrite VX; exact PP)) as RX. pose proof (f_from_storage_rep _ Y ltac:(rewrite VY; exact PP)) as RY.
  rewrite VX in RX. rewrite VY in RY. split; [apply fcrep_frep; [exact RX | lia]|]. split; [apply fcrep_frep; [exact RY | lia] | reflexivity].
Qed.
Lemma double_nonzero_zero k : forall r, zxy r -> wp (double_nonzero_n false k r) zxy.
Proof.
  induction k; intros r R; cbn [double_nonzero_n]; [exact R|]. unfold j_double_nonzero_in_place at 1. cbn [dassert bind].
  eapply (wp_bind _ _ zxy); [|exact IHk]. eapply (wp_bind _ _ (fun '(r', _) => zxy r')); [|intros [r' z] R'; exact R'].
  destruct (j_inf r) eqn:I.
  - unfold j_double_var_in_place. rewrite I. cbn [bind]. apply wp_some. exact R.
  - eapply wp_mono; [apply (double_var_zero false r r None); split; assumption|]. intros [r' z] [[R' _] _]. exact (proj1 R').
Qed.
Lemma const_loop_zero t l : Forall zafc t -> length t = 8%nat -> Z.of_nat (length l) = 65 -> (forall i, 0 <= i < 65 -> odd15 (digit l i)) ->
  forall k tmpa r, (k <= 64)%nat -> zxy r -> wp (ecmult_const_loop false k t l tmpa r) zxy.
Proof.
  intros T LT L D. induction k; intros tmpa r K R; [exact R|]. cbn [ecmult_const_loop].
  eapply wp_bind; [apply double_nonzero_zero, R|]. cbv beta. intros r1 R1. rewrite idx_digit by lia. cbn [bind].
  eapply wp_bind; [apply table_get_const_zero; [exact T | exact LT | apply D; lia]|]. cbv beta. intros ta TA. cbn [dassert bind].
  eapply wp_bind; [apply add_ge_zero; [exact R1 | exact TA]|]. cbv beta. intros r2 [R2 _]. apply IHk; [lia | exact R2].
Qed.
Lemma set_ge_zero dbg a : frep 6 (af_x a) f0 -> frep 6 (af_y a) f0 -> wp (j_set_ge dbg a) (fun r => zxy r /\ j_inf r = af_inf a).
Proof.
  intros X Y. unfold j_set_ge. eapply wp_bind; [exact (f_set_int_rep dbg 1 ltac:(lia))|]. cbv beta. intros g W. apply wp_some.
  split; [|reflexivity]. split; [exact X|]. split; [exact Y|]. exists (toF 1). apply fcrep_frep; [exact W | lia].
Qed.
Theorem ecmult_const_zero a k : frep 6 (af_x a) f0 -> frep 6 (af_y a) f0 -> 0 <= k < n -> wp (ecmult_const false a (scalar_of k)) zxy.
Proof.
  intros X Y HK. destruct (wp_inv _ _ (ecmult_wnaf_const_ok false k HK)) as ([l skew] & HW & L & SK & D & _).
  unfold ecmult_const, WINDOW_A. change (5 - 1) with 4. rewrite HW. change (bind (Some ?x) ?f) with (f x). cbv beta iota.
  eapply wp_bind; [apply set_ge_zero; [exact X | exact Y]|]. cbv beta. intros r [R _].
  eapply wp_bind; [apply table_zero; [exact R | discriminate]|]. cbv beta. intros [ta z] (TA & LT & ZV).
  eapply (wp_bind _ _ (fun t => Forall zafc t /\ length t = 8%nat)).
  { assert (G : forall l : list affine, Forall zaf l -> wp (mapo (fun p => let* y := f_normalize_weak false (af_y p) in Some (Af (af_x p) y (af_inf p))) l) (fun t => Forall zafc t /\ length t = length l)).
    { induction l0 as [|q l0 IH]; intros F; cbn [mapo]; [apply wp_some; split; [constructor | reflexivity]|]. inversion F as [|? ? (QX & QY & QI) F2]; subst.
      eapply (wp_bind _ _ zafc). { fs. apply wp_some. split; [split; [exact QX|]; split; [z0 | exact QI] | fr]. }
      cbv beta. intros q' Q'. eapply wp_bind; [exact (IH F2)|]. cbv beta. intros t [T L']. apply wp_some. split; [constructor; assumption | cbn [length]; congruence]. }
    rewrite <- LT. apply G, TA. }
  cbv beta. intros t [T LT']. rewrite idx_digit by lia. cbn [bind dassert].
  eapply wp_bind; [apply table_get_const_zero; [exact T | exact LT' | apply D; lia]|]. cbv beta. intros tmpa TM.
  eapply wp_bind; [apply set_ge_zero; apply TM|]. cbv beta. intros r1 [R1 _].
  eapply wp_bind; [apply (const_loop_zero t l T LT' L D 64%nat); [lia | exact R1]|]. cbv beta. intros r2 (X2 & Y2 & z2 & Z2).
  fs. change (bind (Some ?x) ?f) with (f x). cbv beta.
  eapply wp_bind; [apply set_ge_zero; [exact X | exact Y]|]. cbv beta. intros tj [TJ TI].
  eapply (wp_bind _ _ zxy).
  { eapply wp_mono; [apply double_zero|].
    - destruct (j_inf tj) eqn:I; [left; exact I | right; split; [exact TJ | exact I]].
    - cbv beta. intros d [D1 D2]. destruct (j_inf tj); [rewrite (D1 eq_refl) | apply (D2 eq_refl)].
      pose proof (fcrep_frep _ _ 6 fcrep_default ltac:(lia)) as F0. split; [exact F0|]. split; [exact F0|]. eexists. exact F0. }
  cbv beta. intros t2 T2. eapply wp_bind; [apply af_set_gej_zero, T2|]. cbv beta. intros cor (CX & CY & _).
  eapply wp_bind; [apply (to_storage_zero a X Y)|]. cbv beta. intros [c1x c1y] [C1 C1'].
  eapply wp_bind; [apply (to_storage_zero cor CX CY)|]. cbv beta. intros [a2x a2y] [A2 A2'].
  change (bind (Some ?x) ?f) with (f x). cbv beta.
  assert (CM : zaf (af_from_storage (as_cmov (As c1x c1y) (As a2x a2y) (skew =? 2)))).
  { unfold as_cmov. apply from_storage_zero; rewrite fs_cmov_eq; destruct (skew =? 2); assumption. }
  destruct CM as (MX & MY & MI).
  eapply (wp_bind _ _ zaf). { unfold af_neg. do 2 fs. apply wp_some. split; [exact MX|]. split; [z0 | exact MI]. }
  cbv beta. intros co CO. eapply wp_mono; [apply add_ge_zero; [|exact CO]|].
  - split; [exact X2|]. split; [exact Y2|]. eexists. cbn [j_z]. fr.
  - cbv beta. intros r3 [R3 _]. exact R3.
Qed.
