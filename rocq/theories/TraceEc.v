(** The traces of [ecmult_const], [ecdh_raw], [ecmult_gen] and [sign_raw]. *)
From Coq Require Import Znumtheory Field.
From Verif Require Import Word MField MScalar MGroup MEcmult MEcdsa MApi MTrace WP FieldMul FieldNorm FieldZero Spec Fp Bits FieldOps FieldCodec FieldStore
  ScalarMul ScalarOps ScalarMore ScalarBits Denote Curve Group Chain OrderCert Order Jac JacOps Lift Table Wnaf WnafC Ecmult Gen Endo Trace.

(** Events of the main loop with [k] digits to go. *)
Fixpoint loop_events (k : nat) : list event :=
  match k with
  | O => []
  | S k' => dbl_events 4 ++ EIndex (Z.of_nat k') :: index_events 8 0 ++ [EBranch false] ++ loop_events k'
  end.
Definition const_events (a : affine) (c : bool) : list event :=
  recode_events ++ EPublic a :: EIndex 64 :: index_events 8 0 ++ loop_events 64 ++ [EPublic a; EBranch c].

Lemma odd_mod_n d : odd15 d -> d mod n <> 0.
Proof.
  intros [O R] E0. pose proof n_big. assert (100 < 2 ^ 255) by reflexivity. apply Z.mod_divide in E0; [|lia]. destruct E0 as [t E0].
  assert (t = 0) by nia. subst t. rewrite E0 in O. discriminate O.
Qed.
Lemma suffix_bound l k : Z.of_nat (length l) = 65 -> (forall i, 0 <= i < 65 -> odd15 (digit l i)) -> 2 * Z.abs (wsum 16 l) <= n + 1 ->
  0 <= k <= 64 -> 2 * Z.abs (wsum 16 (skipn (Z.to_nat k) l)) <= n + 3.
Proof.
  intros L D B K. destruct (wsum_low l (Z.to_nat k)) as (low & EW & BL); [intros i Hi; apply D; lia | lia|]. rewrite Z2Nat.id in * by lia.
  set (m := wsum 16 (skipn (Z.to_nat k) l)) in *. assert (P : 1 <= 16 ^ k) by (change 1 with (16 ^ 0); apply Z.pow_le_mono_r; lia).
  assert (16 ^ k * Z.abs m <= Z.abs (wsum 16 l) + 16 ^ k) by (rewrite <- (Z.abs_eq (16 ^ k)) at 1 by lia; rewrite <- Z.abs_mul; lia).
  pose proof n_pos. nia.
Qed.
Section B.
Variable dbg : bool.
Lemma t_ecmult_const_loop_ok v t A l : A <> e0 -> Forall2 (aokc v) t (odds A 8 1) -> Z.of_nat (length l) = 65 ->
  (forall i, 0 <= i < 65 -> odd15 (digit l i)) -> - n < wsum 16 l < n -> 2 * Z.abs (wsum 16 l) <= n + 1 ->
  forall k tmpa r, (k <= 64)%nat -> jok v r (emul (wsum 16 (skipn k l)) A) ->
  wpt (t_ecmult_const_loop dbg k t l tmpa r) (loop_events k) (fun r' => jok v r' (emul (wsum 16 l) A)).
Proof.
  intros N T L D R B. induction k; intros tmpa r HK H; [apply wpt_ret; exact H|].
  cbn [t_ecmult_const_loop loop_events]. set (i := Z.of_nat k). assert (KI : k = Z.to_nat i) by (unfold i; lia).
  assert (SK : Datatypes.S k = Z.to_nat (i + 1)) by lia.
  pose proof (wsum_suffix l (i + 1) L D ltac:(pose proof n_lt; lia) ltac:(lia)) as NZ. rewrite <- SK in NZ.
  pose proof (suffix_bound l i L D B ltac:(lia)) as SB. rewrite (skipn_digit l i) in SB by lia. cbn [wsum] in SB. rewrite <- SK in SB.
  set (q := wsum 16 (skipn (Datatypes.S k) l)) in *.
  assert (IR : j_inf r = false) by (apply (jok_fin _ _ _ H), emul_neq0; assumption).
  eapply wpt_bind; [apply t_double_nonzero_n_ok; [exact H | exact IR]|]. cbv beta. intros r1 [R1 I1]. change (2 ^ Z.of_nat 4) with 16 in R1.
  assert (OD : odd15 (digit l i)) by (apply D; lia).
  eapply wpt_load; [apply idx_digit; lia|].
  eapply wpt_bind; [apply (t_table_get_ge_const_ok dbg v t A); [exact T | exact OD]|]. cbv beta. intros ta [TA TI].
  eapply (wpt_lift _ _ _ (fun _ => True)).
  { assert (NE : negb (digit l i =? 0) = true) by (destruct OD as [O _]; destruct (Z.eqb_spec (digit l i) 0) as [E0|]; [rewrite E0 in O; discriminate O | reflexivity]).
    rewrite NE, dassert_true. exact I. }
  intros _ _.
  eapply wpt_bind.
  { apply (t_add_ge_mul dbg v r1 ta A (16 * q) (digit l i) false N R1 TA TI).
    - intros E0. apply NZ. clear - E0 NZ. assert (PN := prime_n). assert (NP := n_pos). apply Z.mod_divide in E0; [|lia]. apply prime_mult in E0; [|exact PN].
      destruct E0 as [E0|E0]; [|apply Z.mod_divide; [lia | exact E0]]. exfalso. apply Zdivide_le in E0; [|lia|lia]. pose proof n_big. assert (100 < 2 ^ 255) by reflexivity. lia.
    - apply odd_mod_n, OD.
    - split; [discriminate|]. intros E0. exfalso. apply (no_opp q (digit l i) OD); [|exact E0]. destruct OD as [_ RD]. lia. }
  cbv beta. intros r2 R2.
  apply IHk; [lia|]. rewrite KI, (skipn_digit l i) by lia. cbn [wsum]. rewrite <- SK. fold q. rewrite Z.add_comm. exact R2.
Qed.

(** The correction: which scalars meet the branch. *)
Definition leaky (k : Z) : bool := (k =? 2 * lambda - 2) || (k =? n - 2 - lambda) || (k =? n - 4 - 2 * lambda).
Lemma leaky_ok k : 1 <= k < n -> (leaky k = true <-> opp_y (k + wskew k) (- wskew k)).
Proof.
  intros K. assert (NP := n_pos). unfold leaky. rewrite !Bool.orb_true_iff, !Z.eqb_eq. unfold opp_y.
  assert (Z1 : wskew (lambda - 1) = 2) by (vm_compute; reflexivity).
  assert (Z2 : wskew (n - 2 - lambda) = 1) by (vm_compute; reflexivity).
  assert (Z3 : wskew (2 * lambda - 2) = 2) by (vm_compute; reflexivity).
  assert (Z4 : wskew (n - 4 - 2 * lambda) = 2) by (vm_compute; reflexivity).
  assert (LB : 1 < lambda /\ 2 * lambda + 4 < n) by (vm_compute; split; reflexivity).
  assert (ZM : forall x, x mod n = 0 <-> exists t, x = t * n).
  { intros x. rewrite Z.mod_divide by lia. reflexivity. }
  rewrite !ZM. split.
  - intros [[-> | ->] | ->].
    + right; left. rewrite Z3. exists 0. lia.
    + right; right. rewrite Z2. exists 0. lia.
    + right; right. rewrite Z4. exists (-1). lia.
  - assert (W : wskew k = 1 \/ wskew k = 2) by (unfold wskew; destruct (xorb _ _); auto).
    intros [[t H] | [[t H] | [t H]]].
    + exfalso. assert (0 < t) by nia. nia.
    + destruct W as [W|W]; rewrite W in H.
      * assert (t = 0) by nia. subst t. replace k with (lambda - 1) in W by lia. rewrite Z1 in W. discriminate W.
      * assert (t = 0) by nia. left; left. lia.
    + destruct W as [W|W]; rewrite W in H.
      * assert (t = 0) by nia. left; right. lia.
      * assert (t = -1) by nia. right. lia.
Qed.

Theorem t_ecmult_const_ok a A k : aok 6 f1 a A -> A <> e0 -> 1 <= k < n ->
  wpt (t_ecmult_const dbg a (scalar_of k)) (const_events a (leaky k)) (fun r => jok f1 r (emul k A)).
Proof.
  intros HA N HK. pose proof (aok_fin _ _ _ _ HA N) as IA. unfold t_ecmult_const, const_events, WINDOW_A. change (5 - 1) with 4.
  eapply wpt_bind; [apply t_ecmult_wnaf_const_ok; lia|]. cbv beta. intros [l skew] (L & SK & D & R & S & B & SW). cbn [fst snd].
  apply wpt_ev.
  eapply wpt_lift; [apply j_set_ge_ok; exact HA|]. cbv beta. intros r (J & _).
  eapply wpt_lift; [apply table_windowa_ok; [exact J | exact N]|]. cbv beta. intros [ta z] (v & NV & ZV & TA). cbn [fst snd].
  eapply wpt_lift.
  { eapply (mapo_ok _ (aokf 6 v) (aokc v)); [exact TA|]. intros q Q [Hq Iq]. apply aok_elim in Hq. destruct Hq as (x & y & X & Y & Hq). rewrite Iq in *.
    fs. apply wp_some. split; [|split; [eapply frep_ok; [eassumption | lia] | reflexivity]]. eapply aok_intro; [exact X | fr | exact Hq]. }
  cbv beta. intros t T. eapply wpt_load; [apply idx_digit; lia|].
  assert (OD : odd15 (digit l 64)) by (apply D; lia).
  eapply (wpt_lift _ _ _ (fun _ => True)).
  { assert (NE : negb (digit l 64 =? 0) = true) by (destruct OD as [O _]; destruct (Z.eqb_spec (digit l 64) 0) as [E0|]; [rewrite E0 in O; discriminate O | reflexivity]).
    rewrite NE, dassert_true. exact I. }
  intros _ _.
  eapply wpt_bind; [apply (t_table_get_ge_const_ok dbg v t A); [exact T | exact OD]|]. cbv beta. intros tmpa [TM TI].
  eapply wpt_lift; [apply j_set_ge_oku; exact TM|]. cbv beta. intros r1 [R1 _].
  eapply wpt_bind.
  { apply (t_ecmult_const_loop_ok v t A l N T L D R B 64%nat); [lia|]. change 64%nat with (Z.to_nat 64). rewrite (skipn_digit l 64) by lia. cbn [wsum].
    rewrite (wsum_skip_zero 16 l); [rewrite Z.mul_0_r, Z.add_0_r; exact R1|]. intros i Hi. unfold digit. apply nth_overflow. lia. }
  cbv beta. intros r2 R2.
  assert (NW : (k + skew) mod n <> 0).
  { rewrite <- S. intros E0. assert (OW : wsum 16 l mod 2 = 1).
    { pose proof (skipn_digit l 0 ltac:(lia)) as K0. change (Z.to_nat 0) with 0%nat in K0. cbn [skipn] in K0. rewrite K0. cbn [wsum].
      match goal with |- (?x + 16 * ?y) mod 2 = _ => replace (x + 16 * y) with (x + (8 * y) * 2) by ring end. rewrite Z.mod_add by lia. apply D. lia. }
    assert (NP := n_pos). apply Z.mod_divide in E0; [|lia]. destruct E0 as [t0 E0]. assert (t0 = 0) by nia. subst t0. rewrite E0 in OW. discriminate OW. }
  assert (SM : emul (wsum 16 l) A = emul (k + skew) A) by (rewrite <- (emul_mod (wsum 16 l)), S, emul_mod; reflexivity).
  rewrite SM in R2.
  pose proof R2 as RR. apply jok_elim in RR. destruct RR as (x & y & zz & X & Y & ZZ & RP).
  eapply (wpt_lift _ _ _ (fun rz => frep 1 rz (zz * v)%F)).
  { eapply wp_mono; [eapply f_mul_rep; fr|]. cbv beta. intros rz K. exact K. }
  intros rz RZ. apply wpt_val. apply wpt_ev.
  assert (R3 : jok f1 (Ja (j_x r2) (j_y r2) rz (j_inf r2)) (emul (k + skew) A)).
  { eapply jok_intro; [exact X | exact Y | exact RZ | lia | lia | lia |]. destruct (j_inf r2); [exact RP|].
    eapply jpt_ext; [exact RP | reflexivity | reflexivity | ring]. }
  eapply wpt_lift; [apply j_set_ge_ok; exact HA|]. cbv beta. intros tj (TJ & _).
  eapply wpt_lift; [apply j_double_ok; exact TJ|]. cbv beta. intros t2 (T2 & _).
  assert (EA2 : eadd A A = emul 2 A) by (rewrite <- (emul_1 A) at 1 2; rewrite <- emul_add; reflexivity). rewrite EA2 in T2.
  assert (N2 : emul 2 A <> e0).
  { intros E0. apply emul_eq0 in E0; [|exact N]. rewrite n_eq in E0. discriminate E0. }
  pose proof (jok_fin _ _ _ T2 N2) as I2.
  eapply wpt_lift; [apply af_set_gej_ok; exact T2|]. cbv beta. intros cor [CO CI].
  eapply wpt_lift; [apply (af_to_storage_ok dbg 6); [exact HA | lia | exact IA]|]. cbv beta. intros c1 C1.
  eapply wpt_lift; [apply (af_to_storage_ok dbg 1); [exact CO | lia | congruence]|]. cbv beta. intros a2 A2.
  apply wpt_val.
  pose proof (as_cmov_ok _ _ _ _ (skew =? 2) C1 A2) as CM.
  assert (CE : (if skew =? 2 then emul 2 A else A) = emul skew A) by (destruct SK as [-> | ->]; [symmetry; apply emul_1 | reflexivity]).
  rewrite CE in CM.
  destruct (af_from_storage_ok _ _ CM) as [CF CFI].
  eapply wpt_lift; [apply (af_neg_ok dbg 1); [exact CF | lia]|]. cbv beta. intros co [C2 C2I]. rewrite <- emul_opp in C2.
  eapply wpt_mono; [apply (t_add_ge_mul dbg f1 _ co A (k + skew) (- skew) (leaky k) N R3 (aok_mono _ 6 _ _ _ C2 ltac:(lia)))|].
  - congruence.
  - exact NW.
  - destruct SK as [-> | ->]; rewrite n_eq; discriminate.
  - rewrite SW. apply leaky_ok, HK.
  - cbv beta. intros r3 R4. replace (k + skew + - skew) with k in R4 by lia. exact R4.
Qed.

(** ** [ecdh_raw] *)
Theorem t_ecdh_raw_fst D a A k : aok 6 f1 a A -> A <> e0 -> 1 <= k < n ->
  fst (t_ecdh_raw dbg D a (scalar_of k)) = EBranch false :: const_events a (leaky k).
Proof.
  intros HA N HK. unfold t_ecdh_raw. rewrite branch_fst.
  assert (Z0 : s_is_zero (scalar_of k) = false).
  { rewrite s_is_zero_ok by apply scalar_of_u. rewrite scalar_of_val by lia. apply Z.eqb_neq. lia. }
  rewrite Z0. f_equal. rewrite bindT_quiet; [|intros; repeat (apply quiet_lift; intros ?); reflexivity].
  exact (wpt_fst _ _ _ (t_ecmult_const_ok a A k HA N HK)).
Qed.
End B.
