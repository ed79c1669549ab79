(** ECDSA and ECDH on the group: verification, recovery, signing, key operations. *)
From Coq Require Import Znumtheory Field Zdiv Setoid Morphisms.
From Verif Require Import Word MField MScalar MGroup MEcmult MEcdsa WP FieldMul FieldNorm Spec Fp Bits FieldOps FieldCodec FieldStore Denote Unred Curve Group Chain Order Jac JacOps Table Wnaf WnafC Ecmult Lift Gen Key ApiScalar ApiPub.

(** ** Arithmetic modulo n *)
Definition eqn (a b : Z) : Prop := eqm n a b.
#[global] Instance eqn_equiv : Equivalence eqn. Proof. unfold eqn. split; [intros x; reflexivity | intros x y H; symmetry; exact H | intros x y z H K; etransitivity; eassumption]. Qed.
#[global] Instance eqn_add : Proper (eqn ==> eqn ==> eqn) Z.add. Proof. exact (Zplus_eqm n). Qed.
#[global] Instance eqn_sub : Proper (eqn ==> eqn ==> eqn) Z.sub. Proof. exact (Zminus_eqm n). Qed.
#[global] Instance eqn_mul : Proper (eqn ==> eqn ==> eqn) Z.mul. Proof. exact (Zmult_eqm n). Qed.
#[global] Instance eqn_opp : Proper (eqn ==> eqn) Z.opp. Proof. exact (Zopp_eqm n). Qed.
Lemma eqn_mod a : eqn (a mod n) a. Proof. exact (Zmod_eqm n a). Qed.
Lemma eqn_def a b : eqn a b <-> a mod n = b mod n. Proof. reflexivity. Qed.
Lemma eqn_small a b : 0 <= a < n -> 0 <= b < n -> eqn a b -> a = b.
Proof. intros A B H. unfold eqn, eqm in H. rewrite !Z.mod_small in H by assumption. exact H. Qed.
Lemma eqn_inv s : 1 <= s < n -> eqn (inv_mod n s * s) 1.
Proof. intros S. apply eqn_def. rewrite inv_n by exact S. symmetry. apply Z.mod_small. nlt. lia. Qed.
Lemma eqn_0_dec a : {eqn a 0} + {~ eqn a 0}.
Proof. unfold eqn, eqm. apply Z.eq_dec. Qed.
Lemma inv_move s a b : 1 <= s < n -> (eqn a (inv_mod n s * b) <-> eqn (a * s) b).
Proof.
  intros S. pose proof (eqn_inv s S) as W. set (w := inv_mod n s) in *. split; intros H.
  - rewrite H. replace (w * b * s) with (w * s * b) by ring. rewrite W. replace (1 * b) with b by ring. reflexivity.
  - rewrite <- H. replace (w * (a * s)) with (w * s * a) by ring. rewrite W. replace (1 * a) with a by ring. reflexivity.
Qed.
Lemma eqn_cancel s a b : 1 <= s < n -> eqn (s * a) (s * b) -> eqn a b.
Proof.
  intros S H. pose proof (eqn_inv s S) as W. set (w := inv_mod n s) in *.
  replace a with (1 * a) by ring. rewrite <- W. replace (w * s * a) with (w * (s * a)) by ring. rewrite H. replace (w * (s * b)) with (w * s * b) by ring. rewrite W. replace (1 * b) with b by ring. reflexivity.
Qed.
Lemma eqn_mul_0 s a : 1 <= s < n -> eqn (s * a) 0 -> eqn a 0.
Proof. intros S H. apply (eqn_cancel s); [exact S|]. rewrite Z.mul_0_r. exact H. Qed.
Lemma emulG_eqn a b : emul a eG = emul b eG <-> eqn a b. Proof. apply emul_G_eq. Qed.
Lemma log A : exists d, 0 <= d < n /\ A = emul d eG.
Proof. destruct (cyclic A) as [k ->]. exists (k mod n). nlt. split; [apply Z.mod_pos_bound; lia | symmetry; apply emul_mod_G]. Qed.
Lemma log_nz A : A <> e0 -> exists d, 1 <= d < n /\ A = emul d eG.
Proof. intros N. destruct (log A) as (d & D & ->). exists d. split; [|reflexivity]. assert (d <> 0); [|lia]. intros ->. apply N. reflexivity. Qed.
Lemma emul_nz d : 1 <= d < n -> emul d eG <> e0.
Proof. intros D E0. apply (proj1 (emul_G_0 _)) in E0. rewrite Z.mod_small in E0; lia. Qed.

(** ** x coordinates *)
Lemma pnx : n < p /\ p < 2 * n /\ p < 2 ^ 256. Proof. repeat split; vm_compute; reflexivity. Qed.
(** no curve point has x = 0: such a point would have order 3 *)
Lemma x_neq0 A x y : pt A = FAff x y -> val x <> 0.
Proof.
  intros P E0. assert (X : x = f0) by (apply val_inj; exact E0). subst x. pose proof (pt_on A) as O. rewrite P in O. pose proof (no_torsion2 _ _ O) as NY.
  assert (D : eadd A A = eopp A).
  { apply pt_inj. unfold eadd, eopp. cbn [pt mkE proj1_sig]. change (proj1_sig A) with (pt A). rewrite P. cbn [ptadd fneg].
    destruct (feqb_spec f0 f0) as [_|K]; [|contradiction]. destruct (feqb_spec (y + y)%F f0) as [K|_]; [elim (fmul_neq0 _ _ f2_neq0 NY); rewrite <- K; ring|].
    unfold fchord. cbv zeta. f_equal; field; repeat split; first [exact NY | exact f2_neq0]. }
  assert (T : emul 3 A = e0). { replace 3 with (1 + (1 + 1)) by reflexivity. rewrite !emul_add, emul_1, D. apply eadd_opp_r. }
  apply emul_eq0 in T; [vm_compute in T; discriminate T|]. intros ->. discriminate P.
Qed.
(** an x coordinate below p is r modulo n iff it is r, or r + n when that is below p *)
Lemma x_cases x r : 0 <= x < p -> 0 <= r < n -> (x mod n = r <-> x = r \/ x = r + n).
Proof.
  intros X R. pose proof pnx. pose proof n_pos. split.
  - intros <-. rewrite (Z.div_mod x n) at 1 3 by lia. assert (x / n = 0 \/ x / n = 1) as [->| ->]; [|left; lia | right; lia].
    pose proof (Z.div_pos x n ltac:(lia) ltac:(lia)). pose proof (Z.div_lt_upper_bound x n 2 ltac:(lia) ltac:(lia)). lia.
  - intros [->| ->]; [apply Z.mod_small; lia|]. rewrite <- (Z.mul_1_l n) at 1. rewrite Z.mod_add, Z.mod_small by lia. reflexivity.
Qed.
(** the group element [A] is finite with x coordinate congruent to [r] *)
Definition xmod (A : E) (r : Z) : Prop := exists x y, pt A = FAff x y /\ val x mod n = r.
Lemma xmod_sp A r : xmod A r <-> match sp A with Inf => False | Aff x _ => x mod n = r end.
Proof.
  unfold xmod, sp. destruct (pt A) as [|x y]; cbn [spt]; split; try contradiction.
  - intros (x & y & E0 & _). discriminate E0.
  - intros (u & v & E0 & H). injection E0 as -> ->. exact H.
  - intros H. exists x, y. auto.
Qed.
Lemma xmod_fun A r s : xmod A r -> xmod A s -> r = s.
Proof. intros (x & y & P & <-) (u & v & Q & <-). congruence. Qed.
Lemma xmod_opp A r : xmod A r -> xmod (eopp A) r.
Proof. intros (x & y & P & H). exists x, (- y)%F. split; [|exact H]. unfold eopp. cbn [pt mkE proj1_sig]. change (proj1_sig A) with (pt A). rewrite P. reflexivity. Qed.
Lemma xmod_opp_iff A r : xmod (eopp A) r <-> xmod A r.
Proof. split; [|apply xmod_opp]. intros H. apply xmod_opp in H. rewrite eopp_opp in H. exact H. Qed.

(** Verification in terms of the discrete logarithm d of the key: some k has x(kG) = r modulo n and k*s = z + r*d *)
Lemma valid_log d z r s : ecdsa_valid (sp (emul d eG)) z r s <->
  1 <= r < n /\ 1 <= s < n /\ exists k, 1 <= k < n /\ xmod (emul k eG) r /\ eqn (k * s) (z + r * d).
Proof.
  unfold ecdsa_valid. pose proof n_pos as NP. split; intros (R & S & H); split; try exact R; split; try exact S; cbv zeta in *.
  - pose proof (Z.mod_pos_bound (z * inv_mod n s) n ltac:(lia)). pose proof (Z.mod_pos_bound (r * inv_mod n s) n ltac:(lia)).
    rewrite smul_G, <- sp_mul, <- sp_add, !emul_mod, <- emul_mul, <- emul_add in H by lia. apply xmod_sp in H.
    set (t := z * inv_mod n s + r * inv_mod n s * d) in *.
    assert (T : emul t eG <> e0) by (intros E0; rewrite E0 in H; destruct H as (? & ? & K & _); discriminate K).
    exists (t mod n). rewrite emul_mod. split; [|split; [exact H|]].
    + assert (t mod n <> 0) by (intros E0; apply T, emul_G_0; exact E0). pose proof (Z.mod_pos_bound t n ltac:(lia)). lia.
    + apply inv_move; [exact S|]. rewrite eqn_mod. unfold t. apply eqn_def. f_equal. ring.
  - destruct H as (k & K & X & C). pose proof (Z.mod_pos_bound (z * inv_mod n s) n ltac:(lia)). pose proof (Z.mod_pos_bound (r * inv_mod n s) n ltac:(lia)).
    rewrite smul_G, <- sp_mul, <- sp_add, !emul_mod, <- emul_mul, <- emul_add by lia. apply xmod_sp.
    assert (E0 : emul (z * inv_mod n s + r * inv_mod n s * d) eG = emul k eG); [|rewrite E0; exact X].
    apply emulG_eqn. symmetry. apply (inv_move s) in C; [|exact S]. rewrite C. apply eqn_def. f_equal. ring.
Qed.

Lemma FAff_inj x y u v : FAff x y = FAff u v -> x = u /\ y = v. Proof. intros H. injection H as -> ->. auto. Qed.

Section B.
Variable dbg : bool.
Lemma P_MINUS_ORDER_rep : fcrep P_MINUS_ORDER (toF (p - n)).
Proof. apply (f_new_rep 0 0 0 1 1162945305 1354194884 1076732274 801749742); [unfold u32x8, u32; lia | vm_compute; reflexivity]. Qed.
Lemma ORDER_AS_FE_rep : fcrep ORDER_AS_FE (toF n).
Proof. apply (f_new_rep 4294967295 4294967295 4294967295 4294967294 3132021990 2940772411 3218235020 3493216577); [unfold u32x8, u32; lia | vm_compute; reflexivity]. Qed.
Lemma val_small v : 0 <= v < p -> val (toF v) = v. Proof. intros H. rewrite val_toF. apply Z.mod_small, H. Qed.
Lemma wp_none {A} (Q : A -> Prop) : wp None Q -> False. Proof. intros H. exact H. Qed.
Lemma eqb_sum (a b : bool) : a = b -> (a = true <-> b = true). Proof. intros ->. tauto. Qed.
Lemma inv_n_rng s : 0 <= inv_mod n s < n. Proof. nlt. apply inv_mod_range. lia. Qed.
Lemma be32_bytes v : length (be_bytes 32 v) = 32%nat /\ bytes (be_bytes 32 v).
Proof. split; [apply be_len | apply bytes_be]. Qed.
Lemma be32_val v : 0 <= v < 2 ^ 256 -> be_val (be_bytes 32 v) = v. Proof. apply val_be_bytes_32. Qed.

(** the nonce point computed by verification, whatever the size of the scalars *)
Definition vpoint (A : E) (z r s : Z) : E := eadd (emul ((inv_mod n s * r) mod n) A) (emul ((inv_mod n s * z) mod n) eG).
Definition xis (A : E) (r : Z) : Prop := exists x y, pt A = FAff x y /\ (val x = r \/ val x = r + n).
Theorem verify_raw_any ctx k A r s z : ctx_ok ctx -> aok 6 f1 k A -> A <> e0 -> 0 <= r < p -> 0 <= s < 2 ^ 256 -> 0 <= z < 2 ^ 256 ->
  wp (verify_raw dbg ctx (scalar_of r) (scalar_of s) k (scalar_of z)) (fun b => b = true <-> r <> 0 /\ s <> 0 /\ xis (vpoint A z r s) r).
Proof.
  intros HC HK NA R S Z. pose proof n_lt as NL. pose proof n_pos as NP. pose proof pnx as (PN & _ & P2). unfold verify_raw. rewrite !s_is_zero_eq by lia.
  destruct (Z.eqb_spec r 0) as [->|NR]; [cbn [orb]; apply wp_some; split; [discriminate | intros (H & _); contradiction]|].
  destruct (Z.eqb_spec s 0) as [->|NS]; [cbn [orb]; apply wp_some; split; [discriminate | intros (_ & H & _); contradiction]|]. cbn [orb].
  pose proof (inv_n_rng s) as WR. rewrite s_inv_eq by lia. cbn [bind]. rewrite s_mul_eq by lia. cbn [bind]. rewrite s_mul_eq by lia. cbn [bind].
  eapply wp_bind; [apply j_set_ge_ok; exact HK|]. cbv beta. intros j (J & _).
  assert (M1 : 0 <= (inv_mod n s * r) mod n < n) by (apply Z.mod_pos_bound; lia). assert (M2 : 0 <= (inv_mod n s * z) mod n < n) by (apply Z.mod_pos_bound; lia).
  eapply wp_bind; [apply (ecmult_ok dbg ctx j A); [exact HC | exact J | exact NA | exact M1 | exact M2]|]. cbv beta. intros pr PR.
  fold (vpoint A z r s) in PR. set (T := vpoint A z r s) in *.
  assert (V : r <> 0 /\ s <> 0 /\ xis T r <-> xis T r) by tauto.
  destruct (j_inf pr) eqn:I.
  { apply wp_some. split; [discriminate|]. intros H. apply V in H. destruct H as (x & y & P & _). apply (jok_inf _ _ _ PR) in I. rewrite I in P. discriminate P. }
  assert (NT : T <> e0) by (intros E0; apply (jok_inf _ _ _ PR) in E0; congruence).
  destruct (pt T) as [|X Y] eqn:PT; [elim NT; apply pt_inj; exact PT|]. pose proof (val_range X) as XR.
  assert (V' : r <> 0 /\ s <> 0 /\ xis T r <-> val X = r \/ val X = r + n).
  { rewrite V. unfold xis. rewrite PT. split; [intros (x & y & E0 & H); injection E0 as -> ->; exact H | intros H; exists X, Y; auto]. }
  rewrite s_b32_eq by lia. cbn [bind]. eapply wp_bind; [apply f_set_b32_rep; apply be32_bytes|]. cbv beta. intros [xr ov] (_ & XF). rewrite be32_val in XF by lia. specialize (XF ltac:(lia)).
  eapply wp_bind; [eapply (j_eq_x_var_ok dbg pr T xr); [exact PR | exact PT | eapply fcrep_frep; [exact XF | lia]]|]. cbv beta. intros e ->.
  destruct (feqb_spec (toF r) X) as [EX|NX].
  { apply wp_some. split; [|reflexivity]. intros _. apply V'. left. rewrite <- EX. apply val_small. lia. }
  assert (NX' : val X <> r) by (intros E0; apply NX; rewrite <- E0; apply toF_val).
  eapply wp_bind; [eapply f_ge_rep; [exact XF | exact P_MINUS_ORDER_rep]|]. cbv beta. intros g ->. rewrite !val_small by lia.
  destruct (Z.leb_spec (p - n) r) as [GE|LT].
  { apply wp_some. split; [discriminate|]. intros H. apply V' in H. lia. }
  eapply wp_bind; [eapply (f_add_rep dbg _ _ _ _ 1 1); [apply fcrep_frep; [exact XF | lia] | apply fcrep_frep; [exact ORDER_AS_FE_rep | lia] | lia]|]. cbv beta. intros xr2 XF2.
  eapply wp_bind; [eapply (j_eq_x_var_ok dbg pr T xr2); [exact PR | exact PT | eapply frep_mono; [exact XF2 | lia]]|]. cbv beta. intros e ->.
  rewrite <- toF_add. destruct (feqb_spec (toF (r + n)) X) as [EX|NX2]; apply wp_some.
  - split; [|reflexivity]. intros _. apply V'. right. rewrite <- EX. apply val_small. lia.
  - split; [discriminate|]. intros H. apply V' in H. destruct H as [H|H]; [contradiction|]. elim NX2. rewrite <- H. apply toF_val.
Qed.
Theorem verify_raw_ok ctx k A r s z : ctx_ok ctx -> aok 6 f1 k A -> A <> e0 -> 0 <= r < n -> 0 <= s < n -> 0 <= z < n ->
  wp (verify_raw dbg ctx (scalar_of r) (scalar_of s) k (scalar_of z)) (fun b => b = true <-> ecdsa_valid (sp A) z r s).
Proof.
  intros HC HK NA R S Z. pose proof n_lt as NL. pose proof n_pos as NP. pose proof pnx as (PN & _ & P2).
  eapply wp_mono; [apply (verify_raw_any ctx k A r s z HC HK NA); lia|]. cbv beta. intros b ->.
  assert (V : ecdsa_valid (sp A) z r s <-> r <> 0 /\ s <> 0 /\ xmod (vpoint A z r s) r).
  { unfold ecdsa_valid, vpoint. cbv zeta. rewrite smul_G, <- sp_mul, <- sp_add by (apply Z.mod_pos_bound; lia). rewrite eadd_comm, (Z.mul_comm z), (Z.mul_comm r), xmod_sp.
    split; [intros (H1 & H2 & H); split; [lia|]; split; [lia | exact H] | intros (H1 & H2 & H); split; [lia|]; split; [lia | exact H]]. }
  rewrite V. assert (X : xis (vpoint A z r s) r <-> xmod (vpoint A z r s) r); [|rewrite X; reflexivity].
  unfold xis, xmod. split; intros (x & y & P & H); exists x, y; (split; [exact P|]); pose proof (val_range x); revert H; rewrite x_cases by lia; tauto.
Qed.
(** [A] is the nonce point designated by r and the recovery id *)
Definition rpoint (r id : Z) (A : E) : Prop := exists x y, pt A = FAff x y /\ val x = r + n * (id / 2) /\ val y mod 2 = id mod 2.
Definition qpoint (r s z : Z) (A : E) : E := eadd (emul ((inv_mod n r * s) mod n) A) (emul ((- ((inv_mod n r * z) mod n)) mod n) eG).
Lemma id_cases id : 0 <= id < 4 -> id = 0 \/ id = 1 \/ id = 2 \/ id = 3. Proof. lia. Qed.
Lemma id_bits id : 0 <= id < 4 -> (0 <? Z.land id 2) = (id / 2 =? 1) /\ (id / 2 = 0 \/ id / 2 = 1) /\ (0 <? Z.land id 1) = Z.odd id.
Proof. intros H. destruct (id_cases id H) as [->|[->|[->| ->]]]; vm_compute; auto. Qed.
Lemma rpoint_lifts r id A : rpoint r id A -> lifts (toF (r + n * (id / 2))) (Z.odd id) A.
Proof.
  intros (x & y & P & X & Y). exists y. rewrite <- X, toF_val. split; [exact P|]. rewrite !odd_mod, Y. reflexivity.
Qed.
Lemma odd_eq_mod a b : Z.odd a = Z.odd b -> a mod 2 = b mod 2. Proof. rewrite !Zmod_odd. intros ->. reflexivity. Qed.
Lemma lifts_rpoint r id A : 0 <= r + n * (id / 2) < p -> lifts (toF (r + n * (id / 2))) (Z.odd id) A -> rpoint r id A.
Proof.
  intros H (y & P & O). exists (toF (r + n * (id / 2))), y. split; [exact P|]. split; [apply val_small, H | apply odd_eq_mod, O].
Qed.
Lemma rpoint_range r id A : rpoint r id A -> r + n * (id / 2) < p.
Proof. intros (x & y & _ & X & _). pose proof (val_range x). lia. Qed.
Theorem recover_raw_any ctx r s id z : ctx_ok ctx -> 0 <= r < p -> 0 <= s < 2 ^ 256 -> 0 <= id < 4 -> 0 <= z < 2 ^ 256 ->
  wp (recover_raw dbg ctx (scalar_of r) (scalar_of s) id (scalar_of z)) (fun res => match res with
    | Ok k => 1 <= r /\ 1 <= s /\ af_inf k = false /\ exists A, rpoint r id A /\ qpoint r s z A <> e0 /\ aok 6 f1 k (qpoint r s z A)
    | Err e => e = InvalidSignature /\ ~ (1 <= r /\ 1 <= s /\ exists A, rpoint r id A /\ qpoint r s z A <> e0) end).
Proof.
  intros HC R S ID Z. pose proof n_lt as NL. pose proof n_pos as NP. pose proof pnx as (PN & _ & P2). unfold recover_raw. apply wp_dassert; [apply Z.ltb_lt; lia|].
  rewrite !s_is_zero_eq by lia.
  destruct (Z.eqb_spec r 0) as [->|NR]; [cbn [orb]; apply wp_some; split; [reflexivity | intros (H & _); lia]|].
  destruct (Z.eqb_spec s 0) as [->|NS]; [cbn [orb]; apply wp_some; split; [reflexivity | intros (_ & H & _); lia]|]. cbn [orb].
  rewrite s_b32_eq by lia. change (bind (Some ?x) ?f) with (f x). cbv beta. eapply wp_bind; [apply f_set_b32_rep; apply be32_bytes|]. cbv beta. intros [fx ov] (OV & XF).
  rewrite be32_val in OV, XF by lia. specialize (XF ltac:(lia)). rewrite (proj2 (Z.ltb_lt _ _)) in OV by lia. subst ov. apply wp_dassert; [reflexivity|].
  destruct (id_bits id ID) as (B2 & IH & B1). rewrite B2, B1.
  apply wp_bind with (P := fun o => match o with None => p <= r + n * (id / 2) | Some f => r + n * (id / 2) < p /\ frep 2 f (toF (r + n * (id / 2))) end).
  { destruct (Z.eqb_spec (id / 2) 1) as [->|N1].
    - eapply wp_bind; [eapply f_ge_rep; [exact XF | exact P_MINUS_ORDER_rep]|]. cbv beta. intros g ->. rewrite !val_small by lia.
      destruct (Z.leb_spec (p - n) r) as [GE|LT]; [apply wp_some; lia|].
      eapply wp_bind; [eapply (f_add_rep dbg _ _ _ _ 1 1); [apply fcrep_frep; [exact XF | lia] | apply fcrep_frep; [exact ORDER_AS_FE_rep | lia] | lia]|]. cbv beta. intros xr2 XF2.
      apply wp_some. split; [lia|]. rewrite Z.mul_1_r, toF_add. exact XF2.
    - assert (E0 : id / 2 = 0) by (destruct IH as [H|H]; [exact H | contradiction]). rewrite E0. apply wp_some. rewrite Z.mul_0_r, Z.add_0_r. split; [lia|]. eapply fcrep_frep; [exact XF | lia]. }
  cbv beta. intros [f|] HF.
  2:{ apply wp_some. split; [reflexivity|]. intros (_ & _ & A & RP & _). apply rpoint_range in RP. lia. }
  destruct HF as [RX FR]. assert (RX0 : 0 <= r + n * (id / 2) < p) by (split; [apply Z.add_nonneg_nonneg; [lia|]; apply Z.mul_nonneg_nonneg; lia | exact RX]).
  eapply wp_bind; [apply (af_set_xo_var_ok dbg f (toF (r + n * (id / 2))) 2); [exact FR | lia]|]. cbv beta. intros [a ok] (OK1 & OK2 & _).
  destruct ok; cbn [negb].
  2:{ apply wp_some. split; [reflexivity|]. intros (_ & _ & A & RP & _). apply rpoint_lifts in RP. assert (K : false = true) by (apply OK1; exists A; exact RP). discriminate K. }
  destruct (OK2 eq_refl) as (A & LA & AA & _ & AI). clear OK1 OK2.
  eapply wp_bind; [apply (j_set_ge_ok dbg a A); eapply aok_mono; [exact AA | lia]|]. cbv beta. intros j (J & _).
  pose proof (inv_n_rng r) as WR. rewrite s_inv_eq by lia. cbn [bind]. rewrite s_mul_eq by lia. cbn [bind].
  assert (M0 : 0 <= (inv_mod n r * z) mod n < n) by (apply Z.mod_pos_bound; lia). rewrite s_neg_eq by exact M0. cbn [bind]. rewrite s_mul_eq by lia.
  change (bind (Some ?x) ?f) with (f x). cbv beta.
  assert (M1 : 0 <= (inv_mod n r * s) mod n < n) by (apply Z.mod_pos_bound; lia). assert (M2 : 0 <= (- ((inv_mod n r * z) mod n)) mod n < n) by (apply Z.mod_pos_bound; lia).
  assert (NA : A <> e0) by (intros ->; destruct LA as (? & K & _); discriminate K).
  eapply wp_bind; [apply (ecmult_ok dbg ctx j A); [exact HC | exact J | exact NA | exact M1 | exact M2]|]. cbv beta. intros qj QJ. fold (qpoint r s z A) in QJ.
  pose proof (fcrep_ok _ _ 6 fcrep_default ltac:(lia)) as D.
  eapply wp_bind; [apply (af_set_gej_var_ok dbg af_default qj _ QJ); intros _; split; exact D|]. cbv beta. intros k (KA & _ & KI).
  apply lifts_rpoint in LA; [|exact RX0]. destruct (af_inf k) eqn:I; apply wp_some.
  - split; [reflexivity|]. intros (_ & _ & B & RB & NB). apply NB. rewrite (lifts_fun _ _ _ _ (rpoint_lifts _ _ _ RB) (rpoint_lifts _ _ _ LA)). apply (jok_inf _ _ _ QJ). congruence.
  - split; [lia|]. split; [lia|]. split; [exact I|]. exists A. split; [exact LA|]. split; [|exact KA]. intros E0. apply (jok_inf _ _ _ QJ) in E0. congruence.
Qed.
Theorem recover_raw_ok ctx r s id z : ctx_ok ctx -> 0 <= r < n -> 0 <= s < n -> 0 <= id < 4 -> 0 <= z < n ->
  wp (recover_raw dbg ctx (scalar_of r) (scalar_of s) id (scalar_of z)) (fun res => match res with
    | Ok k => 1 <= r /\ 1 <= s /\ af_inf k = false /\ exists A, rpoint r id A /\ qpoint r s z A <> e0 /\ aok 6 f1 k (qpoint r s z A)
    | Err e => e = InvalidSignature /\ ~ (1 <= r /\ 1 <= s /\ exists A, rpoint r id A /\ qpoint r s z A <> e0) end).
Proof.
  intros HC R S ID Z. pose proof n_lt as NL. pose proof pnx as (PN & _ & P2). apply recover_raw_any; [exact HC | lia | lia | exact ID | lia].
Qed.
(** the recovered key in terms of the logarithm of the nonce point *)
Lemma qpoint_log r s z k d : 1 <= r < n -> (qpoint r s z (emul k eG) = emul d eG <-> eqn (k * s) (z + r * d)).
Proof.
  intros R. pose proof (eqn_inv r R) as W. unfold qpoint. rewrite !emul_mod, <- emul_mul, <- emul_add, emulG_eqn. set (w := inv_mod n r) in *. rewrite eqn_mod. split; intros H.
  - rewrite <- H. replace (r * (w * s * k + - (w * z))) with (w * r * (s * k) - w * r * z) by ring. rewrite W. apply eqn_def. f_equal. ring.
  - apply (eqn_cancel r); [exact R|]. replace (r * (w * s * k + - (w * z))) with (w * r * (k * s) - w * r * z) by ring. rewrite W, H. apply eqn_def. f_equal. ring.
Qed.
(** what [sign_raw] computes from the nonce point (x, y) *)
Definition sign_val (x y d z k : Z) : result (Z * Z * Z) :=
  let r := x mod n in
  let id := (if n <=? x then 2 else 0) + y mod 2 in
  let s := (inv_mod n k * (r * d + z)) mod n in
  if s =? 0 then Err InvalidMessage
  else if (n - 1) / 2 <=? s then Ok (r, n - s, if Z.even id then id + 1 else id - 1) else Ok (r, s, id).
Definition sigz (v : result (Z * Z * Z)) : result (scalar * scalar * Z) :=
  match v with Ok (r, s, id) => Ok (scalar_of r, scalar_of s, id) | Err e => Err e end.
Lemma lor_id (o : bool) y : Z.lor (if o then 2 else 0) (if Z.odd y then 1 else 0) = (if o then 2 else 0) + y mod 2.
Proof. rewrite Zmod_odd. destruct o, (Z.odd y); reflexivity. Qed.
Lemma lxor_id (o : bool) y : let id := (if o then 2 else 0) + y mod 2 in Z.lxor id 1 = if Z.even id then id + 1 else id - 1.
Proof. rewrite Zmod_odd. destruct o, (Z.odd y); reflexivity. Qed.
Theorem sign_raw_any ctx d z k X Y : gctx_ok ctx -> 0 <= d < 2 ^ 256 -> 0 <= z < 2 ^ 256 -> 1 <= k < n -> pt (emul k eG) = FAff X Y ->
  sign_raw dbg ctx (scalar_of d) (scalar_of z) (scalar_of k) =
  if dbg && (n <=? val X) then None else Some (sigz (sign_val (val X) (val Y) d z k)).
Proof.
  intros HC D Z K PT. pose proof n_lt as NL. pose proof n_pos as NP. pose proof pnx as (PN & _ & P2). unfold sign_raw.
  destruct (wp_ex _ _ (ecmult_gen_ok dbg ctx k HC ltac:(lia))) as (j & -> & J). change (bind (Some ?x) ?f) with (f x). cbv beta.
  destruct (wp_ex _ _ (af_set_gej_ok dbg j _ J)) as (a & -> & AA & AI). change (bind (Some ?x) ?f) with (f x). cbv beta.
  assert (I : af_inf a = false) by (rewrite AI; apply (jok_fin _ _ _ J); apply emul_nz; exact K).
  destruct AA as (FX & FY & AP). rewrite I in AP. apply jpt_one in AP. rewrite PT in AP. apply FAff_inj in AP. destruct AP as [-> ->].
  set (x := fe (af_x a)) in *. set (y := fe (af_y a)) in *. pose proof (val_range x) as XR.
  assert (NX0 : val x <> 0) by (eapply x_neq0; exact PT).
  destruct (wp_ex _ _ (f_normalize_rep dbg (af_x a) x ltac:(eapply frep_mono; [apply fok_frep; exact FX | lia]))) as (rx & -> & RX). change (bind (Some ?x) ?f) with (f x). cbv beta.
  destruct (wp_ex _ _ (f_normalize_rep dbg (af_y a) y ltac:(eapply frep_mono; [apply fok_frep; exact FY | lia]))) as (ry & -> & RY). change (bind (Some ?x) ?f) with (f x). cbv beta.
  destruct (wp_ex _ _ (f_b32_rep dbg rx x RX)) as (b & -> & ->). change (bind (Some ?x) ?f) with (f x). cbv beta.
  destruct (be32_bytes (val x)) as [L B]. rewrite s_set_b32_eq by assumption. rewrite be32_val by lia. change (bind (Some ?x) ?f) with (f x). cbv beta iota.
  pose proof (Z.mod_pos_bound (val x) n ltac:(lia)) as MR. rewrite s_is_zero_eq by lia.
  assert (DA : forall T (o : option T), (dassert dbg (negb (val x mod n =? 0)) ;; dassert dbg (negb (n <=? val x)) ;; o) = if dbg && (n <=? val x) then None else o).
  { intros T o. unfold dassert. destruct dbg; [|reflexivity]. cbn [andb]. destruct (Z.leb_spec n (val x)) as [GE|LT]; cbn [negb].
    - destruct (val x mod n =? 0); reflexivity.
    - rewrite (Z.mod_small (val x)) by lia. destruct (Z.eqb_spec (val x) 0); [contradiction | reflexivity]. }
  rewrite DA. destruct (dbg && (n <=? val x)); [reflexivity|].
  destruct (wp_ex _ _ (f_is_odd_rep dbg ry y RY)) as (o & -> & ->). change (bind (Some ?x) ?f) with (f x). cbv beta. rewrite lor_id. cbv zeta.
  change (bind (Some ?x) ?f) with (f x). cbv beta. rewrite s_mul_eq by lia. change (bind (Some ?x) ?f) with (f x). cbv beta. pose proof (Z.mod_pos_bound (val x mod n * d) n ltac:(lia)) as MD.
  rewrite s_add_any by lia. change (bind (Some ?x) ?f) with (f x). cbv beta. destruct (radd_mod ((val x mod n * d) mod n) z ltac:(lia) ltac:(lia)) as [AR AM].
  pose proof (inv_n_rng k) as WR. rewrite s_inv_eq by lia. change (bind (Some ?x) ?f) with (f x). cbv beta.
  rewrite s_mul_eq by lia. change (bind (Some ?x) ?f) with (f x). cbv beta.
  assert (ES : (inv_mod n k * radd ((val x mod n * d) mod n) z) mod n = (inv_mod n k * (val x mod n * d + z)) mod n).
  { rewrite <- Zmult_mod_idemp_r, AM, Zmult_mod_idemp_r. rewrite <- (Zmult_mod_idemp_r ((val x mod n * d) mod n + z)), Zplus_mod_idemp_l, Zmult_mod_idemp_r. reflexivity. }
  rewrite ES. unfold sign_val. cbv zeta. set (s := (inv_mod n k * (val x mod n * d + z)) mod n).
  assert (SR : 0 <= s < n) by (apply Z.mod_pos_bound; lia). rewrite s_is_zero_eq by lia. destruct (Z.eqb_spec s 0) as [_|NS]; [reflexivity|].
  rewrite s_is_high_eq by lia. destruct (Z.leb_spec ((n - 1) / 2) s) as [HI|LO]; cbn [sigz].
  - rewrite s_neg_eq, neg_mod_n by lia. change (bind (Some ?x) ?f) with (f x). cbv beta. rewrite lxor_id. reflexivity.
  - reflexivity.
Qed.
Theorem sign_raw_ok ctx d z k X Y : gctx_ok ctx -> 0 <= d < n -> 0 <= z < n -> 1 <= k < n -> pt (emul k eG) = FAff X Y ->
  sign_raw dbg ctx (scalar_of d) (scalar_of z) (scalar_of k) =
  if dbg && (n <=? val X) then None else Some (sigz (sign_val (val X) (val Y) d z k)).
Proof. intros HC D Z. pose proof n_lt. apply sign_raw_any; [exact HC | lia | lia]. Qed.
(** Signatures in terms of logarithms: the returned (r, s) with s*k = +-(z + r*d), and the id designates the point +-kG *)
Lemma sign_val_ok d z k X Y r s id : 0 <= d < n -> 0 <= z < n -> 1 <= k < n -> pt (emul k eG) = FAff X Y -> sign_val (val X) (val Y) d z k = Ok (r, s, id) ->
  0 <= r < n /\ r = val X mod n /\ 1 <= s <= (n + 1) / 2 /\ 0 <= id < 4 /\
  exists k', 1 <= k' < n /\ (k' = k \/ k' = n - k) /\ eqn (k' * s) (z + r * d) /\ rpoint r id (emul k' eG).
Proof.
  intros D Z K PT. pose proof n_pos as NP. pose proof pnx as (PN & PN2 & _). unfold sign_val. cbv zeta. set (r0 := val X mod n). set (s0 := (inv_mod n k * (r0 * d + z)) mod n).
  assert (SR : 0 <= s0 < n) by (apply Z.mod_pos_bound; lia). assert (RR : 0 <= r0 < n) by (apply Z.mod_pos_bound; lia).
  assert (KS : eqn (k * s0) (z + r0 * d)).
  { rewrite (Z.mul_comm k). apply inv_move; [exact K|]. unfold s0. rewrite eqn_mod, (Z.add_comm z). reflexivity. }
  pose proof (val_range X) as XR. pose proof (val_range Y) as YR.
  assert (XE : val X = r0 + n * ((if n <=? val X then 2 else 0) / 2)).
  { unfold r0. destruct (Z.leb_spec n (val X)) as [GE|LT]; [change (2 / 2) with 1 | change (0 / 2) with 0].
    - rewrite (Z.mod_eq (val X) n) by lia. assert (val X / n = 1) as -> by (symmetry; apply (Z.div_unique _ _ 1 (val X - n)); lia). lia.
    - rewrite Z.mod_small by lia. lia. }
  set (o := n <=? val X) in *. assert (YM : val Y mod 2 = 0 \/ val Y mod 2 = 1) by (pose proof (Z.mod_pos_bound (val Y) 2 ltac:(lia)); lia).
  assert (H2 : n - 1 = 2 * ((n - 1) / 2)) by (vm_compute; reflexivity). assert (H3 : (n + 1) / 2 = (n - 1) / 2 + 1) by (vm_compute; reflexivity).
  set (h := (n - 1) / 2) in *. rewrite H3.
  destruct (Z.eqb_spec s0 0) as [_|NS]; [discriminate|]. destruct (Z.leb_spec h s0) as [HI|LO]; intros E0; injection E0 as <- <- <-.
  - split; [exact RR|]. split; [reflexivity|]. split; [lia|]. split; [destruct o, YM as [->| ->]; cbn; lia|].
    exists (n - k). split; [lia|]. split; [right; reflexivity|]. split.
    + rewrite <- KS. replace ((n - k) * (n - s0)) with (k * s0 + (n - k - s0) * n) by ring. apply eqn_def. apply Z.mod_add. lia.
    + assert (EN : emul (n - k) eG = eopp (emul k eG)) by (rewrite emul_sub, emul_n, eadd_0_l; reflexivity).
      exists X, (- Y)%F. split; [rewrite EN; unfold eopp; cbn [pt mkE proj1_sig]; change (proj1_sig ?A) with (pt A); rewrite PT; reflexivity|].
      pose proof (pt_on (emul k eG)) as ON. rewrite PT in ON. pose proof (fneg_odd Y (no_torsion2 _ _ ON)) as FO. rewrite (Zmod_odd (val (- Y)%F)), FO.
      rewrite Zmod_odd in *. destruct o, (Z.odd (val Y)); cbn in *; split; try lia; reflexivity.
  - split; [exact RR|]. split; [reflexivity|]. split; [lia|]. split; [destruct o, YM as [->| ->]; cbn; lia|].
    exists k. split; [exact K|]. split; [left; reflexivity|]. split; [exact KS|]. exists X, Y. split; [exact PT|].
    rewrite Zmod_odd in *. destruct o, (Z.odd (val Y)); cbn in *; split; try lia; reflexivity.
Qed.
Lemma rpoint_xmod r id A : 0 <= r < n -> 0 <= id < 4 -> rpoint r id A -> xmod A r.
Proof.
  intros R ID (x & y & P & X & _). exists x, y. split; [exact P|]. rewrite X, Z.mul_comm, Z.mod_add by (pose proof n_pos; lia). apply Z.mod_small, R.
Qed.
Lemma xmod_rpoint r A : 0 <= r < n -> xmod A r -> exists id, 0 <= id < 4 /\ rpoint r id A.
Proof.
  intros R (x & y & P & X). pose proof (val_range x) as XR. pose proof (Z.mod_pos_bound (val y) 2 ltac:(lia)) as YM. apply x_cases in X; [|exact XR | exact R]. destruct X as [X|X].
  - exists (val y mod 2). split; [lia|]. exists x, y. split; [exact P|]. rewrite (Z.div_small (val y mod 2) 2), Z.mod_mod by lia. split; [lia | reflexivity].
  - exists (val y mod 2 + 1 * 2). split; [lia|]. exists x, y. split; [exact P|]. rewrite Z.div_add, Z.mod_add, (Z.div_small (val y mod 2) 2), Z.mod_mod by lia. split; [lia | reflexivity].
Qed.
Lemma rpoint_id r i j A : 0 <= i < 4 -> 0 <= j < 4 -> rpoint r i A -> rpoint r j A -> i = j.
Proof.
  intros HI HJ (x & y & P & X & Y) (u & v & Q & X' & Y'). rewrite P in Q. apply FAff_inj in Q. destruct Q as [-> ->]. pose proof n_pos.
  assert (i / 2 = j / 2) by (apply (Z.mul_cancel_l _ _ n); lia). assert (i mod 2 = j mod 2) by congruence. rewrite (Z.div_mod i 2), (Z.div_mod j 2) by lia. congruence.
Qed.
End B.
