(** What else is accepted once a signature is, and what normalisation does to recovery ids. *)
From Coq Require Import Znumtheory Zdiv.
From Verif Require Import Word MField MScalar MGroup MEcmult MEcdsa MApi WP FieldMul FieldNorm Spec Fp Bits FieldOps FieldCodec Denote Curve Group Chain Order Jac JacOps Table Ecmult Lift Gen Key Ctx ApiScalar ApiPub ApiGroup Ecdsa ApiEcdsa.

Lemma s_unique : forall d z r s1 s2, 1 <= d < n -> ecdsa_valid (smul d G) z r s1 -> ecdsa_valid (smul d G) z r s2 ->
  s1 = s2 \/ s1 + s2 = n \/ (r + n < p /\ exists y y', on_curve (Aff r y) /\ on_curve (Aff (r + n) y')).
Proof.
  intros d z r s1 s2 D V1 V2. rewrite smulG in V1, V2 by lia. apply valid_log in V1, V2. destruct V1 as (R & S1 & a & A & XA & CA), V2 as (_ & S2 & b & B & XB & CB). pose proof n_pos as NP.
  destruct XA as (xa & ya & PA & MA), XB as (xb & yb & PB & MB). pose proof (val_range xa) as RA. pose proof (val_range xb) as RB.
  apply x_cases in MA; [|exact RA | lia]. apply x_cases in MB; [|exact RB | lia].
  assert (ON : forall k x y, pt (emul k eG) = FAff x y -> on_curve (Aff (val x) (val y))) by (intros k x y P; pose proof (sp_on (emul k eG)) as O; unfold sp in O; rewrite P in O; exact O).
  assert (SAME : xa = xb -> s1 = s2 \/ s1 + s2 = n).
  { intros <-. pose proof (pt_on (emul a eG)) as OA. pose proof (pt_on (emul b eG)) as OB. rewrite PA in OA. rewrite PB in OB. destruct (same_x _ _ _ OA OB) as [E0|E0].
    - subst yb. assert (AB : a = b). { apply eqn_small; [lia | lia|]. apply emulG_eqn. apply pt_inj. congruence. } subst b. left. apply eqn_small; [lia | lia|].
      apply (eqn_cancel a); [exact A|]. rewrite CA, CB. reflexivity.
    - right. assert (AB : emul (a + b) eG = e0).
      { rewrite emul_add. replace (emul b eG) with (eopp (emul a eG)); [apply eadd_opp_r|]. apply pt_inj. unfold eopp. cbn [pt mkE proj1_sig]. change (proj1_sig ?A) with (pt A). rewrite PA, PB. cbn [fneg]. f_equal.
        replace yb with ((ya + yb) - ya)%F by ring. rewrite E0. ring. }
      apply (proj1 (emul_G_0 _)) in AB. assert (AB' : eqn (a + b) 0) by (unfold eqn, Zdiv.eqm; rewrite AB; symmetry; apply Z.mod_0_l; lia).
      assert (K : eqn s1 (n - s2)).
      { apply (eqn_cancel a); [exact A|]. rewrite CA, <- CB. replace (a * (n - s2)) with (b * s2 - (a + b) * s2 + a * n) by ring. rewrite AB'. apply eqn_def. rewrite Z.mod_add by lia. f_equal. ring. }
      apply eqn_small in K; lia. }
  destruct MA as [EA|EA], MB as [EB|EB].
  - destruct SAME as [H|H]; [apply val_inj; congruence | auto | auto].
  - right. right. split; [lia|]. exists (val ya), (val yb). rewrite <- EB. rewrite <- EA at 1. split; eapply ON; eassumption.
  - right. right. split; [lia|]. exists (val yb), (val ya). rewrite <- EA. rewrite <- EB at 1. split; eapply ON; eassumption.
  - destruct SAME as [H|H]; [apply val_inj; congruence | auto | auto].
Qed.

(** * C79 *)
(** Two signatures with the same r accepted for one message under one key: s is the same up to negation, or both r and r + n are x coordinates on the curve. *)
Lemma C79_s_unique_pf : forall dbg ctx k Q z r s1 s2, verify_ctx ctx -> key_at k Q -> Q <> Inf -> 0 <= r < n -> 0 <= s1 < n -> 0 <= s2 < n -> 0 <= z < n ->
  verify dbg ctx (scalar_of z) (Sig (scalar_of r) (scalar_of s1)) k = Some true -> verify dbg ctx (scalar_of z) (Sig (scalar_of r) (scalar_of s2)) k = Some true ->
  s1 = s2 \/ s1 + s2 = n \/ (r + n < p /\ exists y y', on_curve (Aff r y) /\ on_curve (Aff (r + n) y')).
Proof.
  intros dbg ctx k Q z r s1 s2 HC HK N R S1 S2 Z V1 V2. apply (verify_true dbg ctx k Q) in V1; try assumption. apply (verify_true dbg ctx k Q) in V2; try assumption.
  destruct (key_log k Q HK N) as (d & D & -> & _). rewrite <- smulG in V1, V2 by lia. exact (s_unique d z r s1 s2 D V1 V2).
Qed.
Lemma C79_s_unique_example_pf : exists ctx, verify_ctx ctx /\ key_at AFFINE_G G /\ G <> Inf /\
  verify true ctx (scalar_of 0) (Sig (scalar_of gx) (scalar_of gx)) AFFINE_G = Some true /\ verify true ctx (scalar_of 0) (Sig (scalar_of gx) (scalar_of (n - gx))) AFFINE_G = Some true.
Proof.
  destruct C27_malleability_example_pf as (ctx & HC & HK & V1 & V2 & _). assert (R : 0 <= gx < n) by vmr. assert (Z0 : 0 <= 0 < n) by vmr. assert (RN : 0 <= n - gx < n) by vmr. assert (NG : G <> Inf) by discriminate.
  exists ctx. split; [exact HC|]. split; [exact HK|]. split; [exact NG|]. split; [apply (verify_true true ctx _ _ 0 gx gx HC HK NG R R Z0); exact V1 | apply (verify_true true ctx _ _ 0 gx (n - gx) HC HK NG R RN Z0); exact V2].
Qed.
(** With low s and r >= p - n (all but one in 2^127 signatures) nothing else with the same r is accepted. *)
Lemma C79_low_s_unique_pf : forall dbg ctx k Q z r s1 s2, verify_ctx ctx -> key_at k Q -> Q <> Inf -> p - n <= r < n -> 0 <= s1 <= (n - 1) / 2 -> 0 <= s2 <= (n - 1) / 2 -> 0 <= z < n ->
  verify dbg ctx (scalar_of z) (Sig (scalar_of r) (scalar_of s1)) k = Some true -> verify dbg ctx (scalar_of z) (Sig (scalar_of r) (scalar_of s2)) k = Some true -> s1 = s2.
Proof.
  intros dbg ctx k Q z r s1 s2 HC HK N R S1 S2 Z V1 V2. pose proof half_n as [HN HP]. pose proof pnx as PN.
  destruct (C79_s_unique_pf dbg ctx k Q z r s1 s2 HC HK N ltac:(lia) ltac:(lia) ltac:(lia) Z V1 V2) as [H|[H|[H _]]]; lia.
Qed.
Lemma C79_low_s_unique_example_pf : (exists ctx, verify_ctx ctx /\ key_at AFFINE_G G /\ verify true ctx (scalar_of 0) (Sig (scalar_of gx) (scalar_of gx)) AFFINE_G = Some true) /\
  p - n <= gx < n /\ 0 <= gx <= (n - 1) / 2.
Proof. split; [destruct C79_s_unique_example_pf as (c & HC & HK & _ & V & _); exists c; auto | split; vmr]. Qed.

(** the recovery id with its parity bit inverted *)
Definition flip (id : Z) : Z := if Z.even id then id + 1 else id - 1.
Lemma flip_ok id : 0 <= id < 4 -> 0 <= flip id < 4 /\ flip id / 2 = id / 2 /\ flip id mod 2 = 1 - id mod 2 /\ flip (flip id) = id /\ flip id <> id.
Proof. intros H. destruct (id_cases id H) as [->|[->|[->| ->]]]; vm_compute; repeat split; discriminate. Qed.
Lemma opp_parity y : (y <> 0)%F -> val (- y)%F mod 2 = 1 - val y mod 2.
Proof.
  intros N. pose proof (val_range y) as R. assert (NZ : val y <> 0). { intros E0. apply N. apply val_inj. rewrite E0. reflexivity. }
  assert (E0 : val (- y)%F = p - val y). { symmetry. rewrite <- (val_small (p - val y)) by lia. f_equal. rewrite <- (toF_val y) at 2. rewrite <- toF_opp. apply toF_eq. replace (p - val y) with (- val y + 1 * p) by ring. apply Z.mod_add. lia. }
  rewrite E0. assert (P2 : p mod 2 = 1) by vmr. rewrite Zminus_mod, P2. pose proof (Z.mod_pos_bound (val y) 2 ltac:(lia)). assert (val y mod 2 = 0 \/ val y mod 2 = 1) as [->| ->] by lia; reflexivity.
Qed.
Lemma rpoint_flip r id A : 0 <= id < 4 -> rpoint r id A -> rpoint r (flip id) (eopp A).
Proof.
  intros ID (x & y & P & X & Y). destruct (flip_ok id ID) as (_ & F2 & F1 & _). exists x, (- y)%F.
  split; [unfold eopp; cbn [pt mkE proj1_sig]; change (proj1_sig A) with (pt A); rewrite P; reflexivity|]. rewrite F2, F1, <- Y. split; [exact X|]. apply opp_parity.
  pose proof (pt_on A) as O. rewrite P in O. exact (no_torsion2 _ _ O).
Qed.
Lemma qpoint_flip r s z A : 1 <= r < n -> qpoint r (n - s) z (eopp A) = qpoint r s z A.
Proof.
  intros R. destruct (log A) as (a & Ha & ->). rewrite <- emul_opp. destruct (log (qpoint r s z (emul a eG))) as (d & D & ED). rewrite ED. apply qpoint_log; [exact R|]. apply qpoint_log in ED; [|exact R].
  rewrite <- ED. apply eqn_def. replace (- a * (n - s)) with (a * s + (- a) * n) by ring. pose proof n_pos. apply Z.mod_add. lia.
Qed.
Lemma recovers_flip z r s id Q : 0 <= id < 4 -> recovers z r s id Q -> recovers z r (n - s) (flip id) Q.
Proof.
  intros ID H. apply recovers_log in H; [|exact ID]. destruct H as (R & S & N & A & RP & ->). destruct (flip_ok id ID) as (FI & _). apply recovers_log; [exact FI|].
  split; [exact R|]. split; [lia|]. split; [exact N|]. exists (eopp A). split; [apply rpoint_flip; assumption|]. rewrite qpoint_flip by exact R. reflexivity.
Qed.
Lemma recovers_flip_iff z r s id Q : 0 <= id < 4 -> (recovers z r (n - s) (flip id) Q <-> recovers z r s id Q).
Proof.
  intros ID. destruct (flip_ok id ID) as (FI & _ & _ & FF & _). split; [|apply recovers_flip, ID]. intros H. apply recovers_flip in H; [|exact FI]. rewrite FF in H. replace (n - (n - s)) with s in H by ring. exact H.
Qed.
Lemma key_eq_true dbg k k' Q : Q <> Inf -> key_at k Q -> key_at k' Q -> pk_eq dbg k k' = Some true.
Proof.
  intros N K K'. destruct Q as [|x y]; [contradiction|]. destruct (C07_equality_pf dbg _ _ _ _ _ _ K K') as (b & -> & Hb & _). f_equal. apply Hb. auto.
Qed.
Lemma key_eq_false dbg k k' Q Q' : Q <> Inf -> Q' <> Inf -> Q <> Q' -> key_at k Q -> key_at k' Q' -> pk_eq dbg k k' = Some false.
Proof.
  intros N N' NE K K'. destruct Q as [|x y]; [contradiction|]. destruct Q' as [|x' y']; [contradiction|]. destruct (C07_equality_pf dbg _ _ _ _ _ _ K K') as (b & -> & Hb & _). f_equal.
  destruct b; [|reflexivity]. destruct (proj1 Hb eq_refl) as [-> ->]. elim NE. reflexivity.
Qed.
(** Negating s and inverting the parity bit of the id recovers the same key, or fails the same way. *)
Lemma C79_recover_flip_pf : forall dbg dbg' dbg'' ctx ctx' z r s id, verify_ctx ctx -> verify_ctx ctx' -> 0 <= r < n -> 1 <= s < n -> 0 <= z < n -> 0 <= id < 4 ->
  let old := recover dbg ctx (scalar_of z) (Sig (scalar_of r) (scalar_of s)) id in
  let new := recover dbg' ctx' (scalar_of z) (Sig (scalar_of r) (scalar_of (n - s))) (Z.lxor id 1) in
  (old = Some (Err InvalidSignature) /\ new = Some (Err InvalidSignature)) \/
  exists k k', old = Some (Ok k) /\ new = Some (Ok k') /\ pk_eq dbg'' k k' = Some true.
Proof.
  intros dbg dbg' dbg'' ctx ctx' z r s id HC HC' R S Z ID. cbv zeta. assert (FE : Z.lxor id 1 = flip id) by (destruct (id_cases id ID) as [->|[->|[->| ->]]]; reflexivity). rewrite FE.
  destruct (flip_ok id ID) as (FI & _). pose proof (fun Q => recovers_flip_iff z r s id Q ID) as FL.
  destruct (C25_recover_exact_pf dbg ctx z r s id HC R ltac:(lia) Z ID) as [(k & Q & H & HK & HQ)|[H HQ]], (C25_recover_exact_pf dbg' ctx' z r (n - s) (flip id) HC' R ltac:(lia) Z FI) as [(k' & Q' & H' & HK' & HQ')|[H' HQ']].
  - right. exists k, k'. split; [exact H|]. split; [exact H'|]. apply (proj1 (FL Q')) in HQ'. pose proof (recovers_fun _ _ _ _ _ _ ID HQ HQ') as <-. apply (key_eq_true dbg'' k k' Q); [exact (proj1 (proj2 (proj2 HQ))) | exact HK | exact HK'].
  - elim (HQ' Q). apply FL, HQ.
  - elim (HQ Q'). apply (proj1 (FL Q')), HQ'.
  - left. auto.
Qed.
Lemma G_recovers : recovers 0 gx gx 0 G.
Proof.
  apply recovers_log; [lia|]. assert (R : 1 <= gx < n) by vmr. split; [exact R|]. split; [exact R|]. split; [discriminate|]. exists eG. split.
  - exists (toF gx), (toF gy). split; [reflexivity|]. rewrite !val_small by vmr. split; [vmr|]. vmr.
  - rewrite <- sp_G. f_equal. rewrite <- (emul_1 eG). symmetry. apply qpoint_log; [exact R|]. apply eqn_def. f_equal.
Qed.
Lemma C79_recover_flip_example_pf : exists ctx k, verify_ctx ctx /\ recover true ctx (scalar_of 0) (Sig (scalar_of gx) (scalar_of gx)) 0 = Some (Ok k) /\ key_at k G /\ Z.lxor 0 1 = 1.
Proof.
  destruct C22_verify_example_pf as ((ctx & _ & HC) & _). assert (R : 0 <= gx < n) by vmr. assert (Z0 : 0 <= 0 < n) by vmr. exists ctx.
  destruct (C25_recover_exact_pf true ctx 0 gx gx 0 HC R R Z0 ltac:(lia)) as [(k & Q & H & HK & HQ)|[_ HQ]]; [|elim (HQ _ G_recovers)].
  exists k. split; [exact HC|]. split; [exact H|]. split; [|reflexivity]. rewrite (recovers_fun 0 gx gx 0 G Q ltac:(lia) G_recovers HQ). exact HK.
Qed.
(** When [normalize_s] changes a signature, the old id no longer yields the old key: it fails or yields another key, and the inverted id yields the old key. *)
Lemma C79_normalize_id_pf : forall dbg dbg' ctx z r s id k g, verify_ctx ctx -> 0 <= r < n -> 1 <= s < n -> 0 <= z < n -> 0 <= id < 4 ->
  recover dbg ctx (scalar_of z) (Sig (scalar_of r) (scalar_of s)) id = Some (Ok k) ->
  sig_normalize_s dbg (Sig (scalar_of r) (scalar_of s)) = Some g ->
  g = Sig (scalar_of r) (scalar_of s) \/
  ((exists k', recover dbg ctx (scalar_of z) g (Z.lxor id 1) = Some (Ok k') /\ pk_eq dbg' k k' = Some true) /\
   (recover dbg ctx (scalar_of z) g id = Some (Err InvalidSignature) \/
    exists k', recover dbg ctx (scalar_of z) g id = Some (Ok k') /\ pk_eq dbg' k k' = Some false)).
Proof.
  intros dbg dbg' ctx z r s id k g HC R S Z ID H NS. pose proof n_lt as NL. unfold sig_normalize_s in NS. cbn [sig_s sig_r] in NS. rewrite s_is_high_eq in NS by lia. destruct (Z.leb_spec ((n - 1) / 2) s) as [HI|LO].
  2:{ left. apply some_inv in NS. subst g. reflexivity. }
  right. rewrite s_neg_eq, neg_mod_n in NS by lia. cbn [bind] in NS. apply some_inv in NS. subst g. split.
  - destruct (C79_recover_flip_pf dbg dbg dbg' ctx ctx z r s id HC HC R S Z ID) as [[H1 _]|(k1 & k2 & H1 & H2 & E0)]; rewrite H in H1; [discriminate H1|]. apply some_inv in H1. injection H1 as <-. exists k2. auto.
  - destruct (C25_recover_exact_pf dbg ctx z r s id HC R ltac:(lia) Z ID) as [(k1 & Q & H1 & HK & HQ)|[H1 _]]; rewrite H in H1; [|discriminate H1]. apply some_inv in H1. injection H1 as <-.
    destruct (C25_recover_exact_pf dbg ctx z r (n - s) id HC R ltac:(lia) Z ID) as [(k' & Q' & H' & HK' & HQ')|[H' _]]; [right | left; exact H'].
    exists k'. split; [exact H'|]. destruct (flip_ok id ID) as (FI & _ & _ & _ & FN). pose proof (recovers_flip _ _ _ _ _ ID HQ) as HF.
    apply (key_eq_false dbg' k k' Q Q'); [exact (proj1 (proj2 (proj2 HQ))) | exact (proj1 (proj2 (proj2 HQ'))) | | exact HK | exact HK'].
    intros <-. apply FN. exact (recovers_id _ _ _ _ _ _ FI ID HF HQ').
Qed.
(** A signature that [normalize_s] changes: s = n - gx, id 1, recovers the generator. *)
Lemma C79_normalize_id_example_pf : exists ctx k, verify_ctx ctx /\ recover true ctx (scalar_of 0) (Sig (scalar_of gx) (scalar_of (n - gx))) 1 = Some (Ok k) /\ key_at k G /\
  sig_normalize_s true (Sig (scalar_of gx) (scalar_of (n - gx))) = Some (Sig (scalar_of gx) (scalar_of gx)).
Proof.
  destruct C22_verify_example_pf as ((ctx & _ & HC) & _). assert (R : 0 <= gx < n) by vmr. assert (RN : 0 <= n - gx < n) by vmr. assert (Z0 : 0 <= 0 < n) by vmr. exists ctx.
  pose proof (recovers_flip 0 gx gx 0 G ltac:(lia) G_recovers) as HF. change (flip 0) with 1 in HF.
  destruct (C25_recover_exact_pf true ctx 0 gx (n - gx) 1 HC R RN Z0 ltac:(lia)) as [(k & Q & H & HK & HQ)|[_ HQ]]; [|elim (HQ _ HF)].
  exists k. split; [exact HC|]. split; [exact H|]. split; [rewrite (recovers_fun _ _ _ 1 G Q ltac:(lia) HF HQ); exact HK | vmr].
Qed.
