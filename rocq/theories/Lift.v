(** Lifting an x coordinate to a curve point. *)
From Coq Require Import Znumtheory Field.
From Verif Require Import Word MField MGroup WP FieldMul FieldNorm FieldZero Spec Fp Bits FieldOps FieldCodec FieldStore Curve Group Chain Order Jac JacOps.

Lemma feq_sym_b (a b : F) : feqb a b = true <-> a = b.
Proof. destruct (feqb_spec a b); intuition congruence. Qed.
Lemma odd_mod z : Z.odd z = (z mod 2 =? 1).
Proof. rewrite Zmod_odd. destruct (Z.odd z); reflexivity. Qed.
(** opposite square roots have opposite parities *)
Lemma fneg_odd (y : F) : y <> f0 -> Z.odd (val (- y)%F) = negb (Z.odd (val y)).
Proof.
  intros NY. assert (H : (y + - y = 0)%F) by ring. pose proof (fneg_parity _ _ NY H) as P. pose proof p_odd as PO. rewrite <- P in PO.
  assert (O : Z.odd (val y + val (- y)%F) = true) by (rewrite odd_mod, PO; reflexivity). rewrite Z.odd_add in O.
  destruct (Z.odd (val y)), (Z.odd (val (- y)%F)); try discriminate O; reflexivity.
Qed.
Definition curve_rhs (x : F) : F := (x * x * x + b7)%F.
(** the point with the given x and y parity, if there is one *)
Definition lifts (x : F) (odd : bool) (A : E) : Prop := exists y, pt A = FAff x y /\ Z.odd (val y) = odd.
Lemma lifts_fun x o A B : lifts x o A -> lifts x o B -> A = B.
Proof.
  intros (y & HA & OA) (z & HB & OB). apply pt_inj. rewrite HA, HB. f_equal.
  pose proof (pt_on A) as CA. pose proof (pt_on B) as CB. rewrite HA in CA. rewrite HB in CB.
  destruct (same_x _ _ _ CA CB) as [K|K]; [exact K|]. exfalso.
  assert (z = (- y)%F) as -> by (replace z with ((y + z) - y)%F by ring; rewrite K; ring).
  rewrite fneg_odd, OA in OB; [destruct o; discriminate OB | exact (no_torsion2 _ _ CA)].
Qed.

Section B.
Variable dbg : bool.
Lemma af_set_xquad_ok x e : frep 8 x e ->
  wp (af_set_xquad dbg x) (fun '(a, ok) => exists v y, a = Af x v false /\ frep 1 v y /\ y = fsqrt (curve_rhs e) /\ ok = feqb (y * y)%F (curve_rhs e)).
Proof.
  intros X. unfold af_set_xquad. do 2 fs. eapply wp_bind; [apply f_set_int_rep; unfold CURVE_B; lia|]. cbv beta. intros c C.
  fs. eapply wp_bind; [apply f_sqrt_rep; fr|]. cbv beta. intros [v ok] [V ->]. apply wp_some.
  assert (EQ : (toF CURVE_B + e * (e * e) = curve_rhs e)%F) by (unfold curve_rhs, CURVE_B; change b7 with (toF 7); ring).
  rewrite EQ in *. eauto 10.
Qed.
(** [set_xo_var] succeeds iff some point has that x, and then returns the one with the asked parity *)
Lemma af_set_xo_var_ok x e k odd : frep k x e -> 2 <= k <= 8 ->
  wp (af_set_xo_var dbg x odd) (fun '(a, ok) => (ok = true <-> exists A, lifts e odd A) /\
    (ok = true -> exists A, lifts e odd A /\ aok k f1 a A /\ af_x a = x /\ af_inf a = false) /\
    (ok = false -> af_x a = x /\ fok 1 (af_y a) /\ af_inf a = false)).
Proof.
  intros X K. unfold af_set_xo_var. eapply wp_bind; [apply af_set_xquad_ok; fr|]. cbv beta. intros [a ok] (v & y & -> & V & Y & ->).
  destruct (feqb_spec (y * y)%F (curve_rhs e)) as [EQ|NE]; cbn [negb].
  - cbn [af_y af_x af_inf]. eapply wp_bind; [apply f_normalize_var_rep; fr|]. cbv beta. intros w W.
    eapply wp_bind; [apply f_is_odd_rep; exact W|]. cbv beta. intros o O.
    assert (CU : onc (FAff e y)) by (apply onc_eq; exact EQ).
    set (y' := if Bool.eqb o odd then y else (- y)%F).
    eapply (wp_bind _ _ (fun r => frep 2 r y')).
    { unfold y'. destruct (Bool.eqb o odd); [apply wp_some; apply fcrep_frep; [exact W | lia]|].
      eapply wp_mono; [apply f_neg_rep; [apply fcrep1; exact W | lia]|]. cbv beta. intros r R. fr. }
    cbv beta. intros yr YR. apply wp_some.
    assert (CU' : onc (FAff e y')).
    { apply onc_eq. apply onc_eq in CU. rewrite <- CU. unfold y'. destruct (Bool.eqb o odd); ring. }
    assert (L : lifts e odd (mkE _ CU')).
    { exists y'. split; [reflexivity|]. unfold y'. destruct (Bool.eqb o odd) eqn:EB.
      - apply eqb_prop in EB. congruence.
      - apply eqb_false_iff in EB. rewrite fneg_odd, <- O by exact (no_torsion2 _ _ CU). destruct o, odd; try reflexivity; elim EB; reflexivity. }
    split; [split; [eauto | reflexivity]|]. split; [|discriminate]. intros _. eexists. split; [exact L|]. split; [|split; reflexivity].
    eapply aok_intro; [exact X | fr |]. apply jpt_affine. reflexivity.
  - apply wp_some. split; [|split; [discriminate | intros _; split; [reflexivity | split; [apply V | reflexivity]]]]. split; [discriminate|]. intros (A & z & HA & _). exfalso. apply NE. rewrite Y.
    apply (fsqrt_complete _ z). pose proof (pt_on A) as CA. rewrite HA in CA. apply onc_eq in CA. exact CA.
Qed.
End B.
