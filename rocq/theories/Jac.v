(** Jacobian coordinates: the doubling and addition formulas used by the code compute the group law. *)
From Coq Require Import Znumtheory Field.
From Verif Require Import Word Spec Fp Curve Group Chain.

(** (X, Y, Z) stands for the affine point (X/Z^2, Y/Z^3) *)
Definition jpt (X Y Z : F) (A : E) : Prop := Z <> f0 /\ pt A = FAff (X / (Z * Z)) (Y / (Z * Z * Z)).

Lemma jpt_scale c X Y Z A : c <> f0 -> jpt X Y Z A -> jpt (X * (c * c)) (Y * (c * c * c)) (Z * c) A.
Proof.
  intros C [NZ H]. split; [apply fmul_neq0; assumption|]. rewrite H. f_equal; field; auto.
Qed.
Lemma jpt_affine x y A : pt A = FAff x y -> jpt x y f1 A.
Proof. intros H. split; [exact f1_neq_f0|]. rewrite H. f_equal; field; exact f1_neq_f0. Qed.
Lemma jpt_one x y A : jpt x y f1 A -> pt A = FAff x y.
Proof. intros [_ ->]. f_equal; field; exact f1_neq_f0. Qed.
Lemma jpt_neg X Y Z A : jpt X Y Z A -> jpt X (- Y) Z (eopp A).
Proof.
  intros [NZ H]. split; [exact NZ|]. change (pt (eopp A)) with (fneg (pt A)). rewrite H. cbn [fneg]. f_equal. field. exact NZ.
Qed.
Lemma jpt_neq0 X Y Z A : jpt X Y Z A -> A <> e0.
Proof. intros [_ H] ->. discriminate H. Qed.
Lemma jpt_curve X Y Z A : jpt X Y Z A -> (Y * Y = X * X * X + b7 * (Z * Z * Z * Z * Z * Z))%F.
Proof.
  intros [NZ H]. pose proof (pt_on A) as O. rewrite H in O. apply onc_eq in O.
  transitivity ((Y / (Z * Z * Z)) * (Y / (Z * Z * Z)) * (Z * Z * Z * Z * Z * Z))%F; [field; exact NZ|]. rewrite O. field. exact NZ.
Qed.
Lemma jpt_y X Y Z A : jpt X Y Z A -> Y <> f0.
Proof.
  intros [NZ H]. pose proof (pt_on A) as O. rewrite H in O. apply no_torsion2 in O. intros ->. apply O. field. exact NZ.
Qed.
Lemma jpt_fun X Y Z A B : jpt X Y Z A -> jpt X Y Z B -> A = B.
Proof. intros [_ H] [_ K]. apply pt_inj. congruence. Qed.

(** sums of affine points, by slope *)
Lemma eadd_slope xA yA xB yB l A B : pt A = FAff xA yA -> pt B = FAff xB yB ->
  xA <> xB -> (l * (xB - xA) = yB - yA)%F -> pt (eadd A B) = fchord l xA yA xB.
Proof.
  intros HA HB NE L. change (pt (eadd A B)) with (ptadd (pt A) (pt B)). rewrite HA, HB. cbn [ptadd].
  feq xA xB; [contradiction|]. f_equal.
  assert (D : (xB - xA <> 0)%F) by (intros D; apply NE; symmetry; apply fsub_eq0; exact D).
  rewrite <- L. field. exact D.
Qed.
Lemma eadd_tangent xA yA l A : pt A = FAff xA yA -> (l * (toF 2 * yA) = toF 3 * xA * xA)%F ->
  pt (eadd A A) = fchord l xA yA xA.
Proof.
  intros HA L. pose proof (pt_on A) as O. rewrite HA in O. apply no_torsion2 in O.
  change (pt (eadd A A)) with (ptadd (pt A) (pt A)). rewrite HA. cbn [ptadd].
  feq xA xA; [|contradiction]. feq (yA + yA)%F f0.
  { exfalso. apply (fmul_neq0 _ _ f2_neq0 O). rewrite <- e0. ring. }
  f_equal. rewrite <- L. field. split; [exact O | exact f2_neq0].
Qed.
Lemma eadd_opposite x y z A B : pt A = FAff x y -> pt B = FAff x z -> (y + z = 0)%F -> eadd A B = e0.
Proof.
  intros HA HB H. apply pt_inj. change (pt (eadd A B)) with (ptadd (pt A) (pt B)). rewrite HA, HB. cbn [ptadd].
  feq x x; [|contradiction]. feq (y + z)%F f0; [reflexivity | contradiction].
Qed.

(** doubling, core/src/group.rs:344-379 *)
Lemma jpt_double X Y Z u A : jpt X Y (Z * u) A ->
  let t1 := (toF 3 * (X * X))%F in let t3 := (toF 2 * (Y * Y) * X)%F in
  jpt (- (toF 4 * t3) + t1 * t1) (t1 * (toF 6 * t3 + - (t1 * t1)) + - (toF 2 * ((toF 2 * (Y * Y)) * (toF 2 * (Y * Y)))))
      (toF 2 * (Z * Y) * u) (eadd A A).
Proof.
  intros J t1 t3. pose proof (jpt_y _ _ _ _ J) as NY. destruct J as [NZ H].
  assert (NZ' : Z <> f0) by (intros ->; apply NZ; ring). assert (NU : u <> f0) by (intros ->; apply NZ; ring).
  split; [repeat apply fmul_neq0; auto using f2_neq0|].
  rewrite (eadd_tangent _ _ (t1 / (toF 2 * Y * (Z * u)))%F _ H).
  - unfold fchord. cbv zeta. unfold t1, t3. f_equal; field; auto using f2_neq0.
  - unfold t1. field. auto using f2_neq0.
Qed.

(** addition with different x *)
Lemma jpt_add X1 Y1 Z1 X2 Y2 Z2 A B : jpt X1 Y1 Z1 A -> jpt X2 Y2 Z2 B ->
  let u1 := (X1 * (Z2 * Z2))%F in let u2 := (X2 * (Z1 * Z1))%F in
  let s1 := (Y1 * (Z2 * Z2 * Z2))%F in let s2 := (Y2 * (Z1 * Z1 * Z1))%F in
  let h := (u2 - u1)%F in let i := (s2 - s1)%F in
  h <> f0 ->
  let X3 := (i * i - h * h * h - toF 2 * (u1 * (h * h)))%F in
  jpt X3 (i * (u1 * (h * h) - X3) - s1 * (h * h * h)) (Z1 * Z2 * h) (eadd A B).
Proof.
  intros [N1 H1] [N2 H2] u1 u2 s1 s2 h i NH X3.
  assert (D : (X2 * (Z1 * Z1) - X1 * (Z2 * Z2) <> 0)%F) by exact NH.
  split; [repeat apply fmul_neq0; auto|].
  rewrite (eadd_slope _ _ _ _ (i / (h * Z1 * Z2))%F _ _ H1 H2).
  - unfold fchord. cbv zeta. unfold X3, i, h, u1, u2, s1, s2. f_equal; field; auto.
  - intros E0. apply D. apply fsub_eq0.
    transitivity ((X2 / (Z2 * Z2)) * (Z1 * Z1 * (Z2 * Z2)))%F; [field; auto|]. rewrite <- E0. field. auto.
  - unfold i, h, u1, u2, s1, s2. field. auto.
Qed.
Lemma jpt_same_x X1 Y1 Z1 X2 Y2 Z2 A B : jpt X1 Y1 Z1 A -> jpt X2 Y2 Z2 B ->
  (X2 * (Z1 * Z1) - X1 * (Z2 * Z2) = 0)%F ->
  ((Y2 * (Z1 * Z1 * Z1) - Y1 * (Z2 * Z2 * Z2) = 0)%F -> A = B) /\
  ((Y2 * (Z1 * Z1 * Z1) - Y1 * (Z2 * Z2 * Z2) <> 0)%F -> eadd A B = e0).
Proof.
  intros [N1 H1] [N2 H2] H. apply (proj1 (fsub_eq0 _ _)) in H.
  assert (EX : (X1 / (Z1 * Z1) = X2 / (Z2 * Z2))%F).
  { transitivity ((X1 * (Z2 * Z2)) / (Z1 * Z1 * (Z2 * Z2)))%F; [field; auto|]. rewrite <- H. field. auto. }
  split; intros HY.
  - apply (proj1 (fsub_eq0 _ _)) in HY. apply pt_inj. rewrite H1, H2, EX. f_equal.
    transitivity ((Y1 * (Z2 * Z2 * Z2)) / (Z1 * Z1 * Z1 * (Z2 * Z2 * Z2)))%F; [field; auto|]. rewrite <- HY. field. auto.
  - rewrite EX in H1. apply (eadd_opposite _ _ _ _ _ H1 H2).
    pose proof (pt_on A) as OA. pose proof (pt_on B) as OB. rewrite H1 in OA. rewrite H2 in OB.
    destruct (same_x _ _ _ OA OB) as [EY|EY]; [exfalso; apply HY | exact EY].
    apply fsub_eq0. transitivity ((Y2 / (Z2 * Z2 * Z2)) * (Z1 * Z1 * Z1 * (Z2 * Z2 * Z2)))%F; [field; auto|]. rewrite <- EY. field. auto.
Qed.
(** mixed addition: the second point shares the scale [u], core/src/group.rs:536-599 *)
Lemma jpt_add_ge X1 Y1 Z1 X2 Y2 u A B : jpt X1 Y1 (Z1 * u) A -> jpt X2 Y2 u B ->
  let h := (X2 * (Z1 * Z1) - X1)%F in let i := (Y2 * (Z1 * Z1) * Z1 - Y1)%F in
  h <> f0 ->
  let X3 := (i * i - h * h * h - toF 2 * (X1 * (h * h)))%F in
  jpt X3 (i * (X1 * (h * h) - X3) - Y1 * (h * h * h)) (Z1 * h * u) (eadd A B).
Proof.
  intros J1 [N2 H2] h i NH X3. pose proof J1 as [N1 H1].
  assert (NZ : Z1 <> f0) by (intros ->; apply N1; ring).
  (* as an addition of (X1, Y1, Z1) and (X2, Y2, 1) on the scaled curve *)
  split; [repeat apply fmul_neq0; auto|].
  assert (D : (X2 * (Z1 * Z1) - X1 <> 0)%F) by exact NH.
  rewrite (eadd_slope _ _ _ _ (i / (h * Z1 * u))%F _ _ H1 H2).
  - unfold fchord. cbv zeta. unfold X3, i, h. f_equal; field; auto.
  - intros E0. apply D. apply fsub_eq0.
    transitivity ((X2 / (u * u)) * (Z1 * Z1 * (u * u)))%F; [field; auto|]. rewrite <- E0. field. auto.
  - unfold i, h. field. auto.
Qed.
Lemma jpt_same_x_ge X1 Y1 Z1 X2 Y2 u A B : jpt X1 Y1 (Z1 * u) A -> jpt X2 Y2 u B ->
  (X2 * (Z1 * Z1) - X1 = 0)%F ->
  ((Y2 * (Z1 * Z1) * Z1 - Y1 = 0)%F -> A = B) /\ ((Y2 * (Z1 * Z1) * Z1 - Y1 <> 0)%F -> eadd A B = e0).
Proof.
  intros J1 J2 H. pose proof J2 as [N2 _].
  assert (H' : (X2 * ((Z1 * u) * (Z1 * u)) - X1 * (u * u) = 0)%F).
  { transitivity ((X2 * (Z1 * Z1) - X1) * (u * u))%F; [ring | rewrite H; ring]. }
  destruct (jpt_same_x _ _ _ _ _ _ _ _ J1 J2 H') as [K1 K2].
  assert (R : (Y2 * ((Z1 * u) * (Z1 * u) * (Z1 * u)) - Y1 * (u * u * u) = (Y2 * (Z1 * Z1) * Z1 - Y1) * (u * u * u))%F) by ring.
  split; intros HY; [apply K1; rewrite R, HY; ring | apply K2; rewrite R; repeat apply fmul_neq0; auto].
Qed.
(** the unified addition of core/src/group.rs:457-528 *)
Lemma jpt_unified X1 Y1 Z1 X2 Y2 u A B : jpt X1 Y1 (Z1 * u) A -> jpt X2 Y2 u B ->
  let u2 := (X2 * (Z1 * Z1))%F in let s2 := (Y2 * (Z1 * Z1) * Z1)%F in
  let t := (X1 + u2)%F in let m := (Y1 + s2)%F in
  let rr := (t * t + X1 * (- u2))%F in
  let deg := feqb m f0 && feqb rr f0 in
  let ra := if deg then (Y1 * toF 2)%F else rr in
  let ma := if deg then (- u2 + X1)%F else m in
  let n := if deg then m else (ma * ma * (ma * ma))%F in
  let q := (- (ma * ma * t))%F in
  let x := (ra * ra + q)%F in
  (feqb (Z1 * ma) f0 = true -> eadd A B = e0) /\
  (feqb (Z1 * ma) f0 = false ->
     jpt (x * toF 4) (- ((x * toF 2 + q) * ra + n) * toF 4) (Z1 * ma * toF 2 * u) (eadd A B)).
Proof.
  intros J1 J2 u2 s2 t m rr deg. pose proof J1 as [N1 H1]. pose proof J2 as [N2 H2].
  pose proof (jpt_curve _ _ _ _ J1) as C1. pose proof (jpt_curve _ _ _ _ J2) as C2.
  assert (NZ : Z1 <> f0) by (intros ->; apply N1; ring).
  (* (u2 - X1)(u2^2 + u2 X1 + X1^2) = (s2 - Y1)(s2 + Y1) *)
  assert (K : ((X1 - u2) * rr = (Y1 - s2) * m)%F).
  { transitivity (X1 * X1 * X1 - u2 * u2 * u2)%F; [unfold rr, t; ring|].
    transitivity (Y1 * Y1 - s2 * s2)%F; [|unfold m; ring].
    rewrite C1. unfold s2. replace (Y2 * (Z1 * Z1) * Z1 * (Y2 * (Z1 * Z1) * Z1))%F with (Y2 * Y2 * (Z1 * Z1 * Z1 * Z1 * Z1 * Z1))%F by ring.
    rewrite C2. unfold u2. ring. }
  (* generic chord with slope ra / (ma Z1 u) *)
  assert (CH : forall ra ma n, ma <> f0 ->
    (ma * ma * ma * m = n)%F ->
    pt (eadd A B) = fchord (ra / (ma * Z1 * u))%F (X1 / (Z1 * u * (Z1 * u)))%F (Y1 / (Z1 * u * (Z1 * u) * (Z1 * u)))%F (X2 / (u * u))%F ->
    (ra * (X1 - u2) = (Y1 - s2) * ma)%F ->
    let q := (- (ma * ma * t))%F in let x := (ra * ra + q)%F in
    jpt (x * toF 4) (- ((x * toF 2 + q) * ra + n) * toF 4) (Z1 * ma * toF 2 * u) (eadd A B)).
  { intros ra ma n NM HN HP HS q x. split; [repeat apply fmul_neq0; auto using f2_neq0|]. rewrite HP. unfold fchord. cbv zeta. f_equal.
    - unfold x, q, t, u2. field. auto using f2_neq0.
    - (* use the slope equation to symmetrize y *)
      transitivity ((- (((ra * ra - ma * ma * t) * toF 2 - ma * ma * t) * ra + ma * ma * ma * m) + ma * ma * ((ra * (X1 - u2)) - (Y1 - s2) * ma)) * toF 4 / (Z1 * ma * toF 2 * u * (Z1 * ma * toF 2 * u) * (Z1 * ma * toF 2 * u)))%F.
      + unfold t, m, u2, s2. field. auto using f2_neq0.
      + rewrite HN, HS. unfold x, q. field. auto using f2_neq0. }
  cbv zeta. unfold deg.
  destruct (feqb_spec m f0) as [M0|MN]; cbn [andb]; [destruct (feqb_spec rr f0) as [R0|RN]|].
  - (* degenerate *)
    destruct (feqb_spec (Z1 * (- u2 + X1))%F f0) as [E0|NE]; split; try discriminate; intros _.
    + apply fmul_eq0 in E0. destruct E0 as [E0|E0]; [contradiction|].
      assert (EX : (X2 * (Z1 * Z1) - X1 = 0)%F) by (fold u2; transitivity (- (- u2 + X1))%F; [ring | rewrite E0; ring]).
      apply (proj2 (jpt_same_x_ge _ _ _ _ _ _ _ _ J1 J2 EX)). fold s2. intros K2.
      apply (jpt_y _ _ _ _ J1). apply (fun H => match fmul_eq0 _ _ H with or_introl a => match f2_neq0 a with end | or_intror b => b end).
      transitivity (m - (s2 - Y1))%F; [unfold m; ring | rewrite M0, K2; ring].
    + assert (NM : (- u2 + X1 <> 0)%F) by (intros E0; apply NE; rewrite E0; ring).
      assert (SL : (Y1 * toF 2 * (X1 - u2) = (Y1 - s2) * (- u2 + X1))%F).
      { assert (S2 : s2 = (- Y1)%F) by (transitivity (m - Y1)%F; [unfold m; ring | rewrite M0; ring]). rewrite S2. ring. }
      apply CH; [exact NM | rewrite M0; ring | | exact SL].
      apply (eadd_slope _ _ _ _ _ _ _ H1 H2).
      * intros E0. apply NM. unfold u2.
        transitivity ((X1 / (Z1 * u * (Z1 * u)) - X2 / (u * u)) * (Z1 * Z1 * (u * u)))%F; [field; auto | rewrite E0; ring].
      * assert (S2 : s2 = (- Y1)%F) by (transitivity (m - Y1)%F; [unfold m; ring | rewrite M0; ring]).
        transitivity ((s2 - Y1) / (Z1 * u * (Z1 * u) * (Z1 * u)))%F; [rewrite S2; unfold u2; field; auto | unfold s2; field; auto].
  - (* m = 0, rr <> 0: opposite points *)
    assert (ME : m = f0) by exact M0.
    destruct (feqb_spec (Z1 * m)%F f0) as [E0|NE]; [|exfalso; apply NE; rewrite ME; ring]. split; [intros _|discriminate].
    rewrite ME in K. assert (K' : ((X1 - u2) * rr = 0)%F) by (rewrite K; ring). apply fmul_eq0 in K'. destruct K' as [K'|K']; [|contradiction].
    assert (EX : (X2 * (Z1 * Z1) - X1 = 0)%F) by (fold u2; transitivity (- (X1 - u2))%F; [ring | rewrite K'; ring]).
    apply (proj2 (jpt_same_x_ge _ _ _ _ _ _ _ _ J1 J2 EX)). fold s2. intros K2.
    apply (jpt_y _ _ _ _ J1). apply (fun H => match fmul_eq0 _ _ H with or_introl a => match f2_neq0 a with end | or_intror b => b end).
    transitivity (m - (s2 - Y1))%F; [unfold m; ring | rewrite ME, K2; ring].
  - destruct (feqb_spec (Z1 * m)%F f0) as [E0|NE]; split; try discriminate; intros _.
    + exfalso. exact (fmul_neq0 _ _ NZ MN E0).
    + apply CH; [exact MN | ring | | rewrite <- K; ring].
      destruct (F_dec X1 u2) as [EX|NX].
      * (* same x: equal points, tangent *)
        assert (EX' : (X2 * (Z1 * Z1) - X1 = 0)%F) by (fold u2; rewrite <- EX; ring).
        assert (EY : (s2 - Y1 = 0)%F).
        { assert (K' : ((Y1 - s2) * m = 0)%F) by (rewrite <- K, EX; ring). apply fmul_eq0 in K'. destruct K' as [K'|K']; [|contradiction].
          transitivity (- (Y1 - s2))%F; [ring | rewrite K'; ring]. }
        assert (AB : A = B) by (apply (proj1 (jpt_same_x_ge _ _ _ _ _ _ _ _ J1 J2 EX')); exact EY). subst B.
        assert (XE : (X2 / (u * u) = X1 / (Z1 * u * (Z1 * u)))%F) by (rewrite EX; unfold u2; field; auto).
        rewrite XE. apply eadd_tangent; [exact H1|].
        assert (M2 : m = (toF 2 * Y1)%F) by (transitivity (toF 2 * Y1 + (s2 - Y1))%F; [unfold m; ring | rewrite EY; ring]).
        assert (R3 : rr = (toF 3 * (X1 * X1))%F) by (unfold rr, t; rewrite <- EX; ring).
        rewrite M2, R3. field. repeat split; auto using f2_neq0. exact (jpt_y _ _ _ _ J1).
      * apply (eadd_slope _ _ _ _ _ _ _ H1 H2).
        -- intros E0. apply NX. unfold u2.
           transitivity ((X1 / (Z1 * u * (Z1 * u))) * (Z1 * Z1 * (u * u)))%F; [field; auto | rewrite E0; field; auto].
        -- transitivity (- ((X1 - u2) * rr) / (m * (Z1 * u * (Z1 * u) * (Z1 * u))))%F; [unfold u2; field; auto|].
           rewrite K. unfold s2. field. auto.
Qed.
