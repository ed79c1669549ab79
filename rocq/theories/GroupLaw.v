(** Associativity of point addition, by ideal classes of the coordinate ring.

    R = F[X,Y]/(Y^2 - X^3 - 7) is modelled as pairs a + bY of polynomials.  To a curve point (x,y) belongs the
    ideal (X - x, Y - y); up to principal factors the ideal of P + Q is the product of the ideals of P and Q,
    and two points with equivalent ideals are equal. *)
From Coq Require Import Ring Field List.
From mathcomp Require Import ssreflect ssrfun ssrbool eqtype ssrnat choice seq ssralg poly polydiv.
From Verif Require Import Word Spec Fp Curve.
Set Implicit Arguments. Unset Strict Implicit. Unset Printing Implicit Defensive.
Import GRing.Theory.
Local Open Scope ring_scope.

(** * F as a mathcomp field *)
Lemma F_eqP : Equality.axiom feqb. Proof. exact: feqb_spec. Qed.
Canonical F_eqType := Eval hnf in EqType F (EqMixin F_eqP).
Lemma F_pcan : pcancel (fun a => Z.to_nat (val a)) (fun k => Some (toF (Z.of_nat k))).
Proof. move=> a /=. rewrite Znat.Z2Nat.id ?toF_val //. by case: (val_range a). Qed.
Canonical F_choiceType := Eval hnf in ChoiceType F (PcanChoiceMixin F_pcan).
Lemma F_addA : associative fadd. Proof. move=> a b c. ring. Qed.
Lemma F_addC : commutative fadd. Proof. move=> a b. ring. Qed.
Lemma F_add0 : left_id f0 fadd. Proof. move=> a. ring. Qed.
Lemma F_addN : left_inverse f0 fopp fadd. Proof. move=> a. ring. Qed.
Canonical F_zmodType := Eval hnf in ZmodType F (ZmodMixin F_addA F_addC F_add0 F_addN).
Lemma F_mulA : associative fmul. Proof. move=> a b c. ring. Qed.
Lemma F_mulC : commutative fmul. Proof. move=> a b. ring. Qed.
Lemma F_mul1 : left_id f1 fmul. Proof. move=> a. ring. Qed.
Lemma F_mulD : left_distributive fmul fadd. Proof. move=> a b c. ring. Qed.
Lemma F_1n0 : f1 != f0. Proof. by apply/eqP; apply: toF_neq0; rewrite p_eq. Qed.
Definition F_ringMixin := ComRingMixin F_mulA F_mulC F_mul1 F_mulD F_1n0.
Canonical F_ringType := Eval hnf in RingType F F_ringMixin.
Canonical F_comRingType := Eval hnf in ComRingType F F_mulC.
Lemma F_mulV (x : F) : x != f0 -> fmul (finv x) x = f1.
Proof. move=> /eqP N. field. exact N. Qed.
Lemma F_inv0 : finv f0 = f0. Proof. exact: toF_0. Qed.
Definition F_unitRingMixin := FieldUnitMixin F_mulV F_inv0.
Canonical F_unitRingType := Eval hnf in UnitRingType F F_unitRingMixin.
Canonical F_comUnitRingType := Eval hnf in [comUnitRingType of F].
Definition F_fieldMixin := @FieldMixin _ finv F_mulV F_inv0.
Canonical F_idomainType := Eval hnf in IdomainType F (FieldIdomainMixin F_fieldMixin).
Canonical F_fieldType := Eval hnf in FieldType F F_fieldMixin.

(** * Polynomials and the coordinate ring *)
Definition P : Type := {poly F}.
Definition pz0 : P := 0.
Definition pz1 : P := 1.
Definition pzadd (a b : P) : P := a + b.
Definition pzmul (a b : P) : P := a * b.
Definition pzsub (a b : P) : P := a - b.
Definition pzopp (a : P) : P := - a.
Definition pzC (c : F) : P := c%:P.
Definition pzX : P := 'X.
Declare Scope P_scope.
Delimit Scope P_scope with P.
Bind Scope P_scope with P.
Notation "0" := pz0 : P_scope.
Notation "1" := pz1 : P_scope.
Infix "+" := pzadd : P_scope.
Infix "*" := pzmul : P_scope.
Infix "-" := pzsub : P_scope.
Notation "- x" := (pzopp x) : P_scope.
Lemma P_ring : ring_theory pz0 pz1 pzadd pzmul pzsub pzopp (@eq P).
Proof.
  constructor; [exact: add0r | exact: addrC | exact: addrA | exact: mul1r | exact: mulrC | exact: mulrA
    | exact: mulrDl | by [] | exact: subrr].
Qed.
Add Ring Pring : P_ring.
Ltac unp := rewrite /pz0 /pz1 /pzadd /pzmul /pzsub /pzopp /pzC /pzX.

Definition cX3 : P := (pzX * pzX * pzX + pzC b7)%P.
Record R := mkR { ra : P; rb : P }.
Definition r0 := mkR pz0 pz0.
Definition r1 := mkR pz1 pz0.
Definition radd u v := mkR (ra u + ra v)%P (rb u + rb v)%P.
Definition rsub u v := mkR (ra u - ra v)%P (rb u - rb v)%P.
Definition ropp u := mkR (- ra u)%P (- rb u)%P.
Definition rmul u v := mkR (ra u * ra v + rb u * rb v * cX3)%P (ra u * rb v + rb u * ra v)%P.
Lemma R_ring : ring_theory r0 r1 radd rmul rsub ropp (@eq R).
Proof.
  constructor; rewrite /radd /rmul /rsub /ropp /r0 /r1 /=; repeat (case => ? ?) => /=; try by []; f_equal; ring.
Qed.
Add Ring Rring : R_ring.

Definition norm (u : R) : P := (ra u * ra u - rb u * rb u * cX3)%P.
Definition conj (u : R) : R := mkR (ra u) (- rb u)%P.
Definition pR (a : P) : R := mkR a pz0.
Definition cR (a : F) : R := pR (pzC a).
Definition rX : R := pR pzX.
Definition rY : R := mkR pz0 pz1.
Lemma norm_mul u v : norm (rmul u v) = (norm u * norm v)%P.
Proof. rewrite /norm /rmul /=. ring. Qed.
Lemma conj_mul u : rmul (conj u) u = pR (norm u).
Proof. rewrite /norm /rmul /conj /pR /=. f_equal; ring. Qed.
Lemma rY2 : rmul rY rY = pR cX3.
Proof. rewrite /rmul /rY /pR /=. f_equal; ring. Qed.

Lemma size_cX3 : size (cX3 : {poly F}) = 4%nat.
Proof.
  rewrite /cX3; unp; rewrite size_addl.
  - by rewrite -expr2 -exprSr size_polyXn.
  - rewrite -expr2 -exprSr size_polyXn. apply: leq_ltn_trans (size_polyC_leq1 _) _. by [].
Qed.
Lemma cX3_neq0 : (cX3 : {poly F}) != 0. Proof. by rewrite -size_poly_eq0 size_cX3. Qed.
Lemma size_sq (a : {poly F}) : a != 0 -> size (a * a) = (size a).*2.-1.
Proof. move=> N. by rewrite size_mul // addnn. Qed.
Lemma size_sqX (b : {poly F}) : b != 0 -> size (b * b * (cX3 : {poly F})) = (size b).*2.+2.
Proof.
  move=> N. rewrite size_mul ?cX3_neq0 ?mulf_neq0 // size_sq // size_cX3.
  move: N. rewrite -size_poly_gt0. case: (size b) => // k _. by rewrite doubleS addnC.
Qed.
(** the norm has the degree of one of its two terms: their degrees differ in parity *)
Definition size_if (a : {poly F}) : nat := if a == 0 then 0%nat else (size a).*2.-1.
Lemma size_norm_gen (a b : {poly F}) : size (a * a - b * b * (cX3 : {poly F})) =
  if b == 0 then size_if a else maxn (size_if a) (size b).*2.+2.
Proof.
  rewrite /size_if. case: eqP => [->|/eqP Nb].
  - rewrite !mul0r subr0. case: eqP => [->|/eqP Na]; [by rewrite mul0r size_poly0 | exact: size_sq].
  - case: eqP => [->|/eqP Na].
    + by rewrite mul0r sub0r size_opp size_sqX // max0n.
    + have Sa := size_sq Na. have Sb := size_sqX Nb.
      move: Na Nb. rewrite -!size_poly_gt0 => Ga Gb.
      case: (ltngtP (size (a * a)) (size (b * b * (cX3 : {poly F})))) => L.
      * rewrite -opprB size_opp size_addl ?size_opp // Sb. by rewrite /maxn -Sa -Sb L.
      * rewrite size_addl ?size_opp // Sa. by rewrite /maxn -Sa -Sb ltnNge (ltnW L).
      * exfalso. move: L. rewrite Sa Sb. case: (size a) Ga => // k _. rewrite doubleS /= => E.
        have := congr1 odd E. by rewrite /= !odd_double.
Qed.
Lemma size_norm u : size (norm u : {poly F}) =
  if (rb u : {poly F}) == 0 then size_if (ra u) else maxn (size_if (ra u)) (size (rb u : {poly F})).*2.+2.
Proof. exact: size_norm_gen. Qed.
Lemma size_if_0 a : size_if a = 0%nat -> a = 0.
Proof. rewrite /size_if. case: eqP => // /eqP Na. move: Na. rewrite -size_poly_gt0. case: (size a) => // k _. Qed.
Lemma norm_eq0 u : norm u = pz0 -> u = r0.
Proof.
  move=> E. have S := size_norm u. rewrite E /pz0 size_poly0 in S. case: u S E => a b /= S _. move: S.
  case: eqP => [->|/eqP Nb].
  - by move/esym/size_if_0 ->.
  - move/esym/eqP. rewrite -leqn0 geq_max ltn0. by rewrite andbF.
Qed.
Lemma pR_mul a u : rmul (pR a) u = mkR (a * ra u)%P (a * rb u)%P.
Proof. rewrite /rmul /pR /=. f_equal; ring. Qed.
Lemma pzmul_eq0 (a b : P) : (a * b)%P = pz0 -> a <> pz0 -> b = pz0.
Proof. unp => /eqP. rewrite mulf_eq0 => /orP [/eqP ->|/eqP ->] //. Qed.
Lemma rmul_eq0 u v : rmul u v = r0 -> u <> r0 -> v = r0.
Proof.
  move=> E Nu. have: rmul (pR (norm u)) v = r0.
  { rewrite -conj_mul. transitivity (rmul (conj u) (rmul u v)); [ring | rewrite E; ring]. }
  have Nn : norm u <> pz0 by move/norm_eq0.
  rewrite pR_mul. case: v E => a b _ /= [] Ea Eb.
  by rewrite (pzmul_eq0 Ea Nn) (pzmul_eq0 Eb Nn).
Qed.
Lemma rmul_neq0 u v : u <> r0 -> v <> r0 -> rmul u v <> r0.
Proof. move=> Nu Nv E. exact/Nv/(rmul_eq0 E). Qed.
Lemma rmul_cancel u v w : u <> r0 -> rmul u v = rmul u w -> v = w.
Proof.
  move=> Nu E. have Z : rsub v w = r0. { apply: (@rmul_eq0 u) => //. transitivity (rsub (rmul u v) (rmul u w)); [ring | rewrite E; ring]. }
  transitivity (radd (rsub v w) w); [ring | rewrite Z; ring].
Qed.

(** * Finitely generated ideals *)
Inductive span (l : list R) : R -> Prop :=
| span_0 : span l r0
| span_S r g x : In g l -> span l x -> span l (radd (rmul r g) x).
Lemma span_gen l g : In g l -> span l g.
Proof. move=> H. have -> : g = radd (rmul r1 g) r0 by ring. by apply: span_S => //; constructor. Qed.
Lemma span_add l x y : span l x -> span l y -> span l (radd x y).
Proof.
  move=> Hx Hy. elim: Hx => [|r g z Hg _ IH]; [by have -> : radd r0 y = y by ring|].
  have -> : radd (radd (rmul r g) z) y = radd (rmul r g) (radd z y) by ring. exact: span_S.
Qed.
Lemma span_mul l a x : span l x -> span l (rmul a x).
Proof.
  elim=> [|r g z Hg _ IH]; [(have -> : rmul a r0 = r0 by ring); constructor|].
  have -> : rmul a (radd (rmul r g) z) = radd (rmul (rmul a r) g) (rmul a z) by ring. exact: span_S.
Qed.
Lemma span_sub l m x : (forall g, In g l -> span m g) -> span l x -> span m x.
Proof. move=> H. elim=> [|r g z Hg _ IH]; [constructor | apply: span_add => //; apply: span_mul; exact: H]. Qed.
Definition ieq l m := (forall g, In g l -> span m g) /\ (forall g, In g m -> span l g).
Lemma ieq_refl l : ieq l l. Proof. split; exact: span_gen. Qed.
Lemma ieq_sym l m : ieq l m -> ieq m l. Proof. by case. Qed.
Lemma ieq_trans l m k : ieq l m -> ieq m k -> ieq l k.
Proof. case=> A B [C D]. split=> g Hg; [apply: (span_sub C); exact: A | apply: (span_sub B); exact: D]. Qed.
Definition scale a l := List.map (rmul a) l.
Definition imul (l m : list R) : list R := List.flat_map (fun a => List.map (rmul a) m) l.
Lemma in_imul l m g : In g (imul l m) <-> exists a b, In a l /\ In b m /\ g = rmul a b.
Proof.
  rewrite /imul in_flat_map. split.
  - case=> a [Ha /in_map_iff [b [<- Hb]]]. by exists a, b.
  - case=> a [b [Ha [Hb ->]]]. exists a. split=> //. apply/in_map_iff. by exists b.
Qed.
Lemma in_scale a l g : In g (scale a l) <-> exists b, In b l /\ g = rmul a b.
Proof. rewrite /scale in_map_iff. by split; case=> b [A B]; exists b. Qed.
Lemma span_scale a l x : span l x -> span (scale a l) (rmul a x).
Proof.
  elim=> [|r g z Hg _ IH]; [(have -> : rmul a r0 = r0 by ring); constructor|].
  have -> : rmul a (radd (rmul r g) z) = radd (rmul r (rmul a g)) (rmul a z) by ring.
  apply: span_S => //. apply/in_scale. by exists g.
Qed.
Lemma span_unscale a l x : span (scale a l) x -> exists y, span l y /\ x = rmul a y.
Proof.
  elim=> [|r g z /in_scale [b [Hb ->]] _ [y [Hy ->]]]; [exists r0; split; [constructor | ring]|].
  exists (radd (rmul r b) y). split; [exact: span_S | ring].
Qed.
Lemma scale_ieq a l m : ieq l m -> ieq (scale a l) (scale a m).
Proof. case=> A B. split=> g /in_scale [b [Hb ->]]; apply: span_scale; [exact: A | exact: B]. Qed.
Lemma scale_scale a b l : ieq (scale a (scale b l)) (scale (rmul a b) l).
Proof.
  split=> g /in_scale [c [Hc ->]].
  - move: Hc => /in_scale [d [Hd ->]]. apply: span_gen. apply/in_scale. exists d. split=> //. ring.
  - apply: span_gen. apply/in_scale. exists (rmul b c). split; [apply/in_scale; by exists c | ring].
Qed.
Lemma span_prod l m x y : span l x -> span m y -> span (imul l m) (rmul x y).
Proof.
  move=> Hx Hy. elim: Hx => [|r g z Hg _ IH]; [(have -> : rmul r0 y = r0 by ring); constructor|].
  have -> : rmul (radd (rmul r g) z) y = radd (rmul r (rmul g y)) (rmul z y) by ring.
  apply: span_add => //. apply: span_mul. elim: Hy => [|s h w Hh _ IH2]; [(have -> : rmul g r0 = r0 by ring); constructor|].
  have -> : rmul g (radd (rmul s h) w) = radd (rmul s (rmul g h)) (rmul g w) by ring.
  apply: span_add => //. apply: span_mul. apply: span_gen. apply/in_imul. by exists g, h.
Qed.
Lemma imul_ieq l l' m m' : ieq l l' -> ieq m m' -> ieq (imul l m) (imul l' m').
Proof. case=> A B [C D]. split=> g /in_imul [a [b [Ha [Hb ->]]]]; apply: span_prod; auto. Qed.
Lemma imul_comm l m : ieq (imul l m) (imul m l).
Proof.
  split=> g /in_imul [a [b [Ha [Hb ->]]]]; apply: span_gen; apply/in_imul; exists b, a; repeat split=> //; ring.
Qed.
Lemma imul_assoc l m k : ieq (imul l (imul m k)) (imul (imul l m) k).
Proof.
  split=> g /in_imul [a [b [Ha [Hb ->]]]]; apply: span_gen; apply/in_imul.
  - move: Hb => /in_imul [c [d [Hc [Hd ->]]]]. exists (rmul a c), d. split; [apply/in_imul; by exists a, c | split=> //; ring].
  - move: Ha => /in_imul [c [d [Hc [Hd ->]]]]. exists c, (rmul d b). split=> //. split; [apply/in_imul; by exists d, b | ring].
Qed.
Lemma scale_imul a l m : ieq (scale a (imul l m)) (imul (scale a l) m).
Proof.
  split=> g.
  - move=> /in_scale [b [/in_imul [c [d [Hc [Hd ->]]]] ->]]. apply: span_gen. apply/in_imul. exists (rmul a c), d.
    split; [apply/in_scale; by exists c | split=> //; ring].
  - move=> /in_imul [b [c [/in_scale [d [Hd ->]] [Hc ->]]]]. apply: span_gen. apply/in_scale. exists (rmul d c).
    split; [apply/in_imul; by exists d, c | ring].
Qed.
Lemma imul_1 l : ieq (imul [:: r1] l) l.
Proof.
  split=> g.
  - move=> /in_imul [a [b [[<-|//] [Hb ->]]]]. have -> : rmul r1 b = b by ring. exact: span_gen.
  - move=> Hg. apply: span_gen. apply/in_imul. exists r1, g. split; [by left | split=> //; ring].
Qed.

(** * Ideal classes *)
Definition sim l m := exists a b, a <> r0 /\ b <> r0 /\ ieq (scale a l) (scale b m).
Lemma r1_neq0 : r1 <> r0. Proof. case=> /eqP. by rewrite oner_eq0. Qed.
Lemma sim_ieq l m : ieq l m -> sim l m.
Proof. move=> H. exists r1, r1. split; [exact: r1_neq0 | split; [exact: r1_neq0 | exact: scale_ieq]]. Qed.
Lemma sim_refl l : sim l l. Proof. exact/sim_ieq/ieq_refl. Qed.
Lemma sim_sym l m : sim l m -> sim m l.
Proof. case=> a [b [Na [Nb H]]]. exists b, a. split=> //. split=> //. exact: ieq_sym. Qed.
Lemma sim_trans l m k : sim l m -> sim m k -> sim l k.
Proof.
  case=> a [b [Na [Nb H]]] [c [d [Nc [Nd K]]]]. exists (rmul c a), (rmul b d).
  split; [exact: rmul_neq0|]. split; [exact: rmul_neq0|].
  apply: ieq_trans (ieq_sym (scale_scale _ _ _)) _. apply: ieq_trans (scale_ieq c H) _.
  apply: ieq_trans (scale_scale _ _ _) _. have -> : rmul c b = rmul b c by ring.
  apply: ieq_trans (ieq_sym (scale_scale _ _ _)) _. apply: ieq_trans (scale_ieq b K) _. exact: scale_scale.
Qed.
Lemma sim_mul_l l m k : sim l m -> sim (imul l k) (imul m k).
Proof.
  case=> a [b [Na [Nb H]]]. exists a, b. split=> //. split=> //.
  apply: ieq_trans (scale_imul _ _ _) _. apply: ieq_trans (imul_ieq H (ieq_refl k)) _. exact/ieq_sym/scale_imul.
Qed.
Lemma sim_mul_r l m k : sim l m -> sim (imul k l) (imul k m).
Proof.
  move=> H. apply: sim_trans (sim_ieq (imul_comm _ _)) _. apply: sim_trans (sim_mul_l k H) _. exact/sim_ieq/imul_comm.
Qed.

(** * The ideal of a point *)
Definition idl (A : fpoint) : list R :=
  match A with FInf => [:: r1] | FAff x y => [:: rsub rX (cR x); rsub rY (cR y)] end.

Lemma cR_add a b : cR (fadd a b) = radd (cR a) (cR b).
Proof. rewrite /cR /pR /radd /=. f_equal; [exact: polyCD | ring]. Qed.
Lemma cR_mul a b : cR (fmul a b) = rmul (cR a) (cR b).
Proof. rewrite /cR /pR /rmul /=. f_equal; [|ring]. transitivity (pzC a * pzC b)%P; [exact: polyCM | ring]. Qed.
Lemma cR_opp a : cR (fopp a) = ropp (cR a).
Proof. rewrite /cR /pR /ropp /=. f_equal; [exact: polyCN | ring]. Qed.
Lemma cR_0 : cR f0 = r0. Proof. exact: (f_equal pR (polyC0 _)). Qed.
Lemma cR_1 : cR f1 = r1. Proof. exact: (f_equal pR (polyC1 _)). Qed.
Lemma cR_sub a b : cR (fsub a b) = rsub (cR a) (cR b).
Proof. have -> : fsub a b = fadd a (fopp b) by ring. rewrite cR_add cR_opp. ring. Qed.
Lemma cR_2 : cR (toF 2) = radd r1 r1.
Proof. have -> : toF 2 = fadd f1 f1 by ring. by rewrite cR_add cR_1. Qed.
Lemma cR_inv c : c <> f0 -> rmul (cR (finv c)) (cR c) = r1.
Proof. move=> N. rewrite -cR_mul -cR_1. f_equal. field. exact N. Qed.
Lemma span_unit l c x : c <> f0 -> span l (rmul (cR c) x) -> span l x.
Proof.
  move=> N H. have -> : x = rmul (cR (finv c)) (rmul (cR c) x).
  { transitivity (rmul (rmul (cR (finv c)) (cR c)) x); [rewrite cR_inv //; ring | ring]. }
  exact: span_mul.
Qed.
Lemma rYY : rmul rY rY = radd (rmul (rmul rX rX) rX) (cR b7).
Proof. rewrite rY2 /rX /cR /pR /rmul /radd /cX3 /=. f_equal; ring. Qed.
Lemma rXc_neq0 x : rsub rX (cR x) <> r0.
Proof. case=> E _. move: E. unp. move/eqP. by rewrite -size_poly_eq0 size_XsubC. Qed.
Lemma rYL_neq0 (a : P) : rsub rY (pR a) <> r0.
Proof. case=> _ /eqP. unp. by rewrite subr0 oner_eq0. Qed.

Ltac lin := rewrite ?(cR_add, cR_mul, cR_sub, cR_opp, cR_2, cR_0, cR_1).
Ltac inl := by rewrite /=; tauto.

(** the chord through (x1,y1) with slope [l], as an element of R *)
Section Chord.
Variables (x1 y1 x2 y2 l : F).
Hypothesis E1 : fmul y1 y1 = fadd (fmul (fmul x1 x1) x1) b7.
Hypothesis L : fmul l (fsub x2 x1) = fsub y2 y1.
Hypothesis T : fadd (fmul (fmul (toF 2) y1) l) (fmul (fmul l l) (fsub x2 x1)) =
  fadd (fadd (fmul x2 x2) (fmul x1 x2)) (fmul x1 x1).
Hypothesis D : x1 <> x2 \/ (x1 = x2 /\ y1 = y2 /\ y1 <> f0).
Let x3 := fsub (fsub (fmul l l) x1) x2.
Let X1 := rsub rX (cR x1).
Let X2 := rsub rX (cR x2).
Let X3 := rsub rX (cR x3).
Let Ln := radd (rmul (cR l) X1) (cR y1).
Let YL := rsub rY Ln.
Let mid := [:: YL; rmul X1 X2].

Lemma T_R : radd (rmul (rmul (radd r1 r1) (cR y1)) (cR l)) (rmul (rmul (cR l) (cR l)) (rsub (cR x2) (cR x1))) =
  radd (radd (rmul (cR x2) (cR x2)) (rmul (cR x1) (cR x2))) (rmul (cR x1) (cR x1)).
Proof. have := f_equal cR T. by lin. Qed.
Lemma b7_R : cR b7 = rsub (rmul (cR y1) (cR y1)) (rmul (rmul (cR x1) (cR x1)) (cR x1)).
Proof. have := f_equal cR E1. lin => ->. ring. Qed.
Lemma Y2_R : rY = radd YL (radd (rmul (cR l) X2) (cR y2)).
Proof.
  have H := f_equal cR L. move: H. lin => H.
  have -> : cR y2 = radd (rsub (cR y2) (cR y1)) (cR y1) by ring. rewrite -H /YL /Ln /X1 /X2. ring.
Qed.
Lemma cubic_R : rmul YL (radd rY Ln) = rmul X3 (rmul X1 X2).
Proof.
  have -> : rmul YL (radd rY Ln) = rsub (rmul rY rY) (rmul Ln Ln) by rewrite /YL; ring.
  rewrite rYY b7_R.
  have Z : rsub (radd (rmul (rmul (radd r1 r1) (cR y1)) (cR l)) (rmul (rmul (cR l) (cR l)) (rsub (cR x2) (cR x1))))
    (radd (radd (rmul (cR x2) (cR x2)) (rmul (cR x1) (cR x2))) (rmul (cR x1) (cR x1))) = r0 by rewrite T_R; ring.
  rewrite /X3 /x3. lin.
  transitivity (rsub (rmul (rsub rX (rsub (rsub (rmul (cR l) (cR l)) (cR x1)) (cR x2))) (rmul X1 X2)) (rmul X1 r0)); [rewrite -Z /Ln /X1 /X2; ring | ring].
Qed.
Lemma chord_prod : ieq (imul (idl (FAff x1 y1)) (idl (FAff x2 y2))) mid.
Proof.
  have S1 : span mid YL by apply: span_gen; left.
  have S2 : span mid (rmul X1 X2) by apply: span_gen; right; left.
  have Y1 : rsub rY (cR y1) = radd YL (rmul (cR l) X1) by rewrite /YL /Ln; ring.
  have Y2 : rsub rY (cR y2) = radd YL (rmul (cR l) X2) by rewrite {1}Y2_R; ring.
  split=> g.
  - rewrite /imul /= -/X1 -/X2 Y1 Y2 => H. repeat (case: H => [<-|H]).
    + exact: S2.
    + have -> : rmul X1 (radd YL (rmul (cR l) X2)) = radd (rmul X1 YL) (rmul (cR l) (rmul X1 X2)) by ring.
      by apply: span_add; apply: span_mul.
    + have -> : rmul (radd YL (rmul (cR l) X1)) X2 = radd (rmul X2 YL) (rmul (cR l) (rmul X1 X2)) by ring.
      by apply: span_add; apply: span_mul.
    + have -> : rmul (radd YL (rmul (cR l) X1)) (radd YL (rmul (cR l) X2)) =
        radd (rmul (radd YL (radd (rmul (cR l) X2) (rmul (cR l) X1))) YL) (rmul (rmul (cR l) (cR l)) (rmul X1 X2)) by ring.
      by apply: span_add; apply: span_mul.
  - set m := imul _ _.
    have G1 : span m (rmul X1 X2) by apply: span_gen; rewrite /m /imul /=; left.
    have G2 : span m (rmul X1 (rsub rY (cR y2))) by apply: span_gen; rewrite /m /imul /=; right; left.
    have G3 : span m (rmul (rsub rY (cR y1)) X2) by apply: span_gen; rewrite /m /imul /=; right; right; left.
    have G4 : span m (rmul (rsub rY (cR y1)) (rsub rY (cR y2))) by apply: span_gen; rewrite /m /imul /=; right; right; right; left.
    case=> [<-|[<-|//]]; last exact: G1.
    case: D => [NE|[EX [EY N]]].
    + apply: (@span_unit m (fsub x2 x1)); first by move/fsub_eq0 => ?; apply: NE.
      have -> : rmul (cR (fsub x2 x1)) YL = radd (rmul X1 (rsub rY (cR y2))) (rmul (ropp r1) (rmul (rsub rY (cR y1)) X2)).
      { rewrite Y1 Y2 cR_sub /X1 /X2. ring. }
      by apply: span_add => //; apply: span_mul.
    + apply: (@span_unit m (fmul (toF 2) y1)); first exact: (fmul_neq0 _ _ f2_neq0 N).
      have X21 : X2 = X1 by rewrite /X2 -EX.
      have C := cubic_R. rewrite X21 in C G1. rewrite -EY in G4.
      have -> : rmul (cR (fmul (toF 2) y1)) YL =
        radd (rmul (ropp r1) (rmul (rsub rY (cR y1)) (rsub rY (cR y1)))) (rmul (radd (rmul (cR l) (cR l)) X3) (rmul X1 X1)).
      { have C' : rmul rY rY = radd (rmul Ln Ln) (rmul X3 (rmul X1 X1)).
        { rewrite -C /YL. ring. }
        have -> : rmul (rsub rY (cR y1)) (rsub rY (cR y1)) = radd (rsub (rmul rY rY) (rmul (radd r1 r1) (rmul (cR y1) rY))) (rmul (cR y1) (cR y1)) by ring.
        rewrite C'. lin. rewrite /YL /Ln. ring. }
      by apply: span_add; apply: span_mul.
Qed.
Lemma chord_idl : ieq (scale YL (idl (fchord l x1 y1 x2))) (scale X3 mid).
Proof.
  pose y3 := fsub (fmul l (fsub x1 x3)) y1. change (fchord l x1 y1 x2) with (FAff x3 y3).
  have C := cubic_R.
  have Y3 : rsub rY (cR y3) = radd (radd rY Ln) (rmul (ropp (cR l)) X3) by rewrite /y3 /Ln /X1 /X3 /x3; lin; ring.
  rewrite /scale /= Y3 -/X3. split=> g H; repeat (case: H => [<-|H]).
  - have -> : rmul YL X3 = rmul X3 YL by ring. by apply: span_gen; left.
  - have -> : rmul YL (radd (radd rY Ln) (rmul (ropp (cR l)) X3)) =
      radd (rmul r1 (rmul X3 (rmul X1 X2))) (rmul (ropp (cR l)) (rmul X3 YL)) by rewrite -C; ring.
    by apply: span_add; apply: span_mul; apply: span_gen; [right; left | left].
  - have -> : rmul X3 YL = rmul YL X3 by ring. by apply: span_gen; left.
  - rewrite -C.
    have -> : rmul YL (radd rY Ln) = radd (rmul r1 (rmul YL (radd (radd rY Ln) (rmul (ropp (cR l)) X3)))) (rmul (cR l) (rmul YL X3)) by ring.
    by apply: span_add; apply: span_mul; apply: span_gen; [right; left | left].
Qed.
Lemma chord_sim : sim (imul (idl (FAff x1 y1)) (idl (FAff x2 y2))) (idl (fchord l x1 y1 x2)).
Proof.
  apply: sim_trans (sim_ieq chord_prod) _. exists X3, YL. split; [exact: rXc_neq0|]. split; last exact/ieq_sym/chord_idl.
  rewrite /YL. have -> : Ln = pR (pzC l * (pzX - pzC x1) + pzC y1)%P.
  { rewrite /Ln /X1 /cR /rX /pR /radd /rmul /rsub /=. f_equal; ring. }
  exact: rYL_neq0.
Qed.
End Chord.

(** opposite points *)
Lemma opp_prod x y : onc (FAff x y) -> ieq (imul (idl (FAff x y)) (idl (FAff x (fopp y)))) (scale (rsub rX (cR x)) [:: r1]).
Proof.
  move/onc_eq=> E1. have EB := f_equal cR E1. move: EB. lin => EB.
  have EB' : cR b7 = rsub (rmul (cR y) (cR y)) (rmul (rmul (cR x) (cR x)) (cR x)) by rewrite EB; ring.
  set X := rsub rX (cR x). set Q := radd (radd (rmul rX rX) (rmul (cR x) rX)) (rmul (cR x) (cR x)).
  have N4 : rmul (rsub rY (cR y)) (rsub rY (cR (fopp y))) = rmul X Q.
  { lin. transitivity (rsub (rmul rY rY) (rmul (cR y) (cR y))); [ring|]. rewrite rYY EB' /X /Q. ring. }
  have S : span (scale X [:: r1]) X by apply: span_gen; left; ring.
  split=> g.
  - rewrite /imul /= -/X N4 => H. repeat (case: H => [<-|H]); try exact: span_mul.
    + have -> : rmul X (rsub rY (cR (fopp y))) = rmul (rsub rY (cR (fopp y))) X by ring. exact: span_mul.
    + have -> : rmul X Q = rmul Q X by ring. exact: span_mul.
  - set m := imul _ _.
    have G1 : span m (rmul X X) by apply: span_gen; rewrite /m /imul /=; left.
    have G2 : span m (rmul X (rsub rY (cR (fopp y)))) by apply: span_gen; rewrite /m /imul /=; right; left.
    have G3 : span m (rmul (rsub rY (cR y)) X) by apply: span_gen; rewrite /m /imul /=; right; right; left.
    have G4 : span m (rmul X Q) by rewrite -N4; apply: span_gen; rewrite /m /imul /=; right; right; right; left.
    case=> // <-. have -> : rmul X r1 = X by ring.
    case: (F_dec y f0) => [Y0|N].
    + have NX : fmul (toF 3) (fmul x x) <> f0.
      { apply: fmul_neq0; first exact: f3_neq0. move=> Z. move: E1. rewrite Y0. have -> : fmul (fmul x x) x = f0 by rewrite Z; ring.
        move=> B. have : b7 = f0 by rewrite -[b7]/(b7); transitivity (fadd f0 b7); [ring | rewrite -B; ring].
        apply: toF_neq0. by rewrite p_eq. }
      apply: (span_unit NX).
      have -> : rmul (cR (fmul (toF 3) (fmul x x))) X = radd (rmul r1 (rmul X Q)) (rmul (ropp (radd rX (radd (cR x) (cR x)))) (rmul X X)).
      { have -> : toF 3 = fadd f1 (fadd f1 f1) by ring. lin. rewrite /X /Q. ring. }
      by apply: span_add; apply: span_mul.
    + apply: (@span_unit m (fmul (toF 2) y)); first exact: (fmul_neq0 _ _ f2_neq0 N).
      have -> : rmul (cR (fmul (toF 2) y)) X = radd (rmul r1 (rmul X (rsub rY (cR (fopp y))))) (rmul (ropp r1) (rmul (rsub rY (cR y)) X)) by lin; ring.
      by apply: span_add; apply: span_mul.
Qed.

Theorem idl_add A B : onc A -> onc B -> sim (imul (idl A) (idl B)) (idl (ptadd A B)).
Proof.
  case: A => [|x1 y1] OA.
  - move=> _. exact/sim_ieq/imul_1.
  - case: B => [|x2 y2] OB.
    + rewrite ptadd_inf_r. apply: sim_trans (sim_ieq (imul_comm _ _)) _. exact/sim_ieq/imul_1.
    + case: (ptadd_cases _ _ _ _ OA OB) => [[EX [-> ->]]|[l [-> [L [T D]]]]].
      * rewrite -EX. rewrite -EX in OB. apply: sim_trans (sim_ieq (opp_prod OA)) _.
        exists r1, (rsub rX (cR x1)). split; [exact: r1_neq0|]. split; [exact: rXc_neq0|].
        apply: ieq_trans (scale_scale _ _ _) _. have -> : rmul r1 (rsub rX (cR x1)) = rsub rX (cR x1) by ring. exact: ieq_refl.
      * apply: chord_sim => //. exact/onc_eq.
Qed.

(** * Points with equivalent ideals are equal *)
Definition ev (x y : F) (u : R) : F := (ra u : {poly F}).[x] + (rb u : {poly F}).[x] * y.
Lemma ev_mul x y u v : onc (FAff x y) -> ev x y (rmul u v) = fmul (ev x y u) (ev x y v).
Proof.
  move/onc_eq=> E. rewrite /ev /rmul /=. unp. rewrite /cX3; unp. rewrite !hornerE /=.
  set a := (ra u : {poly F}).[x]. set b := (rb u : {poly F}).[x]. set c := (ra v : {poly F}).[x]. set d := (rb v : {poly F}).[x].
  change (fadd (fadd (fmul a c) (fmul (fmul b d) (fadd (fmul (fmul x x) x) b7))) (fmul (fadd (fmul a d) (fmul b c)) y) = fmul (fadd a (fmul b y)) (fadd c (fmul d y))).
  rewrite -E. ring.
Qed.
Lemma ev_add x y u v : ev x y (radd u v) = fadd (ev x y u) (ev x y v).
Proof.
  rewrite /ev /radd /=. unp. rewrite !hornerE /=.
  set a := (ra u : {poly F}).[x]. set b := (rb u : {poly F}).[x]. set c := (ra v : {poly F}).[x]. set d := (rb v : {poly F}).[x].
  change (fadd (fadd a c) (fmul (fadd b d) y) = fadd (fadd a (fmul b y)) (fadd c (fmul d y))). ring.
Qed.
Lemma ev_1 x y : ev x y r1 = f1.
Proof. rewrite /ev /r1 /=. unp. rewrite !hornerE /=. change (fadd f1 (fmul f0 y) = f1). ring. Qed.
Lemma ev_span x y u : onc (FAff x y) -> span (idl (FAff x y)) u -> ev x y u = f0.
Proof.
  move=> O. elim=> [|r g z Hg _ IH].
  - rewrite /ev /r0 /=. unp. rewrite !hornerE /=. change (fadd f0 (fmul f0 y) = f0). ring.
  - rewrite ev_add IH ev_mul //. have -> : ev x y g = f0; last by ring.
    case: Hg => [<-|[<-|//]].
    + rewrite /ev /=; unp; rewrite !hornerE /=. by rewrite ?(subrr, mul0r, addr0).
    + rewrite /ev /=; unp; rewrite !hornerE /=. change (fadd (fopp y) (fmul f1 y) = f0). ring.
Qed.

Lemma size1 (a : {poly F}) : size a = 1%nat -> exists c, c <> f0 /\ a = pzC c.
Proof. move/eqP/size_poly1P=> [c Nc ->]. exists c. split=> //. exact/eqP. Qed.

Lemma size_norm_lt u : (size (norm u : {poly F}) <= 3)%nat -> rb u = pz0 /\ (size (ra u : {poly F}) <= 2)%nat.
Proof.
  rewrite size_norm. case: eqP => [->|/eqP Nb].
  - rewrite /size_if. case: eqP => [->|/eqP _]; first by rewrite size_poly0.
    move=> H. split=> //. move: H. case: (size _) => // k. rewrite doubleS /=. by case: k => // k; case: k.
  - rewrite geq_max => /andP [_]. move: Nb. rewrite -size_poly_gt0. by case: (size _).
Qed.

(** the ideal of an affine point is not principal *)
Lemma idl_nonprincipal x y : onc (FAff x y) -> ~ sim (idl (FAff x y)) (idl FInf).
Proof.
  move=> O [a [b [Na [Nb [H1 H2]]]]].
  (* b = a c with c in the ideal, which is then generated by c *)
  have Sb : span (scale a (idl (FAff x y))) b by apply: H2; left; ring.
  case: (span_unscale Sb) => c [Sc Eb].
  have gen : forall g, In g (idl (FAff x y)) -> exists e, g = rmul c e.
  { move=> g Hg. have : span (scale b (idl FInf)) (rmul a g) by apply: H1; apply/in_scale; exists g.
    case/span_unscale=> e [_ Ee]. exists e. apply: (rmul_cancel Na). rewrite Ee Eb. ring. }
  case: (gen (rsub rX (cR x))) => [|e Ee]; first by left.
  case: (gen (rsub rY (cR y))) => [|d Ed]; first by right; left.
  (* the norm of c divides (X - x)^2 *)
  have NX : norm (rsub rX (cR x)) = ((pzX - pzC x) * (pzX - pzC x))%P by rewrite /norm /=; ring.
  have SX : size (norm (rsub rX (cR x)) : {poly F}) = 3%nat.
  { rewrite NX. unp. by rewrite size_sq ?size_XsubC // polyXsubC_eq0. }
  have NZ : (norm (rsub rX (cR x)) : {poly F}) != 0 by rewrite -size_poly_eq0 SX.
  have M := norm_mul c e. rewrite -Ee in M.
  have Nc : (norm c : {poly F}) != 0.
  { apply/eqP=> Z. move: NZ. rewrite M. unp. by rewrite Z mul0r eqxx. }
  have Le : (size (norm c : {poly F}) <= 3)%nat.
  { rewrite -SX M. apply: dvdp_leq; first by rewrite -M. exact: dvdp_mulr. }
  case: (size_norm_lt Le) => B0 SA.
  have Ec : c = pR (ra c) by case: (c) B0 => ca cb /= ->.
  move: SA. rewrite leq_eqVlt => /orP [/eqP S2|].
  - (* degree one: then c would divide the coefficient 1 of Y *)
    have: (ra c * rb d)%P = pz1. { move: Ed. rewrite Ec pR_mul => /(f_equal rb) /= <-. ring. }
    unp => E. have := congr1 (fun q : {poly F} => size q) E. rewrite size_poly1.
    case: (eqVneq (rb d : {poly F}) 0) => [Z|Nd]; first by rewrite Z mulr0 size_poly0.
    rewrite size_mul // ?S2; last by rewrite -size_poly_eq0 S2.
    move: Nd. rewrite -size_poly_gt0. by case: (size _).
  - (* degree zero: c is a unit, yet it vanishes at the point *)
    rewrite ltnS => S1. have S1' : size (ra c : {poly F}) = 1%nat.
    { apply/eqP. rewrite eqn_leq S1 /=. rewrite size_poly_gt0. apply/eqP=> Z. move: Nc. rewrite Ec /norm /= Z. unp.
      by rewrite mul0r !mul0r subrr eqxx. }
    case: (size1 S1') => k [Nk Ek].
    have := ev_span O Sc. rewrite Ec Ek /ev /=. unp. rewrite !hornerE /= => Z. apply: Nk. transitivity (fadd k (fmul f0 y)); [ring | exact: Z].
Qed.

Theorem sim_eq A B : onc A -> onc B -> sim (idl A) (idl B) -> A = B.
Proof.
  move=> OA OB S.
  have ON := fneg_on B OB.
  have S1 : sim (idl (ptadd A (fneg B))) (idl (ptadd B (fneg B))).
  { apply: sim_trans (sim_sym (idl_add OA ON)) _. apply: sim_trans (sim_mul_l _ S) _. exact: idl_add. }
  rewrite ptadd_neg in S1.
  have OS := ptadd_on _ _ OA ON.
  have Z : ptadd A (fneg B) = FInf.
  { case E : (ptadd A (fneg B)) => [//|x y]. rewrite E in S1 OS. by case: (idl_nonprincipal OS S1). }
  move: Z OA ON. case: A S S1 OS => [|x1 y1] _ _ _; case: B OB => [|x2 y2] OB //=.
  feq x1 x2 => //. subst x2. feq (fadd y1 (fopp y2)) f0 => // _ _ _. f_equal. transitivity (fadd (fadd y1 (fopp y2)) y2); [ring | rewrite e; ring].
Qed.

Theorem ptadd_assoc A B C : onc A -> onc B -> onc C -> ptadd A (ptadd B C) = ptadd (ptadd A B) C.
Proof.
  move=> OA OB OC. have OAB := ptadd_on _ _ OA OB. have OBC := ptadd_on _ _ OB OC.
  apply: sim_eq; try exact: ptadd_on.
  apply: sim_trans (sim_sym (idl_add OA OBC)) _. apply: sim_trans (sim_mul_r _ (sim_sym (idl_add OB OC))) _.
  apply: sim_trans (sim_ieq (imul_assoc _ _ _)) _. apply: sim_trans (sim_mul_l _ (idl_add OA OB)) _. exact: idl_add.
Qed.
Print Assumptions ptadd_assoc.
