(** Straight-line programs of group operations. *)
From Coq Require Import Znumtheory Field.
From Verif Require Import Word MField MScalar MGroup MEcmult MEcdsa MDer MApi MOps MPointOps Mono WP FieldMul FieldNorm Spec Fp Bits FieldOps FieldCodec FieldStore ScalarMul ScalarOps Denote Curve Group Chain Order Jac JacOps Table Wnaf WnafC Ecmult Lift Gen Key Ctx Ecdsa ApiScalar ApiDer ApiPub ApiArith ApiGroup ApiMore ApiEcdsa ApiKeys ApiLaws.

(** * What the statements say *)
(** On points; [None]: the operand is the point at infinity where the documentation asks for a finite one. *)
Definition pifn {A} (P : point) (x : A) : option A := match P with Inf => None | Aff _ _ => Some x end.
Definition psay (st : (nat -> point) * (nat -> point)) (i : pins) : option ((nat -> point) * (nat -> point)) :=
  let (J, A) := st in
  match i with
  | PInf d => Some (put J d Inf, A)
  | PLoad d a => Some (put J d (A a), A)
  | PCopy d a => Some (put J d (J a), A)
  | PDouble d a => Some (put J d (padd (J a) (J a)), A)
  | PAdd d a b => Some (put J d (padd (J a) (J b)), A)
  | PAddA d a b => Some (put J d (padd (J a) (A b)), A)
  | PAddC d a b => pifn (A b) (put J d (padd (J a) (A b)), A)
  | PNeg d a => Some (put J d (pneg (J a)), A)
  | PRescale _ _ => Some (J, A)
  | PMulG d k => Some (put J d (smul (sv k) G), A)
  | PMul d a k => pifn (A a) (put J d (smul (sv k) (A a)), A)
  | PMulAdd d a k l => pifn (J a) (put J d (padd (smul (sv k) (J a)) (smul (sv l) G)), A)
  | PStore d a | PStoreVar d a => Some (J, put A d (J a))
  | PCopyA d a => Some (J, put A d (A a))
  | PNegA d a => Some (J, put A d (pneg (A a)))
  | PPack d a => pifn (A a) (J, put A d (A a))
  end.
Fixpoint psays (st : (nat -> point) * (nat -> point)) (q : list pins) : option ((nat -> point) * (nat -> point)) :=
  match q with [] => Some st | i :: t => match psay st i with Some st => psays st t | None => None end end.
(** On discrete logarithms. *)
Definition zifn {A} (e : Z) (x : A) : option A := if e =? 0 then None else Some x.
Definition lsay (st : (nat -> Z) * (nat -> Z)) (i : pins) : option ((nat -> Z) * (nat -> Z)) :=
  let (J, A) := st in
  match i with
  | PInf d => Some (put J d 0, A)
  | PLoad d a => Some (put J d (A a), A)
  | PCopy d a => Some (put J d (J a), A)
  | PDouble d a => Some (put J d ((J a + J a) mod n), A)
  | PAdd d a b => Some (put J d ((J a + J b) mod n), A)
  | PAddA d a b => Some (put J d ((J a + A b) mod n), A)
  | PAddC d a b => zifn (A b) (put J d ((J a + A b) mod n), A)
  | PNeg d a => Some (put J d ((- J a) mod n), A)
  | PRescale _ _ => Some (J, A)
  | PMulG d k => Some (put J d (sv k), A)
  | PMul d a k => zifn (A a) (put J d ((sv k * A a) mod n), A)
  | PMulAdd d a k l => zifn (J a) (put J d ((sv k * J a + sv l) mod n), A)
  | PStore d a | PStoreVar d a => Some (J, put A d (J a))
  | PCopyA d a => Some (J, put A d (A a))
  | PNegA d a => Some (J, put A d ((- A a) mod n))
  | PPack d a => zifn (A a) (J, put A d (A a))
  end.
Fixpoint lsays (st : (nat -> Z) * (nat -> Z)) (q : list pins) : option ((nat -> Z) * (nat -> Z)) :=
  match q with [] => Some st | i :: t => match lsay st i with Some st => lsays st t | None => None end end.
(** Scalars are reduced, rescaling factors are normalized and not zero. *)
Definition ptyped (i : pins) : Prop :=
  match i with PMulG _ k | PMul _ _ k => scan k | PMulAdd _ _ k l => scan k /\ scan l | PRescale _ s => fcan s /\ fv s <> 0 | _ => True end.

(** * Programs *)
Definition holds (st : (nat -> jac) * (nat -> affine)) (pt : (nat -> point) * (nat -> point)) : Prop :=
  (forall i, jac_at (fst st i) (fst pt i)) /\ forall i, key_at (snd st i) (snd pt i).
Lemma put_at {X Y} (R : X -> Y -> Prop) (f : nat -> X) (g : nat -> Y) d x y : (forall i, R (f i) (g i)) -> R x y -> forall i, R (put f d x i) (put g d y i).
Proof. intros A B i. unfold put. destruct (Nat.eqb i d); [exact B | apply A]. Qed.
Lemma aff_weaken m k P : aff_at m k P -> m <= 6 -> key_at k P.
Proof. intros (A & B & C & D) L. split; [eapply fok_mono; [exact A | exact L]|]. split; [eapply fok_mono; [exact B | exact L]|]. split; [exact C | exact D]. Qed.
Lemma scan_parts k : scan k -> k = scalar_of (sv k) /\ 0 <= sv k < n.
Proof. intros [U L]. split; [apply scalar_of_id, U|]. pose proof (sv_range _ U). lia. Qed.
Lemma pifn_inv {A} P (x y : A) : pifn P x = Some y -> P <> Inf /\ x = y.
Proof. destruct P; cbn [pifn]; [discriminate | intros [= <-]; split; [discriminate | reflexivity]]. Qed.
Lemma pstep_ok dbg ctx gen st pt i pt' : verify_ctx ctx -> gen_ctx gen -> holds st pt -> ptyped i -> psay pt i = Some pt' -> exists st', pstep dbg ctx gen st i = Some st' /\ holds st' pt'.
Proof.
  destruct st as [j a], pt as [J A]. intros VC GC [HJ HA] T. cbn [fst snd] in HJ, HA.
  assert (OKJ : forall d x P, jac_at x P -> holds (put j d x, a) (put J d P, A)) by (intros d x P H; split; cbn [fst snd]; [apply put_at; [exact HJ | exact H] | exact HA]).
  assert (OKA : forall d x P, key_at x P -> holds (j, put a d x) (J, put A d P)) by (intros d x P H; split; cbn [fst snd]; [exact HJ | apply put_at; [exact HA | exact H]]).
  destruct i as [d|d b|d b|d b|d b c|d b c|d b c|d b|d s|d k|d b k|d b k l|d b|d b|d b|d b|d b]; cbn [psay pstep ptyped] in *.
  - intros [= <-]. eexists. split; [reflexivity|]. apply OKJ. apply C49_double_example_pf.
  - intros [= <-]. destruct (jac_of_key dbg _ _ (HA b)) as (x & -> & X). eexists. split; [reflexivity | apply OKJ, X].
  - intros [= <-]. eexists. split; [reflexivity | apply OKJ, HJ].
  - intros [= <-]. destruct (C49_double_pf dbg _ _ (HJ b)) as (x & -> & X). eexists. split; [reflexivity | apply OKJ, X].
  - intros [= <-]. destruct (C49_add_pf dbg _ _ _ _ (HJ b) (HJ c)) as (x & -> & X). eexists. split; [reflexivity | apply OKJ, X].
  - intros [= <-]. destruct (C49_add_ge_var_pf dbg _ _ _ _ (HJ b) (HA c)) as (x & -> & X). eexists. split; [reflexivity | apply OKJ, X].
  - intros H. apply pifn_inv in H. destruct H as [N <-]. destruct (C49_add_ge_pf dbg _ _ _ _ (HJ b) (HA c) N) as (x & -> & X). eexists. split; [reflexivity | apply OKJ, X].
  - intros [= <-]. destruct (C58_jacobian_neg_pf dbg _ _ (HJ b)) as (x & -> & X). eexists. split; [reflexivity | apply OKJ, X].
  - intros [= <-]. destruct T as [TC TN]. destruct (C62_rescale_pf dbg _ _ _ (HJ d) TC TN) as (x & -> & X & _). eexists. split; [reflexivity|]. split; cbn [fst snd]; [|exact HA].
    intros i. unfold put. destruct (Nat.eqb_spec i d) as [->|?]; [exact X | apply HJ].
  - intros [= <-]. destruct (scan_parts _ T) as [E R]. destruct (C53_ecmult_gen_pf dbg gen _ GC R) as (x & EX & X). rewrite <- E in EX. rewrite EX. eexists. split; [reflexivity | apply OKJ, X].
  - intros H. apply pifn_inv in H. destruct H as [N <-]. destruct (scan_parts _ T) as [E R]. destruct (C52_ecmult_const_pf dbg _ _ _ (HA b) N R) as (x & EX & X). rewrite <- E in EX. rewrite EX. eexists. split; [reflexivity | apply OKJ, X].
  - intros H. apply pifn_inv in H. destruct H as [N <-]. destruct T as [TK TL]. destruct (scan_parts _ TK) as [EK RK], (scan_parts _ TL) as [EL RL]. 
    destruct (C51_ecmult_pf dbg ctx _ _ _ _ VC (HJ b) N RK RL) as (x & EX & X). rewrite <- EK, <- EL in EX. rewrite EX. eexists. split; [reflexivity | apply OKJ, X].
  - intros [= <-]. destruct (C50_set_gej_pf dbg _ _ (HJ b)) as (x & -> & X). eexists. split; [reflexivity|]. apply OKA. apply (aff_weaken _ _ _ X). lia.
  - intros [= <-]. destruct (HA d) as (DX & DY & _). destruct (C50_set_gej_var_pf dbg _ _ _ (HJ b) DX DY) as (x & -> & X). eexists. split; [reflexivity | apply OKA, X].
  - intros [= <-]. eexists. split; [reflexivity | apply OKA, HA].
  - intros [= <-]. destruct (C58_affine_neg_pf dbg 6 _ _ (HA b) ltac:(lia)) as (x & -> & X). eexists. split; [reflexivity | apply OKA; exact X].
  - intros H. apply pifn_inv in H. destruct H as [N <-]. pose proof (HA b) as K. destruct (A b) as [|x y] eqn:EA; [contradiction|].
    destruct (C58_storage_pf dbg 6 _ x y K ltac:(lia)) as (s & -> & X). eexists. split; [reflexivity|]. apply OKA. apply (aff_weaken _ _ _ X). lia.
Qed.
(** A program on points in any representations runs to its end in every build, as long as finite points are given where the documentation asks for them, and every
    variable then denotes the point the program says: equal, opposite and infinite operands included. *)
Lemma C97_point_programs_pf : forall dbg ctx gen q j a J A J' A', verify_ctx ctx -> gen_ctx gen -> (forall i, jac_at (j i) (J i)) -> (forall i, key_at (a i) (A i)) -> Forall ptyped q ->
  psays (J, A) q = Some (J', A') -> exists j' a', prun dbg ctx gen (j, a) q = Some (j', a') /\ (forall i, jac_at (j' i) (J' i)) /\ forall i, key_at (a' i) (A' i).
Proof.
  intros dbg ctx gen q j a J A J' A' VC GC HJ HA T S.
  assert (M : forall q st pt pt', holds st pt -> Forall ptyped q -> psays pt q = Some pt' -> exists st', prun dbg ctx gen st q = Some st' /\ holds st' pt').
  { clear - VC GC. induction q as [|i q IH]; intros st pt pt' H T S; cbn [psays prun] in *.
    - injection S as <-. exists st. split; [reflexivity | exact H].
    - inversion T as [|? ? TI TQ]; subst. destruct (psay pt i) as [pt1|] eqn:E; [|discriminate S]. destruct (pstep_ok dbg ctx gen st pt i pt1 VC GC H TI E) as (st1 & -> & H1). cbn [bind].
      apply (IH _ _ _ H1 TQ S). }
  destruct (M q (j, a) (J, A) (J', A') (conj HJ HA) T S) as ([j' a'] & E & HJ' & HA'). exists j', a'. split; [exact E|]. split; [exact HJ' | exact HA'].
Qed.
(** From G everywhere: 2G, -G, -G + G, 7G, 5G - G, that plus G, and its affine forms. *)
Definition tour : list pins := [PDouble 1 0; PNeg 2 0; PAdd 3 2 0; PMulG 4 (scalar_of 7); PMulAdd 5 0 (scalar_of (n - 1)) (scalar_of 5); PAddC 5 5 0; PStore 1 5; PStoreVar 2 3; PNegA 3 1; PPack 4 0].
Lemma tour_typed : Forall ptyped tour.
Proof.
  assert (B : 0 <= 7 < n /\ 0 <= n - 1 < n /\ 0 <= 5 < n) by (pose proof n_big; lia). destruct B as (B7 & B1 & B5).
  repeat (apply Forall_cons; [cbn [ptyped]; first [exact Logic.I | apply scalar_of_scan, B7 | split; apply scalar_of_scan; assumption]|]). apply Forall_nil.
Qed.
Lemma C97_point_programs_example_pf : (exists ctx gen, verify_ctx ctx /\ gen_ctx gen) /\ jac_at JG G /\ key_at AFFINE_G G /\ Forall ptyped tour /\
  exists J' A', psays ((fun _ => G), (fun _ => G)) tour = Some (J', A') /\ J' 3%nat = Inf /\ A' 4%nat = G.
Proof.
  destruct C51_ecmult_example_pf as ((ctx & _ & VC) & _), C53_ecmult_gen_example_pf as (gen & _ & GC). split; [exists ctx, gen; split; assumption|]. split; [exact JG_at|]. split; [exact G_key|]. split; [exact tour_typed|].
  eexists. eexists. split; [cbv [psays psay pifn tour G]; reflexivity|]. split; cbv [put Nat.eqb]; vm_compute; reflexivity.
Qed.
(** Programs without [add_ge], multiplications of points and storage need no condition at all. *)
Definition plain (i : pins) : Prop := match i with PAddC _ _ _ | PMul _ _ _ | PMulAdd _ _ _ _ | PPack _ _ => False | _ => True end.
Lemma C97_unconditional_pf : forall dbg ctx gen q j a J A, verify_ctx ctx -> gen_ctx gen -> (forall i, jac_at (j i) (J i)) -> (forall i, key_at (a i) (A i)) -> Forall ptyped q -> Forall plain q ->
  exists J' A' j' a', psays (J, A) q = Some (J', A') /\ prun dbg ctx gen (j, a) q = Some (j', a') /\ (forall i, jac_at (j' i) (J' i)) /\ forall i, key_at (a' i) (A' i).
Proof.
  intros dbg ctx gen q j a J A VC GC HJ HA T PL.
  assert (M : forall q pt, Forall plain q -> psays pt q <> None).
  { clear. induction q as [|i q IH]; intros pt PL; cbn [psays]; [discriminate|]. inversion PL as [|? ? PI PQ]; subst. destruct pt as [J A]. destruct i; cbn [psay plain] in *; try contradiction; apply IH, PQ. }
  destruct (psays (J, A) q) as [[J' A']|] eqn:E; [|elim (M q (J, A) PL E)]. destruct (C97_point_programs_pf dbg ctx gen q j a J A J' A' VC GC HJ HA T E) as (j' & a' & R & HJ' & HA').
  exists J', A', j', a'. split; [reflexivity|]. split; [exact R|]. split; [exact HJ' | exact HA'].
Qed.
Lemma C97_unconditional_example_pf : Forall plain [PDouble 1 0; PNeg 2 1; PAdd 3 2 1; PStore 1 3; PAddA 4 3 1] /\ jac_at j_set_infinity Inf.
Proof. split; [repeat constructor | apply C49_double_example_pf]. Qed.

(** * Logarithms *)
Lemma smulG_neg e : 0 <= e < n -> pneg (smul e G) = smul ((- e) mod n) G.
Proof.
  intros R. pose proof (Z.mod_pos_bound (- e) n ltac:(lia)). rewrite !smulG by lia. rewrite <- sp_opp, <- emul_opp. f_equal. symmetry. apply emul_mod.
Qed.
Definition logs (lg : (nat -> Z) * (nat -> Z)) (pt : (nat -> point) * (nat -> point)) : Prop :=
  (forall i, 0 <= fst lg i < n /\ fst pt i = smul (fst lg i) G) /\ forall i, 0 <= snd lg i < n /\ snd pt i = smul (snd lg i) G.
Lemma zifn_inv {A} e (x y : A) P : 0 <= e < n -> P = smul e G -> zifn e x = Some y -> (forall B (z : B), pifn P z = Some z) /\ x = y.
Proof.
  unfold zifn. intros R ->. destruct (Z.eqb_spec e 0) as [?|N]; [discriminate|]. intros [= <-]. split; [|reflexivity]. intros B z.
  assert (NZ : smul e G <> Inf) by (apply smulG_nz; lia). destruct (smul e G); [contradiction | reflexivity].
Qed.
Lemma lsay_ok lg pt i lg' : logs lg pt -> ptyped i -> lsay lg i = Some lg' -> exists pt', psay pt i = Some pt' /\ logs lg' pt'.
Proof.
  destruct lg as [e f], pt as [J A]. intros [HJ HA] T. cbn [fst snd] in HJ, HA. pose proof n_pos as NP.
  assert (RM : forall x, 0 <= x mod n < n) by (intros; apply Z.mod_pos_bound; lia).
  assert (PUT : forall (g : nat -> Z) (Q : nat -> point) d x P, (forall i, 0 <= g i < n /\ Q i = smul (g i) G) -> 0 <= x < n -> P = smul x G -> forall i, 0 <= put g d x i < n /\ put Q d P i = smul (put g d x i) G).
  { intros g Q d x P H R E i0. unfold put. destruct (Nat.eqb i0 d); [split; assumption | apply H]. }
  assert (OKJ : forall d x P, 0 <= x < n -> P = smul x G -> logs (put e d x, f) (put J d P, A)) by (intros d x P R E; split; cbn [fst snd]; [apply PUT; assumption | exact HA]).
  assert (OKA : forall d x P, 0 <= x < n -> P = smul x G -> logs (e, put f d x) (J, put A d P)) by (intros d x P R E; split; cbn [fst snd]; [exact HJ | apply PUT; assumption]).
  assert (JR : forall b, 0 <= e b < n) by apply HJ. assert (AR : forall b, 0 <= f b < n) by apply HA. assert (JE : forall b, J b = smul (e b) G) by apply HJ. assert (AE : forall b, A b = smul (f b) G) by apply HA.
  assert (ADD : forall x y, 0 <= x < n -> 0 <= y < n -> padd (smul x G) (smul y G) = smul ((x + y) mod n) G) by (intros; rewrite smulG_mod by lia; apply smulG_add; lia).
  destruct i as [d|d b|d b|d b|d b c|d b c|d b c|d b|d s|d k|d b k|d b k l|d b|d b|d b|d b|d b]; cbn [lsay psay ptyped] in *.
  - intros [= <-]. eexists. split; [reflexivity|]. apply OKJ; [lia | reflexivity].
  - intros [= <-]. eexists. split; [reflexivity|]. apply OKJ; [apply AR | apply AE].
  - intros [= <-]. eexists. split; [reflexivity|]. apply OKJ; [apply JR | apply JE].
  - intros [= <-]. eexists. split; [reflexivity|]. apply OKJ; [apply RM|]. rewrite JE, ADD by apply JR. reflexivity.
  - intros [= <-]. eexists. split; [reflexivity|]. apply OKJ; [apply RM|]. rewrite !JE. apply ADD; apply JR.
  - intros [= <-]. eexists. split; [reflexivity|]. apply OKJ; [apply RM|]. rewrite JE, AE. apply ADD; [apply JR | apply AR].
  - intros H. apply (zifn_inv _ _ _ (A c) (AR c) (AE c)) in H. destruct H as [E <-]. rewrite E. eexists. split; [reflexivity|]. apply OKJ; [apply RM|]. rewrite JE, AE. apply ADD; [apply JR | apply AR].
  - intros [= <-]. eexists. split; [reflexivity|]. apply OKJ; [apply RM|]. rewrite JE. apply smulG_neg, JR.
  - intros [= <-]. eexists. split; [reflexivity|]. split; [exact HJ | exact HA].
  - intros [= <-]. eexists. split; [reflexivity|]. apply OKJ; [apply (scan_parts _ T) | reflexivity].
  - intros H. apply (zifn_inv _ _ _ (A b) (AR b) (AE b)) in H. destruct H as [E <-]. rewrite E. eexists. split; [reflexivity|]. destruct (scan_parts _ T) as [_ R]. apply OKJ; [apply RM|].
    rewrite AE, smulG_mod by (pose proof (AR b); nia). apply smulG_mul; [lia | apply AR].
  - intros H. apply (zifn_inv _ _ _ (J b) (JR b) (JE b)) in H. destruct H as [E <-]. rewrite E. eexists. split; [reflexivity|]. destruct T as [TK TL]. destruct (scan_parts _ TK) as [_ R], (scan_parts _ TL) as [_ R']. apply OKJ; [apply RM|].
    pose proof (JR b). rewrite JE, smulG_mul by lia. rewrite smulG_add by nia. symmetry. apply smulG_mod. nia.
  - intros [= <-]. eexists. split; [reflexivity|]. apply OKA; [apply JR | apply JE].
  - intros [= <-]. eexists. split; [reflexivity|]. apply OKA; [apply JR | apply JE].
  - intros [= <-]. eexists. split; [reflexivity|]. apply OKA; [apply AR | apply AE].
  - intros [= <-]. eexists. split; [reflexivity|]. apply OKA; [apply RM|]. rewrite AE. apply smulG_neg, AR.
  - intros H. apply (zifn_inv _ _ _ (A b) (AR b) (AE b)) in H. destruct H as [E <-]. rewrite E. eexists. split; [reflexivity|]. apply OKA; [apply AR | apply AE].
Qed.
(** If the variables start at known multiples of G, the program can be followed on the multipliers, modulo n, and the result denotes the computed multiple. *)
Lemma C97_multipliers_pf : forall dbg ctx gen q j a e f e' f', verify_ctx ctx -> gen_ctx gen -> (forall i, 0 <= e i < n /\ jac_at (j i) (smul (e i) G)) -> (forall i, 0 <= f i < n /\ key_at (a i) (smul (f i) G)) -> Forall ptyped q ->
  lsays (e, f) q = Some (e', f') -> exists j' a', prun dbg ctx gen (j, a) q = Some (j', a') /\ (forall i, 0 <= e' i < n /\ jac_at (j' i) (smul (e' i) G)) /\ forall i, 0 <= f' i < n /\ key_at (a' i) (smul (f' i) G).
Proof.
  intros dbg ctx gen q j a e f e' f' VC GC HJ HA T S.
  assert (M : forall q lg pt lg', logs lg pt -> Forall ptyped q -> lsays lg q = Some lg' -> exists pt', psays pt q = Some pt' /\ logs lg' pt').
  { clear. induction q as [|i q IH]; intros lg pt lg' H T S; cbn [lsays psays] in *.
    - injection S as <-. exists pt. split; [reflexivity | exact H].
    - inversion T as [|? ? TI TQ]; subst. destruct (lsay lg i) as [lg1|] eqn:E; [|discriminate S]. destruct (lsay_ok _ _ _ _ H TI E) as (pt1 & -> & H1). apply (IH _ _ _ H1 TQ S). }
  assert (L0 : logs (e, f) ((fun i => smul (e i) G), (fun i => smul (f i) G))). { split; intros i; cbn [fst snd]; (split; [|reflexivity]); [apply HJ | apply HA]. }
  destruct (M q _ _ _ L0 T S) as ([J' A'] & PS & LJ & LA). cbn [fst snd] in LJ, LA.
  destruct (C97_point_programs_pf dbg ctx gen q j a _ _ J' A' VC GC (fun i => proj2 (HJ i)) (fun i => proj2 (HA i)) T PS) as (j' & a' & R & HJ' & HA').
  exists j', a'. split; [exact R|]. split; intros i; [destruct (LJ i) as [B E] | destruct (LA i) as [B E]]; (split; [exact B|]); rewrite <- E; [apply HJ' | apply HA'].
Qed.
Lemma C97_multipliers_example_pf : smul 1 G = G /\ match lsays ((fun _ => 1), (fun _ => 1)) tour with Some (e', f') => map e' [1; 2; 3; 4; 5]%nat = [2; n - 1; 0; 7; 5] /\ map f' [1; 2; 3; 4]%nat = [5; 0; n - 5; 1] | None => False end.
Proof. split; [rewrite smulG, emul_1, sp_G by lia; reflexivity|]. vm_compute. split; reflexivity. Qed.

(** * Where a program stops *)
Lemma key_inf k : key_at k Inf -> af_inf k = true. Proof. intros (_ & _ & _ & I). exact I. Qed.
Lemma jac_inf' j : jac_at j Inf -> j_inf j = true. Proof. intros (_ & _ & _ & _ & I). exact I. Qed.
Lemma table_inf a : j_inf a = true -> odd_multiples_table_globalz_windowa true a = None.
Proof. intros I. unfold odd_multiples_table_globalz_windowa, odd_multiples_table. rewrite I. reflexivity. Qed.
Lemma bind_stops {A B} (x : option A) (f : A -> option B) : (forall a, x = Some a -> f a = None) -> bind x f = None.
Proof. destruct x as [a|]; intros H; [exact (H a eq_refl) | reflexivity]. Qed.
Lemma stop_bind {A B} (x : option A) (f : A -> option B) : x = None -> bind x f = None.
Proof. intros ->. reflexivity. Qed.
Lemma ecmult_inf ctx a na ng : j_inf a = true -> ecmult true ctx a na ng = None.
Proof. intros I. unfold ecmult. destruct ctx as [pre]. apply bind_stops. intros [w b] _. apply stop_bind, table_inf, I. Qed.
Lemma set_ge_inf a j : j_set_ge true a = Some j -> j_inf j = af_inf a.
Proof. unfold j_set_ge. destruct (f_set_int true 1) as [z|]; cbn [bind]; [|discriminate]. intros E. injection E as <-. reflexivity. Qed.
Lemma ecmult_const_inf a k : af_inf a = true -> ecmult_const true a k = None.
Proof. intros I. unfold ecmult_const. apply bind_stops. intros [w s] _. apply bind_stops. intros r E. apply stop_bind, table_inf. rewrite (set_ge_inf _ _ E). exact I. Qed.
Lemma pstep_stops ctx gen st pt i : holds st pt -> psay pt i = None -> pstep true ctx gen st i = None.
Proof.
  destruct st as [j a], pt as [J A]. intros [HJ HA]. cbn [fst snd] in HJ, HA. destruct i as [d|d b|d b|d b|d b c|d b c|d b c|d b|d s|d k|d b k|d b k l|d b|d b|d b|d b|d b]; cbn [psay pstep]; try discriminate.
  - pose proof (HA c) as K. destruct (A c); [|discriminate]. intros _. unfold j_add_ge. rewrite (key_inf _ K). reflexivity.
  - pose proof (HA b) as K. destruct (A b); [|discriminate]. intros _. rewrite (ecmult_const_inf _ _ (key_inf _ K)). reflexivity.
  - pose proof (HJ b) as K. destruct (J b); [|discriminate]. intros _. rewrite (ecmult_inf _ _ _ _ (jac_inf' _ K)). reflexivity.
  - pose proof (HA b) as K. destruct (A b); [|discriminate]. intros _. unfold af_to_storage. rewrite (key_inf _ K). reflexivity.
Qed.
Lemma pstep_ref ctx gen st i : ref (pstep true ctx gen st i) (pstep false ctx gen st i).
Proof. destruct st as [j a]. destruct i; cbn [pstep]; mono. Qed.
#[local] Hint Resolve pstep_ref : mono.
Lemma prun_ref ctx gen q : forall st, ref (prun true ctx gen st q) (prun false ctx gen st q).
Proof. induction q as [|i q IH]; intros st; cbn [prun]; mono. Qed.
(** A debug build stops exactly at the first statement given the point at infinity against the documentation; a program it runs to its end leaves a release build in the
    same state. *)
Lemma C97_debug_exact_pf : forall ctx gen q j a J A, verify_ctx ctx -> gen_ctx gen -> (forall i, jac_at (j i) (J i)) -> (forall i, key_at (a i) (A i)) -> Forall ptyped q ->
  (prun true ctx gen (j, a) q = None <-> psays (J, A) q = None) /\ forall st, prun true ctx gen (j, a) q = Some st -> prun false ctx gen (j, a) q = Some st.
Proof.
  intros ctx gen q j a J A VC GC HJ HA T. split; [|intros st E; exact (prun_ref ctx gen q (j, a) st E)].
  assert (M : forall q st pt, holds st pt -> Forall ptyped q -> (prun true ctx gen st q = None <-> psays pt q = None)).
  { clear - VC GC. induction q as [|i q IH]; intros st pt H T; cbn [psays prun]; [split; discriminate|].
    inversion T as [|? ? TI TQ]; subst. destruct (psay pt i) as [pt1|] eqn:E.
    - destruct (pstep_ok true ctx gen st pt i pt1 VC GC H TI E) as (st1 & -> & H1). cbn [bind]. apply (IH _ _ H1 TQ).
    - rewrite (pstep_stops ctx gen st pt i H E). split; reflexivity. }
  apply M; [split; assumption | exact T].
Qed.
Lemma C97_debug_exact_example_pf : psays ((fun _ => G), (fun _ => G)) [PAddC 1 0 0] <> None /\ psays ((fun _ => G), (fun _ => G)) [PInf 1; PStore 1 1; PAddC 2 0 1; PDouble 3 0] = None /\
  psays ((fun _ => G), (fun _ => G)) [PNeg 1 0; PAdd 1 1 0; PMulAdd 2 1 (scalar_of 3) (scalar_of 4)] = None.
Proof. split; [discriminate|]. split; cbv [psays psay pifn put Nat.eqb]; vm_compute; reflexivity. Qed.
(** A release build has no such check. *)
Lemma C97_release_silent_refuted_pf : exists i j a J A, (forall i, jac_at (j i) (J i)) /\ (forall i, key_at (a i) (A i)) /\ ptyped i /\ psay (J, A) i = None /\
  forall ctx gen, pstep true ctx gen (j, a) i = None /\ exists st, pstep false ctx gen (j, a) i = Some st /\ ~ jac_at (fst st 0%nat) (padd (J 0%nat) (A 0%nat)).
Proof.
  destruct C49_add_ge_infinity_refuted_pf as (x & y & X & Y & D & r & R & W). exists (PAddC 0 0 0), (fun _ => x), (fun _ => y), (fun _ => G), (fun _ => Inf).
  split; [intros _; exact X|]. split; [intros _; exact Y|]. split; [exact Logic.I|]. split; [reflexivity|]. intros ctx gen. cbn [pstep]. rewrite D, R. split; [reflexivity|].
  eexists. split; [reflexivity | exact W].
Qed.

(** * What can be seen of it *)
(** Two programs, in any builds and with any correct contexts, that compute the same multiplier other than 0 leave keys that serialize to the same bytes and compare equal. *)
Lemma C97_same_bytes_pf : forall dbg dbg' ctx ctx' gen gen' q q' j a j0 a0 e f e0 f0 e1 f1 e2 f2 d d', verify_ctx ctx -> gen_ctx gen -> verify_ctx ctx' -> gen_ctx gen' ->
  (forall i, 0 <= e i < n /\ jac_at (j i) (smul (e i) G)) -> (forall i, 0 <= f i < n /\ key_at (a i) (smul (f i) G)) -> Forall ptyped q -> lsays (e, f) q = Some (e1, f1) ->
  (forall i, 0 <= e0 i < n /\ jac_at (j0 i) (smul (e0 i) G)) -> (forall i, 0 <= f0 i < n /\ key_at (a0 i) (smul (f0 i) G)) -> Forall ptyped q' -> lsays (e0, f0) q' = Some (e2, f2) ->
  f1 d = f2 d' -> f1 d <> 0 ->
  exists j1 a1 j2 a2 b, prun dbg ctx gen (j, a) q = Some (j1, a1) /\ prun dbg' ctx' gen' (j0, a0) q' = Some (j2, a2) /\ pk_eq dbg (a1 d) (a2 d') = Some true /\
    pk_serialize dbg (a1 d) = Some b /\ pk_serialize dbg' (a2 d') = Some b.
Proof.
  intros dbg dbg' ctx ctx' gen gen' q q' j a j0 a0 e f e0 f0 e1 f1 e2 f2 d d' VC GC VC' GC' HJ HA T S HJ' HA' T' S' E N.
  destruct (C97_multipliers_pf dbg ctx gen q j a e f e1 f1 VC GC HJ HA T S) as (j1 & a1 & R & _ & K). destruct (C97_multipliers_pf dbg' ctx' gen' q' j0 a0 e0 f0 e2 f2 VC' GC' HJ' HA' T' S') as (j2 & a2 & R' & _ & K').
  destruct (K d) as [B K1], (K' d') as [_ K2]. rewrite <- E in K2. assert (NZ : smul (f1 d) G <> Inf) by (apply smulG_nz; lia).
  pose proof (key_same _ _ _ dbg K1 K2 NZ) as Q. destruct (smul (f1 d) G) as [|x y]; [contradiction|].
  exists j1, a1, j2, a2, (sec1_full x y). split; [exact R|]. split; [exact R'|]. split; [exact Q|]. split; [apply (C06_serialize_pf dbg _ _ _ K1) | apply (C06_serialize_pf dbg' _ _ _ K2)].
Qed.
Lemma C97_same_bytes_example_pf : match lsays ((fun _ => 1), (fun _ => 1)) [PDouble 0 0; PAddA 0 0 0; PStore 1 0], lsays ((fun _ => 1), (fun _ => n - 1)) [PMul 0 3 (scalar_of (n - 3)); PStoreVar 2 0] with
  | Some (_, f1), Some (_, f2) => f1 1%nat = 3 /\ f2 2%nat = 3 | _, _ => False end.
Proof. vm_compute. split; reflexivity. Qed.

(** * Doing without the library *)
(** The key of the library's answer is the one in affine variable [d]; where the library answers an error, the variable is at infinity. *)
Definition agrees (dbg : bool) (r : result affine) (k : affine) : Prop := match r with Ok k' => pk_eq dbg k k' = Some true | Err _ => af_inf k = true end.
Lemma agrees_ok dbg k k' P : key_at k P -> aff_at 1 k' P -> P <> Inf -> agrees dbg (Ok k') k.
Proof. intros A B N. exact (key_same _ _ _ dbg A (key_mono _ _ B) N). Qed.
Definition own_derive (d : Z) : list pins := [PMulG 0 (scalar_of d); PStore 1 0].
Definition own_tweak_add (t : Z) : list pins := [PMulG 0 (scalar_of t); PAddA 0 0 0; PStore 1 0].
Definition own_tweak_mul (t : Z) : list pins := [PMul 0 0 (scalar_of t); PStoreVar 1 0].
Definition own_combine (l : list nat) : list pins := PInf 0 :: map (fun i => PAddA 0 0 i) l ++ [PStore 1 0].
Lemma psays_app q q' : forall st, psays st (q ++ q') = match psays st q with Some st => psays st q' | None => None end.
Proof. induction q as [|i q IH]; intros st; cbn [app psays]; [reflexivity|]. destruct (psay st i); [apply IH | reflexivity]. Qed.
Lemma psays_sum A l : forall J, exists J', psays (J, A) (map (fun i => PAddA 0 0 i) l) = Some (J', A) /\ J' 0%nat = fold_left padd (map A l) (J 0%nat).
Proof.
  induction l as [|i l IH]; intros J; cbn [map psays psay fold_left]; [exists J; split; reflexivity|].
  destruct (IH (put J 0 (padd (J 0%nat) (A i)))) as (J' & -> & E). exists J'. split; [reflexivity | exact E].
Qed.
Lemma fold_psum l : forall P, Forall on_curve l -> on_curve P -> fold_left padd l P = padd P (psum l).
Proof.
  induction l as [|Q l IH]; intros P L OP; cbn [fold_left psum fold_right]; [destruct P; reflexivity|]. apply Forall_cons_iff in L. destruct L as [OQ L]. fold (psum l).
  rewrite (IH _ L (padd_on _ _ OP OQ)). symmetry. apply padd_assoc; [exact OP | exact OQ | apply psum_on, L].
Qed.
(** Deriving a key, adding and multiplying a tweak and combining keys (any number of them), written with the core crate instead of the functions of the main crate: the
    same key, and the point at infinity where the main crate returns an error. *)
Lemma C97_own_code_pf : forall dbg ctx gen j a J A, verify_ctx ctx -> gen_ctx gen -> (forall i, jac_at (j i) (J i)) -> (forall i, key_at (a i) (A i)) ->
  (forall d, 1 <= d < n -> exists k st, pk_from_secret_key dbg gen (scalar_of d) = Some k /\ prun dbg ctx gen (j, a) (own_derive d) = Some st /\ agrees dbg (Ok k) (snd st 1%nat)) /\
  (forall t, A 0%nat <> Inf -> 0 <= t < n -> exists k r st, pk_tweak_add_assign dbg ctx (a 0%nat) (scalar_of t) = Some (k, r) /\ prun dbg ctx gen (j, a) (own_tweak_add t) = Some st /\
     agrees dbg (match r with Ok _ => Ok k | Err e => Err e end) (snd st 1%nat)) /\
  (forall t, A 0%nat <> Inf -> 0 <= t < n -> exists k r st, pk_tweak_mul_assign dbg ctx (a 0%nat) (scalar_of t) = Some (k, r) /\ prun dbg ctx gen (j, a) (own_tweak_mul t) = Some st /\
     agrees dbg (match r with Ok _ => Ok k | Err e => Err e end) (snd st 1%nat)) /\
  (forall l, Forall (fun i => A i <> Inf) l -> exists r st, pk_combine dbg (map a l) = Some r /\ prun dbg ctx gen (j, a) (own_combine l) = Some st /\ agrees dbg r (snd st 1%nat)).
Proof.
  intros dbg ctx gen j a J A VC GC HJ HA.
  assert (RUN : forall q J' A', Forall ptyped q -> psays (J, A) q = Some (J', A') -> exists st, prun dbg ctx gen (j, a) q = Some st /\ key_at (snd st 1%nat) (A' 1%nat)).
  { intros q J' A' T S. destruct (C97_point_programs_pf dbg ctx gen q j a J A J' A' VC GC HJ HA T S) as (j' & a' & R & _ & K). exists (j', a'). split; [exact R | apply K]. }
  assert (TY : forall t, 0 <= t < n -> scan (scalar_of t)) by (intros; apply scalar_of_scan; assumption).
  assert (SVT : forall t, 0 <= t < n -> sv (scalar_of t) = t) by (intros; apply scalar_of_val; assumption).
  split; [|split; [|split]].
  - intros d D. destruct (C21_from_secret_key_pf dbg gen d GC D) as (k & E & K1 & _ & N). destruct (RUN (own_derive d) _ _ ltac:(repeat (apply Forall_cons; [first [exact Logic.I | apply TY; lia]|]); apply Forall_nil) eq_refl) as (st & R & K).
    exists k, st. split; [exact E|]. split; [exact R|]. change (key_at (snd st 1%nat) (smul (sv (scalar_of d)) G)) in K. rewrite SVT in K by lia. exact (agrees_ok _ _ _ _ K K1 N).
  - intros t NA R. destruct (C34_public_tweak_add_pf dbg ctx _ _ t VC (HA 0%nat) NA R) as [TI TF].
    destruct (RUN (own_tweak_add t) _ _ ltac:(repeat (apply Forall_cons; [first [exact Logic.I | apply TY; lia]|]); apply Forall_nil) eq_refl) as (st & RR & K).
    change (key_at (snd st 1%nat) (padd (smul (sv (scalar_of t)) G) (A 0%nat))) in K. rewrite SVT in K by lia. assert (OG : on_curve (smul t G)) by (rewrite smulG by lia; apply sp_on). rewrite (padd_comm _ _ OG (key_on _ _ (HA 0%nat))) in K.
    destruct (padd (A 0%nat) (smul t G)) as [|x y] eqn:EP.
    + eexists. eexists. exists st. split; [exact (TI eq_refl)|]. split; [exact RR|]. exact (key_inf _ K).
    + destruct (TF ltac:(discriminate)) as (k' & E & K'). exists k', (Ok tt), st. split; [exact E|]. split; [exact RR|]. exact (agrees_ok _ _ _ _ K K' ltac:(discriminate)).
  - intros t NA R. destruct (C35_public_tweak_mul_pf dbg ctx _ _ t VC (HA 0%nat) NA R) as [TI TF].
    destruct (RUN (own_tweak_mul t) (put J 0 (smul (sv (scalar_of t)) (A 0%nat))) (put A 1 (smul (sv (scalar_of t)) (A 0%nat))) ltac:(repeat (apply Forall_cons; [first [exact Logic.I | apply TY; lia]|]); apply Forall_nil)) as (st & RR & K).
    { unfold own_tweak_mul. cbn [psays psay]. destruct (A 0%nat); [contradiction | reflexivity]. }
    change (key_at (snd st 1%nat) (smul (sv (scalar_of t)) (A 0%nat))) in K. rewrite SVT in K by lia. destruct (Z.eq_dec t 0) as [Z0|NZ].
    + eexists. eexists. exists st. split; [exact (TI Z0)|]. split; [exact RR|]. rewrite Z0 in K. exact (key_inf _ K).
    + destruct (TF NZ) as (k' & E & K' & NI). exists k', (Ok tt), st. split; [exact E|]. split; [exact RR|]. exact (agrees_ok _ _ _ _ K K' NI).
  - intros l FN. assert (KS : Forall2 key_at (map a l) (map A l)) by (induction l as [|i l IH]; cbn [map]; constructor; [apply HA | apply IH; inversion FN; assumption]).
    assert (FS : Forall fin (map A l)) by (apply Forall_map; exact FN). assert (ON : Forall on_curve (map A l)) by (apply Forall_map, Forall_forall; intros i _; exact (key_on _ _ (HA i))).
    destruct (psays_sum A l (put J 0 Inf)) as (J' & S & EJ). change (put J 0 Inf 0%nat) with Inf in EJ. rewrite fold_psum in EJ by (exact ON || exact Logic.I). change (padd Inf (psum (map A l))) with (psum (map A l)) in EJ.
    destruct (RUN (own_combine l) J' (put A 1 (J' 0%nat))) as (st & RR & K).
    { unfold own_combine. apply Forall_cons; [exact Logic.I|]. apply Forall_app. split; [apply Forall_map, Forall_forall; intros; exact Logic.I | apply Forall_cons; [exact Logic.I | apply Forall_nil]]. }
    { unfold own_combine. cbn [psays psay]. rewrite psays_app, S. reflexivity. }
    change (put A 1 (J' 0%nat) 1%nat) with (J' 0%nat) in K. rewrite EJ in K. destruct (C36_combine_pf dbg _ _ KS FS) as [CI CF]. destruct (psum (map A l)) as [|x y] eqn:EP.
    + eexists. exists st. split; [exact (CI eq_refl)|]. split; [exact RR|]. exact (key_inf _ K).
    + destruct (CF ltac:(discriminate)) as (k' & E & K'). exists (Ok k'), st. split; [exact E|]. split; [exact RR|]. exact (agrees_ok _ _ _ _ K K' ltac:(discriminate)).
Qed.
Lemma C97_own_code_example_pf : key_at AFFINE_G G /\ jac_at JG G /\ G <> Inf /\ Forall (fun i => (fun _ : nat => G) i <> Inf) [3; 4; 3]%nat /\ 1 <= 5 < n.
Proof. split; [exact G_key|]. split; [exact JG_at|]. split; [discriminate|]. split; [repeat constructor; discriminate|]. pose proof n_big. lia. Qed.
