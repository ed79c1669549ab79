(** Straight-line programs of field and scalar operators. *)
From Coq Require Import Znumtheory Zdiv.
From Verif Require Import Word MField MScalar MOps Mono WP FieldMul FieldNorm FieldZero FieldMag32 Spec Fp Bits FieldOps FieldCodec FieldStore ScalarMul ScalarOps ScalarMore ScalarBits Denote Curve Key ApiScalar ApiPub ApiArith ApiLimits.

(** * What the statements say *)
(** On integers modulo p. *)
Definition fsay (v : nat -> Z) (i : fins) : nat -> Z :=
  match i with
  | FCopy d a => put v d (v a)
  | FInt d x => put v d (x mod p)
  | FAdd _ d a b => put v d ((v a + v b) mod p)
  | FAddTo _ d b => put v d ((v d + v b) mod p)
  | FMul _ d a b => put v d ((v a * v b) mod p)
  | FMulTo _ d b => put v d ((v d * v b) mod p)
  | FSqr d a => put v d ((v a * v a) mod p)
  | FNeg d a _ => put v d ((- v a) mod p)
  | FMulInt d k => put v d ((k * v d) mod p)
  | FInv d a => put v d (inv_mod p (v a))
  | FNorm _ | FNormVar _ | FNormWeak _ => v
  | FCmov d b flag => if flag then put v d (v b) else v
  end.
Definition fsays (v : nat -> Z) (q : list fins) : nat -> Z := fold_left fsay q v.
(** The magnitudes a reader of the program can compute; [None]: the statement is outside the documented limits. *)
Definition fmag (m : nat -> Z) (i : fins) : option (nat -> Z) :=
  match i with
  | FCopy d a => Some (put m d (m a))
  | FInt d x => if (0 <=? x) && (x <? 2 ^ 26) then Some (put m d 1) else None
  | FAdd _ d a b => if m a + m b <=? 32 then Some (put m d (m a + m b)) else None
  | FAddTo _ d b => if m d + m b <=? 32 then Some (put m d (m d + m b)) else None
  | FMul _ d a b => if (m a <=? 8) && (m b <=? 8) then Some (put m d 1) else None
  | FMulTo _ d b => if (m d <=? 8) && (m b <=? 8) then Some (put m d 1) else None
  | FSqr d a | FInv d a => if m a <=? 8 then Some (put m d 1) else None
  | FNeg d a k => if (m a <=? k) && (k <=? 31) then Some (put m d (k + 1)) else None
  | FMulInt d k => if (0 <=? k) && (m d * k <=? 32) then Some (put m d (m d * k)) else None
  | FNorm d | FNormVar d | FNormWeak d => if m d <=? 31 then Some (put m d 1) else None
  | FCmov d b _ => Some (put m d (Z.max (m d) (m b)))
  end.
Fixpoint fmags (m : nat -> Z) (q : list fins) : option (nat -> Z) :=
  match q with [] => Some m | i :: t => match fmag m i with Some m => fmags m t | None => None end end.
(** On integers modulo n. *)
Definition ssay (v : nat -> Z) (i : sins) : nat -> Z :=
  match i with
  | SCopy d a => put v d (v a)
  | SInt d x => put v d x
  | SAdd _ d a b => put v d ((v a + v b) mod n)
  | SAddTo _ d b => put v d ((v d + v b) mod n)
  | SMul _ d a b => put v d ((v a * v b) mod n)
  | SMulTo _ d b => put v d ((v d * v b) mod n)
  | SSqr d a => put v d ((v a * v a) mod n)
  | SNeg _ d a => put v d ((- v a) mod n)
  | SCondNeg d flag => if flag then put v d ((- v d) mod n) else v
  | SInv d a => put v d (inv_mod n (v a))
  end.
Definition ssays (v : nat -> Z) (q : list sins) : nat -> Z := fold_left ssay q v.
(** The integer arguments are [u32]s, as their types say. *)
Definition ftyped (i : fins) : Prop := match i with FInt _ x | FNeg _ _ x | FMulInt _ x => 0 <= x < 2 ^ 32 | _ => True end.
Definition styped (i : sins) : Prop := match i with SInt _ x => 0 <= x < 2 ^ 32 | _ => True end.

(** * Field programs *)
Definition agree (m : nat -> Z) (r : nat -> field) (v : nat -> Z) : Prop := forall i, fok (m i) (r i) /\ fv (r i) mod p = v i.
Lemma agree_put m r v d k x c : agree m r v -> fok k x -> fv x mod p = c -> agree (put m d k) (put r d x) (put v d c).
Proof. intros A K V i. unfold put. destruct (Nat.eqb i d); [split; assumption | apply A]. Qed.
Lemma agree_norm m r v d k x : agree m r v -> fok k x -> fv x mod p = v d -> agree (put m d k) (put r d x) v.
Proof. intros A K V i. unfold put. destruct (Nat.eqb_spec i d) as [->|?]; [split; assumption | apply A]. Qed.
Lemma fok_le k k' f : fok k f -> k <= k' -> fok k' f.
Proof. intros (A & B & C) L. split; [exact A|]. split; [exact B | lia]. Qed.
Lemma fok_own k f : fok k f -> fok (f_mag f) f.
Proof. intros (A & B & C). split; [exact A|]. split; [exact B | lia]. Qed.
Lemma modp_add a b a' b' : a mod p = a' -> b mod p = b' -> (a + b) mod p = (a' + b') mod p.
Proof. intros <- <-. apply Z.add_mod. discriminate. Qed.
Lemma modp_mul a b a' b' : a mod p = a' -> b mod p = b' -> (a * b) mod p = (a' * b') mod p.
Proof. intros <- <-. apply Z.mul_mod. discriminate. Qed.
Lemma modp_mulc k a a' : a mod p = a' -> (k * a) mod p = (k * a') mod p.
Proof. intros <-. symmetry. apply Z.mul_mod_idemp_r. discriminate. Qed.
Lemma modp_opp a a' : a mod p = a' -> (- a) mod p = (- a') mod p.
Proof. intros H. change (- a) with (- (1) * a). change (- a') with (-(1) * a'). apply modp_mulc, H. Qed.
Lemma modp_id a a' : a mod p = a' -> a' mod p = a'.
Proof. intros <-. apply Z.mod_mod. discriminate. Qed.
Lemma inv_val dbg f k a : fok k f -> k <= 8 -> fv f mod p = a -> exists r, f_inv dbg f = Some r /\ fok 1 r /\ fv r mod p = inv_mod p a.
Proof.
  intros F K V. destruct (wp_ex _ _ (f_inv_rep dbg f _ (fok_val _ _ (fok_le _ _ _ F K)))) as (r & -> & R & E). exists r. split; [reflexivity|]. split; [exact R|].
  unfold finv in E. rewrite val_toF in E. apply fe_out in E. change fp with p in E. rewrite V in E. rewrite E. apply Z.mod_small. apply inv_mod_range. reflexivity.
Qed.
Lemma int_val dbg x : 0 <= x < 2 ^ 26 -> exists r, f_set_int dbg x = Some r /\ fok 1 r /\ fv r mod p = x mod p.
Proof. intros X. destruct (wp_ex _ _ (f_set_int_rep dbg x ltac:(lia))) as (r & -> & [R _] & V). exists r. split; [reflexivity|]. split; [exact R | exact (fe_out _ _ V)]. Qed.
Lemma cmov_pick a b flag : f_cmov a b flag = if flag then b else a.
Proof. destruct a, b, flag; reflexivity. Qed.
Lemma bind_id {A} (o : option A) : bind o (fun x => Some x) = o. Proof. destruct o; reflexivity. Qed.
Ltac forms := cbn [fstep fsay fmag]; unfold f_add_rr, f_add_vv, f_add_assign_v, f_mul_rr, f_mul_vv, f_mul_assign_v, f_mul_assign_r, f_from_int;
  repeat match goal with |- context [bind (Some ?x) ?f] => change (bind (Some x) f) with (f x) end; cbv beta; rewrite ?bind_id.
Lemma fstep_ok dbg m r v i m' : agree m r v -> fmag m i = Some m' -> exists r', fstep dbg r i = Some r' /\ agree m' r' (fsay v i).
Proof.
  intros A. destruct i as [d a|d x|br d a b|br d b|br d a b|br d b|d a|d a k|d k|d a|d|d|d|d b flag]; cbn [fmag].
  - intros [= <-]. eexists. split; [reflexivity|]. apply agree_put; [exact A | apply A..].
  - destruct (Z.leb_spec 0 x); [|discriminate]. destruct (Z.ltb_spec x (2 ^ 26)); [|discriminate]. intros [= <-]. destruct (int_val dbg x ltac:(lia)) as (y & E & K & V).
    cbn [fstep]. unfold f_from_int. rewrite E. eexists. split; [reflexivity|]. apply agree_put; assumption.
  - destruct (Z.leb_spec (m a + m b) 32) as [L|]; [|discriminate]. intros [= <-]. destruct (C44_add_pf dbg (r a) (r b) _ _ (proj1 (A a)) (proj1 (A b)) L) as (y & E & K & V).
    exists (put r d y). split; [destruct br; forms; rewrite E; reflexivity|]. cbn [fsay]. apply agree_put; [exact A | exact K|]. rewrite V. apply modp_add; apply A.
  - destruct (Z.leb_spec (m d + m b) 32) as [L|]; [|discriminate]. intros [= <-]. destruct (C44_add_pf dbg (r d) (r b) _ _ (proj1 (A d)) (proj1 (A b)) L) as (y & E & K & V).
    exists (put r d y). split; [destruct br; forms; rewrite E; reflexivity|]. cbn [fsay]. apply agree_put; [exact A | exact K|]. rewrite V. apply modp_add; apply A.
  - destruct (Z.leb_spec (m a) 8) as [L|]; [|discriminate]. destruct (Z.leb_spec (m b) 8) as [L'|]; [|discriminate]. intros [= <-].
    destruct (C44_mul_pf dbg (r a) (r b) (fok_le _ _ _ (proj1 (A a)) L) (fok_le _ _ _ (proj1 (A b)) L')) as (y & E & K & V).
    exists (put r d y). split; [destruct br; forms; rewrite E; reflexivity|]. cbn [fsay]. apply agree_put; [exact A | exact K|]. rewrite V. apply modp_mul; apply A.
  - destruct (Z.leb_spec (m d) 8) as [L|]; [|discriminate]. destruct (Z.leb_spec (m b) 8) as [L'|]; [|discriminate]. intros [= <-].
    destruct (C44_mul_pf dbg (r d) (r b) (fok_le _ _ _ (proj1 (A d)) L) (fok_le _ _ _ (proj1 (A b)) L')) as (y & E & K & V).
    exists (put r d y). split; [destruct br; forms; rewrite E; reflexivity|]. cbn [fsay]. apply agree_put; [exact A | exact K|]. rewrite V. apply modp_mul; apply A.
  - destruct (Z.leb_spec (m a) 8) as [L|]; [|discriminate]. intros [= <-]. destruct (C44_sqr_pf dbg (r a) (fok_le _ _ _ (proj1 (A a)) L)) as (y & E & K & V).
    exists (put r d y). split; [forms; rewrite E; reflexivity|]. cbn [fsay]. apply agree_put; [exact A | exact K|]. rewrite V. apply modp_mul; apply A.
  - destruct (Z.leb_spec (m a) k) as [L|]; [|discriminate]. destruct (Z.leb_spec k 31) as [L'|]; [|discriminate]. intros [= <-].
    destruct (C44_neg_pf dbg (r a) k (fok_le _ _ _ (proj1 (A a)) L)) as (y & E & K & V). { destruct (A a) as [(_ & _ & ?) _]. lia. }
    exists (put r d y). split; [forms; rewrite E; reflexivity|]. cbn [fsay]. apply agree_put; [exact A | exact K|]. rewrite V. apply modp_opp; apply A.
  - destruct (Z.leb_spec 0 k) as [L|]; [|discriminate]. destruct (Z.leb_spec (m d * k) 32) as [L'|]; [|discriminate]. intros [= <-].
    destruct (C44_mul_int_pf dbg (r d) _ k (proj1 (A d)) L L') as (y & E & K & V).
    exists (put r d y). split; [forms; rewrite E; reflexivity|]. cbn [fsay]. apply agree_put; [exact A | exact K|]. rewrite V. apply modp_mulc; apply A.
  - destruct (Z.leb_spec (m a) 8) as [L|]; [|discriminate]. intros [= <-]. destruct (inv_val dbg (r a) _ _ (proj1 (A a)) L (proj2 (A a))) as (y & E & K & V).
    exists (put r d y). split; [forms; rewrite E; reflexivity|]. cbn [fsay]. apply agree_put; [exact A | exact K | exact V].
  - destruct (Z.leb_spec (m d) 31) as [L|]; [|discriminate]. intros [= <-]. destruct (C44_normalize_pf dbg (r d) (fok_le _ _ _ (proj1 (A d)) L)) as ((y & E & [K _] & V) & _).
    exists (put r d y). split; [forms; rewrite E; reflexivity|]. cbn [fsay]. apply agree_norm; [exact A | exact K|]. rewrite V, Z.mod_mod by discriminate. apply A.
  - destruct (Z.leb_spec (m d) 31) as [L|]; [|discriminate]. intros [= <-]. destruct (C44_normalize_pf dbg (r d) (fok_le _ _ _ (proj1 (A d)) L)) as (_ & (y & E & [K _] & V) & _).
    exists (put r d y). split; [forms; rewrite E; reflexivity|]. cbn [fsay]. apply agree_norm; [exact A | exact K|]. rewrite V, Z.mod_mod by discriminate. apply A.
  - destruct (Z.leb_spec (m d) 31) as [L|]; [|discriminate]. intros [= <-]. destruct (C44_normalize_pf dbg (r d) (fok_le _ _ _ (proj1 (A d)) L)) as (_ & _ & (y & E & K & V)).
    exists (put r d y). split; [forms; rewrite E; reflexivity|]. cbn [fsay]. apply agree_norm; [exact A | exact K|]. rewrite V. apply A.
  - intros [= <-]. eexists. split; [reflexivity|]. rewrite cmov_pick. cbn [fsay]. destruct flag.
    + apply agree_put; [exact A | eapply fok_le; [apply A | lia] | apply A].
    + apply agree_norm; [exact A | eapply fok_le; [apply A | lia] | apply A].
Qed.
Lemma frun_ok dbg q : forall m r v m', agree m r v -> fmags m q = Some m' -> exists r', frun dbg r q = Some r' /\ agree m' r' (fsays v q).
Proof.
  induction q as [|i q IH]; intros m r v m' A M; cbn [fmags frun] in *.
  - injection M as <-. exists r. split; [reflexivity | exact A].
  - destruct (fmag m i) as [m1|] eqn:E; [|discriminate]. destruct (fstep_ok dbg _ _ _ _ _ A E) as (r1 & -> & A1). cbn [bind]. apply (IH _ _ _ _ A1 M).
Qed.

(** ** The theorems *)
Definition residues (r : nat -> field) : nat -> Z := fun i => match r i with Fe n0 n1 n2 n3 n4 n5 n6 n7 n8 n9 _ _ => radix 26 [n0; n1; n2; n3; n4; n5; n6; n7; n8; n9] mod p end.
Lemma residues_fv r i : residues r i = fv (r i) mod p.
Proof. unfold residues. destruct (r i). rewrite <- (radix_fv _ _ _ _ _ _ _ _ _ _ magnitude normalized). reflexivity. Qed.
Lemma agree_own m r v : agree m r v -> agree (fun i => f_mag (r i)) r v.
Proof. intros A i. split; [eapply fok_own; apply A | apply A]. Qed.
Lemma agree_start m r : (forall i, contract (m i) (r i)) -> agree m r (residues r).
Proof. intros C i. split; [apply C44_contract_pf, C | rewrite residues_fv; reflexivity]. Qed.
Lemma agree_end m r v : agree m r v -> forall i, contract (m i) (r i) /\ residues r i = v i.
Proof. intros A i. split; [apply C44_contract_pf, A | rewrite residues_fv; apply A]. Qed.

(** A program whose magnitudes, computed from its text alone, stay within the documented limits runs to its end in every build; every variable then holds the
    residue the program says, within the computed magnitude. *)
Lemma C96_field_programs_pf : forall dbg q r m m', (forall i, contract (m i) (r i)) -> fmags m q = Some m' ->
  exists r', frun dbg r q = Some r' /\ forall i, contract (m' i) (r' i) /\ residues r' i = fsays (residues r) q i.
Proof.
  intros dbg q r m m' C M. destruct (frun_ok dbg q _ _ _ _ (agree_start _ _ C) M) as (r' & E & A). exists r'. split; [exact E | exact (agree_end _ _ _ A)].
Qed.
(** The program ends, and in such a state. *)
Definition ends {A} (o : option (nat -> A)) (good : (nat -> A) -> Prop) : Prop := match o with Some r => good r | None => False end.
(** (x + 2)^2 - x for x = p - 1 in variable 0: 2. *)
Definition demo : list fins := [FInt 1 2; FAdd true 2 0 1; FMulTo false 2 2; FNeg 3 0 1; FAddTo true 2 3; FCopy 4 2; FNorm 4; FCmov 0 4 true].
Definition pm1 : field := Fe 67107886 67108799 67108863 67108863 67108863 67108863 67108863 67108863 67108863 4194303 1 true.
Lemma pm1_ok : contract 1 pm1.
Proof. unfold pm1. cbn [contract]. repeat apply conj; try lia; [repeat apply Forall_cons; try apply Forall_nil; lia | intros _; split; [lia | vmr]]. Qed.
Lemma C96_field_programs_example_pf : contract 1 pm1 /\ ends (fmags (fun _ => 1) demo) (fun m' => m' 2%nat = 3 /\ m' 4%nat = 1) /\
  fsays (residues (fun _ => pm1)) demo 0%nat = 2 /\
  ends (frun true (fun _ => pm1) demo) (fun r' => residues r' 0%nat = 2).
Proof. split; [exact pm1_ok|]. split; [vm_compute; split; reflexivity|]. split; vm_compute; reflexivity. Qed.

Definition is_norm (i : fins) : bool := match i with FNorm _ | FNormVar _ | FNormWeak _ => true | _ => false end.
Lemma set_int_lim x : 0 <= x -> f_set_int true x <> None -> x < 2 ^ 26.
Proof.
  intros X H. destruct (Z.ltb_spec x (2 ^ 26)) as [L|G]; [exact L|]. exfalso. apply H. 
  assert (V : f_verify (Fe x 0 0 0 0 0 0 0 0 0 1 true) = false). { cbn [f_verify]. rewrite (proj2 (Z.leb_gt x (67108863 * (1 * 1)))) by lia. reflexivity. }
  cbv beta delta [f_set_int]. change (bind (dassert true (f_verify (Fe x 0 0 0 0 0 0 0 0 0 1 true))) (fun _ => Some (Fe x 0 0 0 0 0 0 0 0 0 1 true)) = None). rewrite V. reflexivity.
Qed.
Lemma step_some {A B} (o : option A) (k : A -> option B) y : bind o k = Some y -> o <> None.
Proof. destruct o; discriminate. Qed.
Lemma inv_lim f : f_inv true f <> None -> f_mag f <= 8.
Proof.
  intros H. destruct (Z.leb_spec (f_mag f) 8) as [L|G]; [exact L|]. exfalso. apply H. unfold f_inv, f_chain223. rewrite (proj2 (proj2 (proj2 (proj2 (C44_limits_pf f f)))) G). reflexivity.
Qed.
Lemma fstep_lim r v i r' : agree (fun j => f_mag (r j)) r v -> ftyped i -> is_norm i = false -> fstep true r i = Some r' -> exists m', fmag (fun j => f_mag (r j)) i = Some m'.
Proof.
  intros A T C H. assert (POS : forall j, 0 <= f_mag (r j)) by (intros j; destruct (A j) as [(_ & _ & ?) _]; lia).
  destruct i as [d a|d x|br d a b|br d b|br d a b|br d b|d a|d a k|d k|d a|d|d|d|d b flag]; cbn [fmag ftyped is_norm] in *.
  - eexists; reflexivity.
  - revert H. forms. intros H. apply step_some, set_int_lim in H; [|lia]. rewrite (proj2 (Z.leb_le 0 x)), (proj2 (Z.ltb_lt x _)) by lia. eexists; reflexivity.
  - assert (E : f_add true (r a) (r b) <> None) by (revert H; destruct br; forms; apply step_some). destruct (Z.leb_spec (f_mag (r a) + f_mag (r b)) 32) as [L|G]; [eexists; reflexivity|].
    destruct E. apply (C44_limits_pf (r a) (r b)), G.
  - assert (E : f_add true (r d) (r b) <> None) by (revert H; destruct br; forms; apply step_some). destruct (Z.leb_spec (f_mag (r d) + f_mag (r b)) 32) as [L|G]; [eexists; reflexivity|].
    destruct E. apply (C44_limits_pf (r d) (r b)), G.
  - assert (E : f_mul true (r a) (r b) <> None) by (revert H; destruct br; forms; apply step_some).
    destruct (Z.leb_spec (f_mag (r a)) 8) as [L|G]; [|destruct E; apply (C44_limits_pf (r a) (r b)); left; exact G].
    destruct (Z.leb_spec (f_mag (r b)) 8) as [L'|G]; [eexists; reflexivity | destruct E; apply (C44_limits_pf (r a) (r b)); right; exact G].
  - assert (E : f_mul true (r d) (r b) <> None) by (revert H; destruct br; forms; apply step_some).
    destruct (Z.leb_spec (f_mag (r d)) 8) as [L|G]; [|destruct E; apply (C44_limits_pf (r d) (r b)); left; exact G].
    destruct (Z.leb_spec (f_mag (r b)) 8) as [L'|G]; [eexists; reflexivity | destruct E; apply (C44_limits_pf (r d) (r b)); right; exact G].
  - apply step_some in H. destruct (Z.leb_spec (f_mag (r a)) 8) as [L|G]; [eexists; reflexivity | destruct H; apply (C44_limits_pf (r a) (r a)), G].
  - apply step_some in H. destruct (Z.leb_spec (f_mag (r a)) k) as [L|G]; [|destruct H; apply (C44_limits_pf (r a) (r a)); left; exact G].
    destruct (Z.leb_spec k 31) as [L'|G]; [eexists; reflexivity | destruct H; apply (C44_limits_pf (r a) (r a)); right; exact G].
  - apply step_some in H. rewrite (proj2 (Z.leb_le 0 k)) by lia. destruct (Z.leb_spec (f_mag (r d) * k) 32) as [L|G]; [eexists; reflexivity | destruct H; apply (C44_limits_pf (r d) (r d)), G].
  - apply step_some, inv_lim in H. rewrite (proj2 (Z.leb_le _ 8)) by exact H. eexists; reflexivity.
  - discriminate C.
  - discriminate C.
  - discriminate C.
  - eexists; reflexivity.
Qed.
Lemma put_ref {A} (x y : option A) (r : nat -> A) d : ref x y -> ref (bind x (fun a => Some (put r d a))) (bind y (fun a => Some (put r d a))).
Proof. intros R r'. destruct x as [a|]; [|discriminate]. rewrite (R a eq_refl). trivial. Qed.
Lemma fstep_ref r i : ref (fstep true r i) (fstep false r i).
Proof.
  destruct i as [d a|d x|br d a b|br d b|br d a b|br d b|d a|d a k|d k|d a|d|d|d|d b flag]; [| | destruct br | destruct br | destruct br | destruct br |..]; forms;
    lazymatch goal with
    | |- ref (Some _) (Some _) => intros r' H; exact H
    | |- ref (bind ?x _) (bind ?y _) => apply (put_ref x y);
        lazymatch x with
        | f_set_int _ _ => apply f_set_int_ref | f_add _ _ _ => apply f_add_ref | f_mul _ _ _ => apply f_mul_ref | f_sqr _ _ => apply f_sqr_ref | f_neg _ _ _ => apply f_neg_ref
        | f_mul_int _ _ _ => apply f_mul_int_ref | f_inv _ _ => apply f_inv_ref | f_normalize _ _ => apply f_normalize_ref
        | f_normalize_var _ _ => apply f_normalize_var_ref | f_normalize_weak _ _ => apply f_normalize_weak_ref
        end
    end.
Qed.
Lemma weak_dbg f y : fok 32 f -> f_normalize_weak true f = Some y -> fok 1 y /\ fv y mod p = fv f mod p.
Proof.
  intros F H. destruct (f_norm f) eqn:N; [|exact (f_normalize_weak_debug f y F N H)].
  assert (F1 : fok 31 f). { destruct f as [n0 n1 n2 n3 n4 n5 n6 n7 n8 n9 m b]. destruct F as (A & V & M). split; [exact A|]. split; [exact V|]. cbn [f_mag f_norm] in *. apply verify_bounds in V; [|lia]. cbn zeta in V.
    destruct V as (_ & _ & _ & _ & L). specialize (L N). lia. }
  destruct (C44_normalize_pf true f F1) as (_ & _ & (y' & E & K & V)). rewrite H in E. injection E as <-. split; [exact K | exact V].
Qed.
Lemma fstep_dbg r v i r' : agree (fun j => f_mag (r j)) r v -> ftyped i -> fstep true r i = Some r' -> agree (fun j => f_mag (r' j)) r' (fsay v i).
Proof.
  intros A T H. assert (A32 : forall j, fok 32 (r j)). { intros j. destruct (A j) as [K _]. eapply fok_le; [exact K|]. apply C44_contract_pf in K. destruct (r j). cbn [contract f_mag] in *. lia. }
  destruct (is_norm i) eqn:N.
  - assert (G : forall d y, r' = put r d y -> fok 1 y -> fv y mod p = fv (r d) mod p -> agree (fun j => f_mag (r' j)) r' v).
    { intros d y -> K V. apply (agree_own (put (fun j => f_mag (r j)) d 1)). apply agree_norm; [exact A | exact K|]. rewrite V. apply A. }
    destruct i as [d a|d x|br d a b|br d b|br d a b|br d b|d a|d a k|d k|d a|d|d|d|d b flag]; try discriminate N; cbn [fstep fsay] in *.
    + destruct (f_normalize true (r d)) as [y|] eqn:E; [|discriminate H]. injection H as <-. destruct (f_normalize_debug _ _ (A32 d) E) as [[K _] V]. apply (G d y eq_refl K). rewrite V. apply Z.mod_mod. discriminate.
    + destruct (f_normalize_var true (r d)) as [y|] eqn:E; [|discriminate H]. injection H as <-. destruct (f_normalize_var_debug _ _ (A32 d) E) as [[K _] V]. apply (G d y eq_refl K). rewrite V. apply Z.mod_mod. discriminate.
    + destruct (f_normalize_weak true (r d)) as [y|] eqn:E; [|discriminate H]. injection H as <-. destruct (weak_dbg _ _ (A32 d) E) as [K V]. apply (G d y eq_refl K V).
  - destruct (fstep_lim _ _ _ _ A T N H) as (m' & M). destruct (fstep_ok true _ _ _ _ _ A M) as (r2 & E2 & A2). rewrite H in E2. injection E2 as <-. exact (agree_own _ _ _ A2).
Qed.
(** Whatever the program: if a debug build runs it to its end, its variables hold the residues the program says, within the contract, and a release build ends in
    the same state. *)
Lemma C96_debug_is_right_pf : forall q r r', (forall i, contract 32 (r i)) -> Forall ftyped q -> frun true r q = Some r' ->
  frun false r q = Some r' /\ forall i, contract 32 (r' i) /\ residues r' i = fsays (residues r) q i.
Proof.
  intros q r r' C. apply agree_start in C. apply agree_own in C. revert C. generalize (residues r) as v. revert r. induction q as [|i q IH]; intros r v A T H.
  - injection H as <-. split; [reflexivity|]. intros i. apply agree_end with (i := i) in A. destruct A as [A B]. split; [|exact B]. apply C44_contract_pf in A. apply C44_contract_pf.
    eapply fok_le; [exact A|]. apply C44_contract_pf in A. destruct (r i). cbn [contract f_mag] in *. lia.
  - inversion T as [|? ? TI TQ]; subst. cbn [frun] in *. destruct (fstep true r i) as [r1|] eqn:E; [|discriminate]. cbn [bind] in H.
    rewrite (fstep_ref _ _ _ E). cbn [bind]. exact (IH _ _ (fstep_dbg _ _ _ _ A TI E) TQ H).
Qed.
(** A program outside the computed limits that a debug build still accepts: it normalizes 32 (p - 1), of magnitude 32. *)
Definition bold : list fins := [FCopy 1 0; FMulInt 1 32; FNorm 1].
Lemma C96_debug_is_right_example_pf : contract 32 pm1 /\ Forall ftyped bold /\ fmags (fun _ => 1) bold = None /\ ends (frun true (fun _ => pm1) bold) (fun r' => residues r' 1%nat = p - 32).
Proof.
  split. { apply C44_contract_pf. eapply fok_le; [apply C44_contract_pf, pm1_ok | lia]. } split. { repeat apply Forall_cons; try apply Forall_nil; cbn [ftyped]; try exact Logic.I; lia. }
  split; vm_compute; reflexivity.
Qed.
(** Outside the limits a release build neither stops nor is right. *)
Definition doublings : list fins := [FAddTo true 0 0; FAddTo true 0 0; FAddTo true 0 0; FAddTo true 0 0; FAddTo true 0 0; FAddTo true 0 0; FAddTo true 0 0; FNorm 0].
Lemma C96_release_silent_refuted_pf : exists q r r', (forall i, contract 1 (r i)) /\ Forall ftyped q /\ frun true r q = None /\ frun false r q = Some r' /\ residues r' 0%nat <> fsays (residues r) q 0%nat.
Proof.
  destruct (frun false (fun _ => pm1) doublings) as [r'|] eqn:E; [|vm_compute in E; discriminate]. exists doublings, (fun _ => pm1), r'.
  split; [intros _; exact pm1_ok|]. split; [repeat apply Forall_cons; try apply Forall_nil; exact Logic.I|]. split; [vm_compute; reflexivity|]. split; [exact E|].
  assert (K : match frun false (fun _ => pm1) doublings with Some r' => residues r' 0%nat =? fsays (residues (fun _ => pm1)) doublings 0%nat | None => true end = false) by (vm_compute; reflexivity).
  rewrite E in K. apply Z.eqb_neq in K. exact K.
Qed.
(** Two disciplined programs that say the same about a variable and normalize it last serialize it to the same bytes, those of the residue, in every build. *)
Lemma C96_same_bytes_pf : forall dbg q q' r r0 m m' m1 m1' d, (forall i, contract (m i) (r i)) -> (forall i, contract (m' i) (r0 i)) ->
  fmags m (q ++ [FNorm d]) = Some m1 -> fmags m' (q' ++ [FNormVar d]) = Some m1' -> fsays (residues r) q d = fsays (residues r0) q' d ->
  exists e e', frun dbg r (q ++ [FNorm d]) = Some e /\ frun dbg r0 (q' ++ [FNormVar d]) = Some e' /\
    f_b32 dbg (e d) = Some (be_bytes 32 (fsays (residues r) q d)) /\ f_b32 dbg (e' d) = Some (be_bytes 32 (fsays (residues r) q d)).
Proof.
  assert (SPLIT : forall dbg q i r, frun dbg r (q ++ [i]) = bind (frun dbg r q) (fun r1 => fstep dbg r1 i)).
  { intros dbg. induction q as [|j q IH]; intros i r; cbn [app frun]; [cbn [bind]; apply bind_id|]. destruct (fstep dbg r j) as [r1|]; [cbn [bind]; apply IH | reflexivity]. }
  assert (MS : forall q i m m1, fmags m (q ++ [i]) = Some m1 -> exists m0, fmags m q = Some m0 /\ fmag m0 i = Some m1).
  { induction q as [|j q IH]; intros i m m1; cbn [app fmags]; [destruct (fmag m i) as [x|] eqn:EX; [intros [= <-]; exists m; split; [reflexivity | exact EX] | discriminate]|].
    destruct (fmag m j) as [m2|]; [apply IH | discriminate]. }
  intros dbg q q' r r0 m m' m1 m1' d C C' M M' S.
  destruct (MS _ _ _ _ M) as (m0 & Q & N). destruct (MS _ _ _ _ M') as (m0' & Q' & N').
  destruct (frun_ok dbg q _ _ _ _ (agree_start _ _ C) Q) as (e & E & A). destruct (frun_ok dbg q' _ _ _ _ (agree_start _ _ C') Q') as (e' & E' & A').
  cbn [fmag] in N, N'. destruct (Z.leb_spec (m0 d) 31) as [L|]; [|discriminate]. destruct (Z.leb_spec (m0' d) 31) as [L'|]; [|discriminate].
  destruct (C44_normalize_pf dbg (e d) (fok_le _ _ _ (proj1 (A d)) L)) as ((y & EY & Y & V) & _). destruct (C44_normalize_pf dbg (e' d) (fok_le _ _ _ (proj1 (A' d)) L')) as (_ & (y' & EY' & Y' & V') & _).
  rewrite !SPLIT, E, E'. cbn [bind fstep]. rewrite EY, EY'. cbn [bind]. do 2 eexists. split; [reflexivity|]. split; [reflexivity|]. unfold put. rewrite Nat.eqb_refl.
  rewrite (proj2 (A d)) in V. rewrite (proj2 (A' d)), <- S in V'. rewrite <- V at 1. rewrite <- V'. split; [apply C46_b32_pf, Y | apply C46_b32_pf, Y'].
Qed.
(** (x + 1)^2 and x * x + 2 x + 1. *)
Definition way1 : list fins := [FInt 1 1; FAdd false 2 0 1; FSqr 2 2].
Definition way2 : list fins := [FInt 1 1; FCopy 3 0; FMulInt 3 2; FMul true 2 0 0; FAddTo true 2 3; FAddTo false 2 1].
Lemma C96_same_bytes_example_pf : fmags (fun _ => 1) (way1 ++ [FNorm 2]) <> None /\ fmags (fun _ => 1) (way2 ++ [FNormVar 2]) <> None /\
  (forall v, fsays v way1 2%nat = fsays v way2 2%nat).
Proof.
  split; [vm_compute; discriminate|]. split; [vm_compute; discriminate|]. intros v. cbn [fsays way1 way2 fold_left fsay]. unfold put. cbn [Nat.eqb].
  change (1 mod p) with 1. rewrite <- Z.mul_mod by discriminate. rewrite <- (Z.add_mod (v 0%nat * v 0%nat)) by discriminate. rewrite Z.add_mod_idemp_l by discriminate. f_equal. ring.
Qed.

(** * Scalar programs *)
Lemma sstep_ok dbg r v i : (forall j, r j = scalar_of (v j) /\ 0 <= v j < n) -> styped i ->
  exists r', sstep dbg r i = Some r' /\ forall j, r' j = scalar_of (ssay v i j) /\ 0 <= ssay v i j < n.
Proof.
  intros A T. assert (PUT : forall d c, 0 <= c < n -> forall j, put r d (scalar_of c) j = scalar_of (put v d c j) /\ 0 <= put v d c j < n).
  { intros d c Hc j. unfold put. destruct (Nat.eqb j d); [split; [reflexivity | exact Hc] | apply A]. }
  assert (NP : forall x, 0 <= x mod n < n) by (intros; apply Z.mod_pos_bound; reflexivity).
  assert (NV : forall j, r j = scalar_of (v j)) by (intros; apply A). assert (R : forall j, 0 <= v j < n) by (intros; apply A).
  destruct i as [d a|d x|br d a b|br d b|br d a b|br d b|d a|br d a|d flag|d a]; cbn [sstep ssay styped] in *; try destruct br;
    unfold s_add_rr, s_add_vv, s_add_assign_v, s_mul_rr, s_mul_vv, s_mul_assign_v, s_mul_assign_r, s_neg_r, s_neg_v;
    repeat match goal with |- context [bind (Some ?x) ?f] => change (bind (Some x) f) with (f x) end; cbv beta; rewrite ?bind_id; rewrite ?NV;
    try rewrite (proj1 (C47_ring_pf dbg _ _ (R _) (R _))); try rewrite (proj1 (proj2 (C47_ring_pf dbg _ _ (R _) (R _))));
    try rewrite (proj1 (proj2 (proj2 (C47_ring_pf dbg _ _ (R _) (R 0%nat))))); try rewrite (proj2 (proj2 (proj2 (proj2 (C47_ring_pf dbg _ _ (R _) (R 0%nat))))));
    cbn [bind].
  - eexists. split; [reflexivity | apply PUT, R].
  - eexists. split; [reflexivity|]. assert (X : 0 <= x < n). { destruct T as [T1 T2]. split; [exact T1|]. eapply Z.lt_trans; [exact T2 | reflexivity]. }
    assert (E : s_from_int x = scalar_of x). { destruct (s_from_int_ok x ltac:(red; change (2 ^ 32) with 4294967296 in T; lia)) as [[SU _] SV]. rewrite (scalar_of_id _ SU), SV. reflexivity. } rewrite E. apply PUT, X.
  - eexists. split; [reflexivity | apply PUT, NP].
  - eexists. split; [reflexivity | apply PUT, NP].
  - eexists. split; [reflexivity | apply PUT, NP].
  - eexists. split; [reflexivity | apply PUT, NP].
  - eexists. split; [reflexivity | apply PUT, NP].
  - eexists. split; [reflexivity | apply PUT, NP].
  - eexists. split; [reflexivity | apply PUT, NP].
  - eexists. split; [reflexivity | apply PUT, NP].
  - eexists. split; [reflexivity | apply PUT, NP].
  - eexists. split; [reflexivity | apply PUT, NP].
  - eexists. split; [reflexivity | apply PUT, NP].
  - eexists. split; [reflexivity|]. destruct flag; [apply PUT, NP|]. intros j. unfold put. destruct (Nat.eqb_spec j d) as [->|?]; [split; [reflexivity | apply R] | apply A].
  - pose proof n_lt as NL. pose proof (R a) as RA. rewrite s_inv_eq by lia. cbn [bind]. eexists. split; [reflexivity | apply PUT, inv_mod_range; reflexivity].
Qed.
(** A program on scalars needs no discipline: it runs to its end in every build and every variable holds the number the program says. *)
Lemma C96_scalar_programs_pf : forall dbg q r v, (forall j, r j = scalar_of (v j) /\ 0 <= v j < n) -> Forall styped q ->
  exists r', srun dbg r q = Some r' /\ forall j, r' j = scalar_of (ssays v q j) /\ 0 <= ssays v q j < n.
Proof.
  intros dbg. induction q as [|i q IH]; intros r v A T; [exists r; split; [reflexivity | exact A]|].
  inversion T as [|? ? TI TQ]; subst. destruct (sstep_ok dbg r v i A TI) as (r1 & E & A1). cbn [srun]. rewrite E. cbn [bind]. exact (IH _ _ A1 TQ).
Qed.
(** k (m + r d): variables 0 k, 1 m, 2 r, 3 d. *)
Definition signlike : list sins := [SMul true 4 2 3; SAddTo true 4 1; SMulTo false 4 0; SNeg false 4 4; SInt 5 1; SCondNeg 4 true].
Lemma C96_scalar_programs_example_pf : Forall styped signlike /\ ssays (fun j => nth j [2; n - 1; 3; 5] 0) signlike 4%nat = 28 /\
  ends (srun true (fun j => scalar_of (nth j [2; n - 1; 3; 5] 0)) signlike) (fun r' => r' 4%nat = scalar_of 28).
Proof. split; [repeat apply Forall_cons; try apply Forall_nil; cbn [styped]; try exact Logic.I; lia|]. split; vm_compute; reflexivity. Qed.
