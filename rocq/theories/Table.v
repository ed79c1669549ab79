(** Tables of odd multiples. *)
From Coq Require Import Znumtheory Field.
From Verif Require Import Word MField MGroup MEcmult WP FieldMul FieldNorm FieldZero Spec Fp Bits FieldOps FieldCodec FieldStore Curve Group Chain ScalarMore Order Jac JacOps.

(** [m A], [(m+2) A], ... *)
Fixpoint odds (A : E) (k : nat) (m : Z) : list E :=
  match k with O => [] | S k' => emul m A :: odds A k' (m + 2) end.
Lemma odds_len A k : forall m, length (odds A k m) = k.
Proof. induction k; intros m; cbn; [reflexivity | rewrite IHk; reflexivity]. Qed.
Lemma odds_nth A k : forall m i, (i < k)%nat -> nth_error (odds A k m) i = Some (emul (m + 2 * Z.of_nat i) A).
Proof.
  induction k; intros m i H; [lia|]. destruct i; cbn [odds nth_error].
  - do 2 f_equal. lia.
  - rewrite IHk by lia. do 2 f_equal. lia.
Qed.

(** the entries, last first: each point, and how its z coordinate arises from the previous one *)
Fixpoint RC (u : F) (la : list jac) (lz : list field) (lA : list E) : Prop :=
  match la, lz, lA with
  | a :: la', z :: lz', A :: lA' =>
      jok u a A /\ j_inf a = false /\
      (match la' with [] => True | a' :: _ => exists e, frep 6 z e /\ (fe (j_z a') * e = fe (j_z a))%F end) /\ RC u la' lz' lA'
  | [], [], [] => True
  | _, _, _ => False
  end.
Lemma RC_len u : forall la lz lA, RC u la lz lA -> length la = length lA /\ length lz = length lA.
Proof.
  induction la; intros [|z lz] [|A lA] H; cbn in H; try contradiction; [split; reflexivity|].
  destruct H as (_ & _ & _ & H). apply IHla in H. cbn. lia.
Qed.

Lemma Forall2_nth {X Y} (R : X -> Y -> Prop) l m : Forall2 R l m -> forall i y, nth_error m i = Some y -> exists x, nth_error l i = Some x /\ R x y.
Proof.
  induction 1 as [|x y l m H _ IH]; intros i z Hi; [destruct i; discriminate|].
  destruct i; cbn in *; [injection Hi as <-; eauto | apply IH, Hi].
Qed.

Section B.
Variable dbg : bool.

Lemma odd_neq A m : A <> e0 -> 0 < m < n - 2 -> m mod 2 = 1 ->
  emul m A <> e0 /\ emul m A <> emul 2 A /\ emul m A <> eopp (emul 2 A).
Proof.
  intros N H O. assert (2 < n) by (rewrite n_eq; reflexivity). repeat split; intros E0.
  - apply emul_eq0 in E0; [|exact N]. rewrite Z.mod_small in E0 by lia. lia.
  - apply emul_inj in E0; [|exact N]. rewrite !Z.mod_small in E0 by lia. subst m. discriminate O.
  - rewrite <- emul_opp in E0. apply emul_inj in E0; [|exact N]. rewrite Z.mod_small in E0 by lia.
    change (- (2)) with (-2) in E0. rewrite <- (Z.mod_add (-2) 1 n), Z.mod_small in E0 by lia. lia.
Qed.

Lemma odd_mult_loop_ok u A d : A <> e0 -> aok 6 u d (emul 2 A) -> forall k m prev la lz lA,
  0 < m -> m mod 2 = 1 -> m + 2 * Z.of_nat k < n - 2 ->
  RC u (prev :: la) lz (emul m A :: lA) ->
  wp (odd_mult_loop dbg k prev d) (fun '(pj, zr) => length pj = k /\
    RC u (rev pj ++ prev :: la) (rev zr ++ lz) (rev (odds A k (m + 2)) ++ emul m A :: lA)).
Proof.
  intros N D. induction k; intros m prev la lz lA Hm Om Lm H.
  - apply wp_some. split; [reflexivity | exact H].
  - destruct (odd_neq A m N ltac:(lia) Om) as (N1 & N2 & N3).
    destruct lz as [|z0 lz]; [destruct H|]. pose proof H as (J & I & _). cbn [odd_mult_loop].
    eapply wp_bind; [apply j_add_ge_var_ok; [exact J | exact D | right; exact I]|].
    cbv beta. intros [nx z] (JN & Z).
    assert (N4 : emul 2 A <> e0).
    { intros E0. apply emul_eq0 in E0; [|exact N]. rewrite Z.mod_small in E0 by lia. lia. }
    destruct (Z N1 N4 N2 N3 ltac:(discriminate)) as (f & e & -> & FE & ZE).
    rewrite <- emul_add in JN. cbv [bind].
    assert (O' : (m + 2) mod 2 = 1) by (rewrite Z.add_mod, Om by lia; reflexivity).
    assert (IN : j_inf nx = false).
    { apply (jok_fin _ _ _ JN). intros E0. apply emul_eq0 in E0; [|exact N]. rewrite Z.mod_small in E0 by lia. lia. }
    assert (RN : RC u (nx :: prev :: la) (f :: z0 :: lz) (emul (m + 2) A :: emul m A :: lA)).
    { cbn [RC]. split; [exact JN|]. split; [exact IN|]. split; [exists e; split; [exact FE | congruence] | exact H]. }
    specialize (IHk (m + 2) nx (prev :: la) (f :: z0 :: lz) (emul m A :: lA) ltac:(lia) O' ltac:(lia) RN).
    apply wp_inv in IHk. destruct IHk as ([pj zr] & -> & L & R). cbn. split; [lia|].
    rewrite <- !app_assoc. exact R.
Qed.

Lemma scale_last_ok dz e : frep 6 dz e -> forall l a, fok 6 (j_z a) ->
  wp (scale_last dbg (l ++ [a]) dz) (fun r => exists z, r = l ++ [Ja (j_x a) (j_y a) z (j_inf a)] /\ frep 1 z (fe (j_z a) * e)%F).
Proof.
  intros D l a Z. apply fok_frep in Z. induction l as [|b l IH].
  - cbn [app scale_last]. fs. apply wp_some. eexists. split; [reflexivity | eassumption].
  - cbn [app scale_last]. destruct (l ++ [a]) eqn:EL; [destruct l; discriminate|]. rewrite <- EL in *.
    eapply wp_bind; [exact IH|]. cbv beta. intros r (z & -> & R). apply wp_some. exists z. split; [reflexivity | exact R].
Qed.

(** the table before conversion: [al] last entry (on the curve), [ra] the other ones (scaled by [u]) *)
Definition pre_table (u : F) (prej : list jac) (zr : list field) (pts : list E) : Prop :=
  exists al al0 ra lA A, rev prej = al :: ra /\ rev pts = A :: lA /\ RC u (al0 :: ra) (rev zr) (A :: lA) /\
    jok f1 al A /\ j_inf al = false /\ j_x al = j_x al0 /\ j_y al = j_y al0 /\ fe (j_z al) = (fe (j_z al0) * u)%F.

Lemma jpt_dz u j A : jok u j A -> j_inf j = false -> fe (j_z j) <> f0 /\ u <> f0.
Proof. intros (_ & _ & _ & H) I. rewrite I in H. destruct H as [H _]. split; intros E0; apply H; rewrite E0; ring. Qed.

Lemma odd_multiples_table_ok k a A : jok f1 a A -> A <> e0 -> 2 * Z.of_nat k < n - 2 -> k <> O ->
  wp (odd_multiples_table dbg k a) (fun '(prej, zr) => length prej = k /\ length zr = k /\ exists u, u <> f0 /\ pre_table u prej zr (odds A k 1)).
Proof.
  intros J N L K. pose proof (jok_fin _ _ _ J N) as I. unfold odd_multiples_table.
  apply wp_dassert; [destruct k; [congruence | reflexivity]|]. apply wp_dassert; [rewrite I; reflexivity|].
  assert (2 < n) by (rewrite n_eq; reflexivity).
  eapply wp_bind; [apply j_double_ok; exact J|]. cbv beta. intros d (JD & ID). rewrite I in ID. rewrite <- emul_double, Z.mul_1_r in JD || idtac.
  assert (JD' : jok f1 d (emul 2 A)) by (replace (emul 2 A) with (eadd A A); [exact JD | rewrite <- (emul_1 A) at 1 2; rewrite <- emul_add; reflexivity]). clear JD.
  destruct k as [|k]; [congruence|]. cbv [bind]. fold (@bind affine (list jac * list field)).
  pose proof (jpt_dz _ _ _ JD' ID) as [NU _]. set (u := fe (j_z d)) in *.
  pose proof JD' as (DX & DY & DZ & DP). rewrite ID in DP.
  assert (RD : aok 6 u (Af (j_x d) (j_y d) false) (emul 2 A)).
  { eapply aok_intro; [apply fok_frep, DX | apply fok_frep, DY |]. eapply jpt_ext; [exact DP | reflexivity | reflexivity | unfold u; ring]. }
  pose proof (af_set_gej_zinv_ok dbg f1 (fe (j_z a) * f1 * u)%F u a (j_z d) A J (fok_frep _ _ DZ) NU ltac:(reflexivity)) as Z.
  apply wp_inv in Z. destruct Z as (ag & -> & AG & _ & AX & AY).
  set (p0 := Ja (af_x ag) (af_y ag) (j_z a) false).
  assert (J0 : jok u p0 (emul 1 A)).
  { rewrite emul_1. pose proof J as (_ & _ & JZ & JP). rewrite I in JP.
    eapply jok_intro; [exact AX | exact AY | apply fok_frep, JZ | lia | lia | lia|].
    eapply jpt_ext; [exact (jpt_scale u _ _ _ _ NU JP) | reflexivity | reflexivity | ring]. }
  assert (R0 : RC u [p0] [j_z d] [emul 1 A]) by (cbn [RC]; split; [exact J0|]; split; [reflexivity|]; split; exact Logic.I).
  pose proof (odd_mult_loop_ok u A _ N RD k 1 p0 [] [j_z d] [] ltac:(lia) eq_refl ltac:(lia) R0) as LP.
  apply wp_inv in LP. destruct LP as ([pj zr] & -> & LEN & RCL).
  replace (rev pj ++ [p0]) with (rev (p0 :: pj)) in RCL by reflexivity.
  replace (rev zr ++ [j_z d]) with (rev (j_z d :: zr)) in RCL by reflexivity.
  replace (rev (odds A k (1 + 2)) ++ [emul 1 A]) with (rev (odds A (S k) 1)) in RCL by reflexivity.
  destruct (exists_last (l := p0 :: pj) ltac:(discriminate)) as (l & al & EL).
  rewrite EL in *. rewrite rev_app_distr in RCL. cbn [rev app] in RCL.
  pose proof (RC_len _ _ _ _ RCL) as [L1 L2].
  destruct (rev zr ++ [j_z d]) as [|zl lz] eqn:EZ; [destruct RCL|].
  destruct (rev (odds A (S k) 1)) as [|AL lA] eqn:EA; [destruct RCL|].
  pose proof RCL as (JL & IL & _).
  pose proof JL as (_ & _ & JLZ & JLP). rewrite IL in JLP.
  pose proof (scale_last_ok (j_z d) u (fok_frep _ _ DZ) l al JLZ) as SL. apply wp_inv in SL. destruct SL as (prej & -> & z & -> & ZR).
  cbn.
  assert (LL : length (l ++ [al]) = S k) by (rewrite <- EL; cbn; lia).
  split; [rewrite app_length in *; exact LL|].
  split. { apply (f_equal (@length field)) in EZ. rewrite app_length, rev_length in EZ. cbn [length] in EZ, L2. rewrite Nat.add_comm in EZ. cbn [length]. cbn [Nat.add] in EZ. rewrite EZ. rewrite L2.
    apply (f_equal (@length E)) in EA. rewrite rev_length, odds_len in EA. exact (eq_sym EA). }
  exists u. split; [exact NU|]. exists (Ja (j_x al) (j_y al) z (j_inf al)), al, (rev l), lA, AL.
  rewrite rev_app_distr. split; [reflexivity|]. split; [exact EA|]. split; [cbn [rev]; rewrite EZ; exact RCL|].
  pose proof JL as (LX & LY & _ & _).
  split; [|split; [exact IL | split; [reflexivity | split; [reflexivity | exact (frep_fe _ _ _ ZR)]]]].
  eapply jok_intro; [apply fok_frep, LX | apply fok_frep, LY | exact ZR | lia | lia | lia |]. rewrite IL.
  eapply jpt_ext; [exact JLP | reflexivity | reflexivity | ring].
Qed.

Definition aokf (k : Z) (u : F) (a : affine) (A : E) : Prop := aok k u a A /\ af_inf a = false.
Lemma set_table_loop_ok u v : u <> f0 -> v <> f0 -> forall ra rzr lA a0 A0 zi c acc Q, RC u (a0 :: ra) rzr (A0 :: lA) ->
  frep 6 zi c -> (fe (j_z a0) * u * c = v)%F -> Forall2 (aokf 6 v) acc Q ->
  wp (set_table_loop dbg ra rzr zi acc) (fun t => Forall2 (aokf 6 v) t (rev lA ++ Q)).
Proof.
  intros NU NV. induction ra as [|a ra IH]; intros rzr lA a0 A0 zi c acc Q H C HC HQ.
  - destruct rzr as [|z rzr]; [destruct H|]. destruct H as (_ & _ & _ & H). destruct rzr, lA; try contradiction. exact HQ.
  - destruct rzr as [|z rzr]; [destruct H|]. destruct H as (_ & _ & (e & ZE & LE) & H).
    destruct rzr as [|z1 rzr]; [destruct H|]. destruct lA as [|A lA]; [destruct H|]. pose proof H as (J & I & _).
    cbn [set_table_loop]. fs.
    match goal with K : frep 1 ?zz (c * e)%F |- _ => pose proof K as R1 end.
    assert (HC' : (fe (j_z a) * u * (c * e) = v)%F) by (rewrite <- HC, <- LE; ring).
    assert (NC : (c * e <> 0)%F) by (intros E0; apply NV; rewrite <- HC', E0; ring).
    eapply wp_bind; [apply (af_set_gej_zinv_ok dbg u v (c * e)%F _ _ A J (frep_mono _ 6 _ _ R1 ltac:(lia)) NC); intros _; exact HC'|].
    cbv beta. intros r (R & RI & _).
    eapply wp_mono; [apply (IH (z1 :: rzr) lA a A _ (c * e)%F (r :: acc) (A :: Q) H (frep_mono _ 6 _ _ R1 ltac:(lia)) HC')|].
    + constructor; [split; [exact (aok_mono _ 6 _ _ _ R ltac:(lia)) | congruence] | exact HQ].
    + cbv beta. intros t T. cbn [rev]. rewrite <- app_assoc. exact T.
Qed.

Lemma set_table_gej_var_ok u prej zr pts : u <> f0 -> pre_table u prej zr pts ->
  wp (set_table_gej_var dbg prej zr) (fun t => Forall2 (aokf 6 f1) t pts).
Proof.
  intros NU (al & al0 & ra & lA & A & EP & ET & R & J & I & _ & _ & ZE). unfold set_table_gej_var. rewrite EP.
  pose proof (jpt_dz _ _ _ J I) as [NZ _]. pose proof J as (_ & _ & JZ & _). apply fok_frep in JZ.
  fs. match goal with K : frep 1 ?zz (finv ?e) |- _ => pose proof K as R1; set (c := finv e) in * end.
  assert (HC : (fe (j_z al) * f1 * c = f1)%F) by (unfold c; field; exact NZ).
  assert (NC : c <> f0) by (intros E0; apply f1_neq_f0; rewrite <- HC, E0; ring).
  eapply wp_bind; [apply (af_set_gej_zinv_ok dbg f1 f1 c _ _ A J (frep_mono _ 6 _ _ R1 ltac:(lia)) NC); intros _; exact HC|].
  cbv beta. intros r (RR & RI & _).
  eapply wp_mono; [eapply (set_table_loop_ok u f1 NU f1_neq_f0 _ _ _ _ _ _ c [r] [A] R (frep_mono _ 6 _ _ R1 ltac:(lia)))|].
  - rewrite <- HC, ZE. ring.
  - constructor; [split; [exact (aok_mono _ 6 _ _ _ RR ltac:(lia)) | congruence] | constructor].
  - cbv beta. intros t T. replace pts with (rev (A :: lA)) by (rewrite <- ET; apply rev_involutive). exact T.
Qed.

Lemma globalz_set_table_gej_ok u prej zr pts : u <> f0 -> length prej = length zr -> pre_table u prej zr pts ->
  wp (globalz_set_table_gej dbg prej zr) (fun '(t, z) => exists v, v <> f0 /\ frep 6 z v /\ Forall2 (aokf 6 v) t pts).
Proof.
  intros NU LEN (al & al0 & ra & lA & A & EP & ET & R & J & I & EX & EY & ZE). unfold globalz_set_table_gej.
  apply wp_dassert; [apply Nat.eqb_eq, LEN|]. rewrite EP.
  destruct (rev zr) as [|zl rzr] eqn:EZ; [destruct R|]. cbv [bind]. fold (@bind (list affine) (list affine * field)). fold (@bind affine (list affine * field)).
  pose proof (jpt_dz _ _ _ J I) as [NZ _]. pose proof J as (JX & JY & JZ & JP). rewrite I in JP.
  set (v := fe (j_z al)) in *.
  assert (RA : aokf 6 v (Af (j_x al) (j_y al) false) A).
  { split; [|reflexivity]. eapply aok_intro; [apply fok_frep, JX | apply fok_frep, JY |]. apply (proj1 (jpt_mul1 _ _ _ _)) in JP. exact JP. }
  assert (PT : pts = rev (A :: lA)) by (rewrite <- ET; symmetry; apply rev_involutive).
  destruct R as (_ & _ & LK & R').
  destruct ra as [|a1 ra].
  - apply wp_some. exists v. split; [exact NZ|]. split; [apply fok_frep, JZ|]. destruct rzr, lA; try contradiction. rewrite PT. constructor; [exact RA | constructor].
  - destruct LK as (e & ZLE & LE). destruct rzr as [|z1 rzr]; [destruct R'|]. destruct lA as [|A1 lA]; [destruct R'|].
    pose proof R' as (J1 & I1 & _).
    assert (HC : (fe (j_z a1) * u * e = v)%F) by (rewrite ZE, <- LE; ring).
    assert (NE : e <> f0) by (intros E0; apply NZ; rewrite <- HC, E0; ring).
    pose proof (af_set_gej_zinv_ok dbg u v e a1 zl A1 J1 ZLE NE ltac:(intros _; exact HC)) as W. apply wp_inv in W.
    destruct W as (r1 & -> & R1 & RI1 & _).
    pose proof (set_table_loop_ok u v NU NZ ra (z1 :: rzr) lA a1 A1 zl e [r1; Af (j_x al) (j_y al) false] [A1; A] R' ZLE HC) as W.
    assert (W' : Forall2 (aokf 6 v) [r1; Af (j_x al) (j_y al) false] [A1; A]).
    { constructor; [split; [exact (aok_mono _ 6 _ _ _ R1 ltac:(lia)) | congruence]|]. constructor; [exact RA | constructor]. }
    apply W in W'. apply wp_inv in W'. destruct W' as (t & -> & T).
    cbn. exists v. split; [exact NZ|]. split; [apply fok_frep, JZ|]. rewrite PT. cbn [rev]. rewrite <- !app_assoc. exact T.
Qed.

(** the scaled table used by [ecmult] and [ecmult_const] *)
Lemma table_windowa_ok a A : jok f1 a A -> A <> e0 ->
  wp (odd_multiples_table_globalz_windowa dbg a) (fun '(t, z) => exists v, v <> f0 /\ frep 6 z v /\ Forall2 (aokf 6 v) t (odds A 8 1)).
Proof.
  intros J N. unfold odd_multiples_table_globalz_windowa. eapply wp_bind; [apply odd_multiples_table_ok; [exact J | exact N | rewrite n_eq; reflexivity | discriminate]|].
  cbv beta. intros [prej zr] (L1 & L2 & u & NU & T). apply (globalz_set_table_gej_ok u); [exact NU | congruence | exact T].
Qed.

Lemma mapo_ok {X Y Z} (f : X -> option Y) (R : X -> Z -> Prop) (S : Y -> Z -> Prop) l m :
  Forall2 R l m -> (forall x z, R x z -> wp (f x) (fun y => S y z)) -> wp (mapo f l) (fun r => Forall2 S r m).
Proof.
  intros H F. induction H as [|x z l m H _ IH]; cbn [mapo]; [constructor|].
  eapply wp_bind; [apply F; exact H|]. cbv beta. intros y Y0. eapply wp_bind; [exact IH|]. cbv beta. intros r R0. apply wp_some. constructor; assumption.
Qed.

(** the storage table of any size *)
Lemma table_storage_ok k a A : jok f1 a A -> A <> e0 -> 2 * Z.of_nat k < n - 2 -> k <> O ->
  wp (odd_multiples_table_storage_var dbg k a) (fun t => Forall2 asok t (odds A k 1)).
Proof.
  intros J N L K. unfold odd_multiples_table_storage_var. eapply wp_bind; [apply odd_multiples_table_ok; [exact J | exact N | exact L | exact K]|].
  cbv beta. intros [prej zr] (L1 & L2 & u & NU & T). eapply wp_bind; [apply (set_table_gej_var_ok u); [exact NU | exact T]|].
  cbv beta. intros t H. eapply mapo_ok; [exact H|]. intros x z [X I]. eapply af_to_storage_ok; [exact X | lia | exact I].
Qed.

Lemma AFFINE_G_ok : aok 1 f1 AFFINE_G eG.
Proof.
  unfold AFFINE_G. eapply aok_intro.
  - apply fcrep1, f_new_rep; [unfold u32x8, u32; lia | reflexivity].
  - apply fcrep1, f_new_rep; [unfold u32x8, u32; lia | reflexivity].
  - apply jpt_affine. change (pt eG) with (FAff (toF gx) (toF gy)). f_equal; f_equal; reflexivity.
Qed.

(** [ECMultContext]: the odd multiples of the generator *)
Definition ctx_ok (c : ecctx) : Prop := match c with Ctx t => Forall2 asok t (odds eG ECMULT_TABLE_SIZE_G 1) end.
Lemma ecmult_context_new_ok : wp (ecmult_context_new dbg) ctx_ok.
Proof.
  unfold ecmult_context_new. eapply wp_bind; [apply j_set_ge_ok; exact (aok_mono _ 6 _ _ _ AFFINE_G_ok ltac:(lia))|].
  cbv beta. intros gj (J & _). eapply wp_bind; [apply table_storage_ok; [exact J | exact eG_neq0 | |]|].
  - unfold ECMULT_TABLE_SIZE_G. rewrite Z2Nat.id by lia. rewrite n_eq. reflexivity.
  - unfold ECMULT_TABLE_SIZE_G. intros E0. apply (f_equal Z.of_nat) in E0. rewrite Z2Nat.id in E0 by lia. discriminate E0.
  - cbv beta. intros t T. exact T.
Qed.
End B.
