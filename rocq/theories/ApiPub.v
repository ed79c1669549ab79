(** Public key encodings, equality, negation and storage. *)
From Coq Require Import Znumtheory Field.
From Verif Require Import Word MField MScalar MGroup MDer MApi WP FieldMul FieldNorm Spec Fp Bits FieldOps FieldCodec FieldStore Denote Curve Group Chain Order Jac JacOps Table Lift Key ApiScalar.

Lemma bytes_be k v : bytes (be_bytes k v).
Proof. induction k; constructor; [apply Z.mod_pos_bound; lia | assumption]. Qed.
Lemma p_lt256 : p < 2 ^ 256. Proof. rewrite p_eq. reflexivity. Qed.
Lemma on_aff x y : on_curve (Aff x y) -> exists A, sp A = Aff x y /\ pt A = FAff (toF x) (toF y) /\ 0 <= x < p /\ 0 <= y < p.
Proof.
  intros O. destruct (sp_surj _ O) as [A HA]. exists A. split; [exact HA|]. destruct O as (X & Y & _).
  unfold sp in HA. destruct (pt A) as [|u v]; [discriminate HA|]. cbn [spt] in HA. injection HA as <- <-. rewrite !toF_val. auto.
Qed.
Lemma wp_ex {A} (o : option A) Q : wp o Q -> exists a, o = Some a /\ Q a.
Proof. intros H. apply wp_inv in H. exact H. Qed.

Section B.
Variable dbg : bool.
Lemma f_eq_var_wk f g e e' : frep 1 f e -> frep 1 g e' -> wp (f_eq_var dbg f g) (fun b => b = feqb e e').
Proof. intros A B. eapply wp_mono; [apply (f_eq_var_rep dbg f g e e' 1); [exact A | exact B | lia]|]. cbv beta. auto. Qed.
Lemma af_is_valid_var_ok a x y : frep 8 (af_x a) x -> frep 8 (af_y a) y -> af_inf a = false ->
  wp (af_is_valid_var dbg a) (fun b => b = true <-> onc (FAff x y)).
Proof.
  intros X Y I. unfold af_is_valid_var. rewrite I. do 3 fs. eapply wp_bind; [apply f_set_int_rep; unfold CURVE_B; lia|]. cbv beta. intros c C.
  fs. fs. eapply wp_mono; [eapply f_eq_var_wk; fr|]. cbv beta. intros b ->. rewrite onc_eq.
  replace (x * x * x + toF CURVE_B)%F with (x * x * x + b7)%F by reflexivity.
  destruct (feqb_spec (y * y)%F (x * x * x + b7)%F); intuition congruence.
Qed.
End B.
Lemma onc_Aff x y : 0 <= x < p -> 0 <= y < p -> (onc (FAff (toF x) (toF y)) <-> on_curve (Aff x y)).
Proof. intros X Y. rewrite onc_spec. cbn [spt]. rewrite !val_toF, !Z.mod_small by assumption. reflexivity. Qed.

(** * C03 *)
Lemma key_at_intro x y fx fy : fcrep fx (toF x) -> fcrep fy (toF y) -> on_curve (Aff x y) -> key_at (Af fx fy false) (Aff x y).
Proof.
  intros X Y O. destruct (on_aff _ _ O) as (A & HA & PA & _). rewrite <- HA. apply key_aok.
  eapply aok_intro; [apply fcrep_frep; [exact X | lia] | apply fcrep_frep; [exact Y | lia] |]. apply jpt_affine, PA.
Qed.
Definition tag_fits (tag y : Z) : Prop := tag = 4 \/ tag = 6 + y mod 2.
(** [parse] accepts a 65-byte string iff its tag is 4, or 6/7 matching the parity of y, and (x, y) is on the curve (both
    coordinates below p); the key then denotes (x, y). *)
Lemma C03_pubkey_parse_pf : forall dbg tag bx b_y, length bx = 32%nat -> length b_y = 32%nat -> bytes (tag :: bx ++ b_y) ->
  (tag_fits tag (be_val b_y) -> on_curve (Aff (be_val bx) (be_val b_y)) ->
     exists k, pk_parse dbg (tag :: bx ++ b_y) = Some (Ok k) /\ key_at k (Aff (be_val bx) (be_val b_y))) /\
  (~ (tag_fits tag (be_val b_y) /\ on_curve (Aff (be_val bx) (be_val b_y))) -> pk_parse dbg (tag :: bx ++ b_y) = Some (Err InvalidPublicKey)).
Proof.
  intros dbg tag bx b_y LX LY B. apply Forall_cons_iff in B. destruct B as [BT B]. apply Forall_app in B. destruct B as [BX BY].
  set (x := be_val bx). set (y := be_val b_y).
  assert (W : wp (pk_parse dbg (tag :: bx ++ b_y)) (fun r => (tag_fits tag y /\ on_curve (Aff x y) /\ exists k, r = Ok k /\ key_at k (Aff x y)) \/
    (~ (tag_fits tag y /\ on_curve (Aff x y)) /\ r = Err InvalidPublicKey))).
  { unfold pk_parse. change FULL_PUBLIC_KEY_SIZE with 65%nat. cbn [length]. rewrite app_length, LX, LY. cbn [Nat.eqb negb Nat.add idx].
    change (idx (tag :: bx ++ b_y) 0) with (Some tag). cbn [bind]. unfold TAG_PUBKEY_FULL, TAG_PUBKEY_HYBRID_EVEN, TAG_PUBKEY_HYBRID_ODD.
    pose proof (Z.mod_pos_bound y 2 ltac:(lia)) as YM.
    destruct ((tag =? 4) || (tag =? 6) || (tag =? 7)) eqn:T; cbn [negb].
    2:{ apply wp_some. right. split; [|reflexivity]. rewrite !orb_false_iff, !Z.eqb_neq in T. unfold tag_fits. intros [[F|F] _]; lia. }
    assert (S1 : sub_array (tag :: bx ++ b_y) 1 32 = bx) by exact (sub_array_l bx b_y LX).
    assert (S2 : sub_array (tag :: bx ++ b_y) 33 32 = b_y) by exact (sub_array_r bx b_y LX LY).
    rewrite S1, S2. eapply wp_bind; [apply f_set_b32_rep; assumption|]. cbv beta. intros [fx okx] [-> HX]. fold x in HX |- *.
    destruct (Z.ltb_spec x p) as [XP|XP]; cbn [negb].
    2:{ apply wp_some. right. split; [|reflexivity]. intros [_ (O & _)]. lia. }
    eapply wp_bind; [apply f_set_b32_rep; assumption|]. cbv beta. intros [fy oky] [-> HY]. fold y in HY |- *.
    destruct (Z.ltb_spec y p) as [YP|YP]; cbn [negb].
    2:{ apply wp_some. right. split; [|reflexivity]. intros [_ (_ & O & _)]. lia. }
    specialize (HX XP). specialize (HY YP).
    pose proof (be_val_range bx BX) as RX. pose proof (be_val_range b_y BY) as RY. fold x in RX. fold y in RY.
    change (bind (Some ?x) ?f) with (f x). cbv beta.
    eapply (wp_bind _ _ (fun bad => bad = false <-> tag_fits tag y)).
    { destruct ((tag =? 6) || (tag =? 7)) eqn:T2.
      - eapply wp_bind; [apply f_is_odd_rep; exact HY|]. cbv beta. intros o ->. apply wp_some. rewrite val_toF, Z.mod_small by lia.
        rewrite orb_true_iff, !Z.eqb_eq in T2. rewrite negb_false_iff, eqb_true_iff. rewrite odd_mod. unfold tag_fits.
        destruct T2 as [-> | ->]; cbn [Z.eqb Pos.eqb]; destruct (Z.eqb_spec (y mod 2) 1); (split; [first [discriminate | intros _; lia | reflexivity] | try (intros [?|?]; lia); auto]).
      - apply wp_some. split; [|reflexivity]. intros _. left. rewrite orb_false_iff, !Z.eqb_neq in T2. rewrite !orb_true_iff, !Z.eqb_eq in T. lia. }
    cbv beta. intros bad BAD. destruct bad.
    { apply wp_some. right. split; [|reflexivity]. intros [F _]. apply BAD in F. discriminate F. }
    cbn [af_inf af_set_xy]. eapply wp_bind; [apply (af_is_valid_var_ok dbg (af_set_xy fx fy) (toF x) (toF y)); [apply fcrep_frep; [exact HX | lia] | apply fcrep_frep; [exact HY | lia] | reflexivity]|].
    cbv beta. intros v V. rewrite onc_Aff in V by lia. destruct v; apply wp_some.
    - left. split; [apply BAD; reflexivity|]. assert (O : on_curve (Aff x y)) by (apply V; reflexivity). split; [exact O|]. eexists. split; [reflexivity|].
      apply key_at_intro; assumption.
    - right. split; [|reflexivity]. intros [_ O]. apply V in O. discriminate O. }
  apply wp_ex in W. destruct W as (r & -> & [(T & O & k & -> & K)|[N ->]]); split; try tauto; try reflexivity.
  intros _ _. exists k. split; [reflexivity | exact K].
Qed.
Lemma G_bytes : bytes (sec1_full gx gy) /\ bytes (sec1_compressed gx gy).
Proof. split; unfold sec1_full, sec1_compressed; (apply Forall_cons; [vmr|]); try apply Forall_app; try split; apply bytes_be. Qed.
Lemma C03_pubkey_parse_example_pf : tag_fits 4 gy /\ tag_fits 6 gy /\ ~ tag_fits 7 gy /\ on_curve (Aff gx gy) /\ length (be_bytes 32 gx) = 32%nat /\ be_val (be_bytes 32 gx) = gx /\
  (exists k, pk_parse true (sec1_full gx gy) = Some (Ok k)) /\ pk_parse true (7 :: be_bytes 32 gx ++ be_bytes 32 gy) = Some (Err InvalidPublicKey).
Proof.
  split; [left; reflexivity|]. split; [right; vmr|]. split; [intros [H|H]; [discriminate H | vm_compute in H; discriminate H]|].
  split; [exact G_on|]. repeat (split; [vmr|]). split; [eexists; vm_compute; reflexivity | vmr].
Qed.

(** * C04 *)
Lemma compressed_cases dbg tag bx : length bx = 32%nat -> bytes (tag :: bx) -> let x := be_val bx in exists r, pk_parse_compressed dbg (tag :: bx) = Some r /\
  ((exists y k, on_curve (Aff x y) /\ tag = 2 + y mod 2 /\ r = Ok k /\ key_at k (Aff x y)) \/
   ((forall y, on_curve (Aff x y) -> tag <> 2 + y mod 2) /\ r = Err InvalidPublicKey)).
Proof.
  intros LX B. apply Forall_cons_iff in B. destruct B as [BT BX]. set (x := be_val bx).
  assert (W : wp (pk_parse_compressed dbg (tag :: bx)) (fun r => (exists y k, on_curve (Aff x y) /\ tag = 2 + y mod 2 /\ r = Ok k /\ key_at k (Aff x y)) \/
    ((forall y, on_curve (Aff x y) -> tag <> 2 + y mod 2) /\ r = Err InvalidPublicKey))).
  { unfold pk_parse_compressed. change COMPRESSED_PUBLIC_KEY_SIZE with 33%nat. cbn [length]. rewrite LX. cbn [Nat.eqb negb].
    change (idx (tag :: bx) 0) with (Some tag). cbn [bind]. unfold TAG_PUBKEY_EVEN, TAG_PUBKEY_ODD.
    destruct ((tag =? 2) || (tag =? 3)) eqn:T; cbn [negb].
    2:{ apply wp_some. right. split; [|reflexivity]. rewrite !orb_false_iff, !Z.eqb_neq in T. intros y _. pose proof (Z.mod_pos_bound y 2 ltac:(lia)). lia. }
    rewrite orb_true_iff, !Z.eqb_eq in T.
    assert (S1 : sub_array (tag :: bx) 1 32 = bx) by (unfold sub_array; cbn [skipn]; rewrite <- LX; apply firstn_all).
    rewrite S1. eapply wp_bind; [apply f_set_b32_rep; assumption|]. cbv beta. intros [fx okx] [-> HX]. fold x in HX |- *.
    destruct (Z.ltb_spec x p) as [XP|XP]; cbn [negb].
    2:{ apply wp_some. right. split; [|reflexivity]. intros y (O & _). lia. }
    specialize (HX XP). pose proof (be_val_range bx BX) as RX. fold x in RX.
    eapply wp_bind; [apply (af_set_xo_var_ok dbg fx (toF x) 2 (tag =? 3)); [apply fcrep_frep; [exact HX | lia] | lia]|].
    cbv beta. intros [a ok] (OK & HT & HF).
    assert (LP : forall y, on_curve (Aff x y) -> tag = 2 + y mod 2 -> exists A, lifts (toF x) (tag =? 3) A).
    { intros y O TY. destruct (on_aff _ _ O) as (A & _ & PA & _ & RY). exists A. exists (toF y). split; [exact PA|].
      rewrite val_toF, Z.mod_small, odd_mod by lia. destruct (Z.eqb_spec tag 3), (Z.eqb_spec (y mod 2) 1); try reflexivity; pose proof (Z.mod_pos_bound y 2 ltac:(lia)); lia. }
    destruct ok.
    - destruct (HT eq_refl) as (A & LA & AO & AX & AI). rewrite AI. destruct LA as (y & PA & OY).
      pose proof (pt_on A) as CA. rewrite PA in CA.
      assert (SA : sp A = Aff x (val y)) by (unfold sp; rewrite PA; cbn [spt]; rewrite val_toF, Z.mod_small by lia; reflexivity).
      apply (aok_mono 2 6) in AO; [|lia]. pose proof AO as AO'. apply key_aok in AO'. rewrite SA in AO'.
      pose proof AO' as (KX & KY & OC & _ & VX & VY).
      assert (FY : fe (af_y a) = y) by (apply fe_eq; exact VY).
      eapply wp_bind; [apply (af_is_valid_var_ok dbg a (toF x) y)|].
      + rewrite AX. apply fcrep_frep; [exact HX | lia].
      + eapply frep_mono; [apply fok_frep; exact KY | lia] || (rewrite <- FY; eapply frep_mono; [apply fok_frep; exact KY | lia]).
      + exact AI.
      + cbv beta. intros v V. assert (v = true) as -> by (apply V; exact CA). apply wp_some. left. exists (val y), a. split; [exact OC|].
        split; [|split; [reflexivity | exact AO']]. rewrite odd_mod in OY. pose proof (Z.mod_pos_bound (val y) 2 ltac:(lia)).
        destruct (Z.eqb_spec tag 3), (Z.eqb_spec (val y mod 2) 1); try discriminate OY; lia.
    - destruct (HF eq_refl) as (AX & AY & AI). rewrite AI. eapply wp_bind; [apply (af_is_valid_var_ok dbg a (toF x) (fe (af_y a)))|].
      + rewrite AX. apply fcrep_frep; [exact HX | lia].
      + eapply frep_mono; [apply fok_frep; exact AY | lia].
      + exact AI.
      + cbv beta. intros v V. destruct v.
        { exfalso. assert (CA : onc (FAff (toF x) (fe (af_y a)))) by (apply V; reflexivity).
          set (y := fe (af_y a)) in *. pose proof (no_torsion2 _ _ CA) as NY.
          assert (CB : onc (FAff (toF x) (- y))). { apply onc_eq. apply onc_eq in CA. rewrite <- CA. ring. }
          assert (false = true); [|discriminate]. apply OK. destruct (Bool.eqb (Z.odd (val y)) (tag =? 3)) eqn:EB.
          - apply eqb_prop in EB. exists (mkE _ CA), y. split; [reflexivity | exact EB].
          - exists (mkE _ CB), (- y)%F. split; [reflexivity|]. rewrite fneg_odd by exact NY. destruct (Z.odd (val y)), (tag =? 3); try discriminate EB; reflexivity. }
        apply wp_some. right. split; [|reflexivity]. intros y O TY. destruct (LP y O TY) as [A LA]. assert (false = true) by (apply OK; exists A; exact LA). discriminate. }
  apply wp_ex in W. exact W.
Qed.
(** [parse_compressed] accepts a 33-byte string iff some point with that x (below p) has y of the parity given by the tag, and the key then
    denotes that point. *)
Lemma C04_pubkey_parse_compressed_pf : forall dbg tag bx, length bx = 32%nat -> bytes (tag :: bx) ->
  (forall y, on_curve (Aff (be_val bx) y) -> tag = 2 + y mod 2 ->
     exists k, pk_parse_compressed dbg (tag :: bx) = Some (Ok k) /\ key_at k (Aff (be_val bx) y)) /\
  ((forall y, on_curve (Aff (be_val bx) y) -> tag <> 2 + y mod 2) -> pk_parse_compressed dbg (tag :: bx) = Some (Err InvalidPublicKey)).
Proof.
  intros dbg tag bx LX BB. pose proof (compressed_cases dbg tag bx LX BB) as W. set (x := be_val bx) in *.
  destruct W as (r & -> & [(y & k & O & T & -> & K)|[N ->]]); split.
  - intros z OZ TZ. exists k. split; [reflexivity|]. replace z with y; [exact K|].
    destruct (on_aff _ _ O) as (A & SA & PA & _ & RY). destruct (on_aff _ _ OZ) as (B & SB & PB & _ & RZ).
    assert (EAB : A = B).
    { apply (lifts_fun (toF x) (Z.odd y)); [exists (toF y) | exists (toF z)]; (split; [assumption|]); rewrite val_toF, Z.mod_small by lia; [reflexivity|].
      rewrite !odd_mod. replace (z mod 2) with (y mod 2) by lia. reflexivity. }
    subst B. rewrite SA in SB. injection SB as E0. exact E0.
  - intros H. elim (H y O T).
  - intros z OZ TZ. elim (N z OZ TZ).
  - reflexivity.
Qed.
Lemma C04_pubkey_parse_compressed_example_pf : on_curve (Aff gx gy) /\ 2 = 2 + gy mod 2 /\ be_val (be_bytes 32 gx) = gx /\ bytes (2 :: be_bytes 32 gx) /\
  pk_parse_compressed true (2 :: be_bytes 32 p) = Some (Err InvalidPublicKey).
Proof. split; [exact G_on|]. split; [vmr|]. split; [vmr|]. split; [|vmr]. exact (proj2 G_bytes). Qed.

(** * C05 *)
Definition fmt_len (f : pkformat) : nat := match f with Compressed => 33 | Raw => 64 | Full => 65 end.
Definition fmt_ok (f : option pkformat) (len : nat) (g : pkformat) : Prop := fmt_len g = len /\ (f = None \/ f = Some g).
Lemma C05_parse_slice_pf : forall dbg b f,
  (fmt_ok f (length b) Full -> pk_parse_slice dbg b f = pk_parse dbg b) /\
  (fmt_ok f (length b) Raw -> pk_parse_slice dbg b f = pk_parse dbg (4 :: b)) /\
  (fmt_ok f (length b) Compressed -> pk_parse_slice dbg b f = pk_parse_compressed dbg b) /\
  ((forall g, ~ fmt_ok f (length b) g) -> pk_parse_slice dbg b f = Some (Err InvalidInputLength)).
Proof.
  intros dbg b f. unfold fmt_ok, pk_parse_slice, pk_format, FULL_PUBLIC_KEY_SIZE, COMPRESSED_PUBLIC_KEY_SIZE, RAW_PUBLIC_KEY_SIZE.
  split; [|split; [|split]]; cbn [fmt_len].
  - intros [<- [-> | ->]]; reflexivity.
  - intros [<- [-> | ->]]; reflexivity.
  - intros [<- [-> | ->]]; reflexivity.
  - intros H. pose proof (H Full) as H1. pose proof (H Raw) as H2. pose proof (H Compressed) as H3. cbn [fmt_len] in H1, H2, H3.
    destruct (Nat.eqb_spec (length b) 65) as [L|L]; [destruct f as [[| |]|]; try reflexivity; elim H1; auto|].
    destruct (Nat.eqb_spec (length b) 33) as [L'|L']; [destruct f as [[| |]|]; try reflexivity; elim H3; auto|].
    destruct (Nat.eqb_spec (length b) 64) as [L''|L'']; [destruct f as [[| |]|]; try reflexivity; elim H2; auto|]. reflexivity.
Qed.
Lemma C05_parse_slice_example_pf : fmt_ok None 64 Raw /\ fmt_ok (Some Full) 65 Full /\ (forall g, ~ fmt_ok (Some Full) 33 g) /\ (forall g, ~ fmt_ok None 34 g).
Proof.
  split; [split; [reflexivity | left; reflexivity]|]. split; [split; [reflexivity | right; reflexivity]|].
  split; intros [| |] [L F]; try discriminate L; destruct F as [F|F]; discriminate F.
Qed.

(** * C17, public keys *)
Lemma bytes_cons_inv t b : bytes (t :: b) -> 0 <= t < 256 /\ bytes b.
Proof. intros H. apply Forall_cons_iff in H. exact H. Qed.
Lemma dec_curve x y : on_curve (Aff x y) \/ ~ on_curve (Aff x y).
Proof.
  cbn [on_curve]. destruct (Z_le_dec 0 x), (Z_lt_dec x p), (Z_le_dec 0 y), (Z_lt_dec y p); try (right; lia).
  destruct (Z.eq_dec ((y * y) mod p) ((x * x * x + 7) mod p)); [left | right]; tauto.
Qed.
Lemma parse_cases dbg tag bx b_y : length bx = 32%nat -> length b_y = 32%nat -> bytes (tag :: bx ++ b_y) ->
  (exists k, pk_parse dbg (tag :: bx ++ b_y) = Some (Ok k) /\ key_at k (Aff (be_val bx) (be_val b_y)) /\ tag_fits tag (be_val b_y)) \/ pk_parse dbg (tag :: bx ++ b_y) = Some (Err InvalidPublicKey).
Proof.
  intros LX LY B. destruct (C03_pubkey_parse_pf dbg tag bx b_y LX LY B) as [H1 H2].
  assert (D : tag_fits tag (be_val b_y) \/ ~ tag_fits tag (be_val b_y)) by (unfold tag_fits; lia).
  destruct D as [D|D]; [|right; apply H2; tauto]. destruct (dec_curve (be_val bx) (be_val b_y)) as [C|C]; [|right; apply H2; tauto].
  left. destruct (H1 D C) as (k & K1 & K2). eauto.
Qed.
Lemma split_33 (b : list Z) : length b = 65%nat -> exists t bx b_y, b = t :: bx ++ b_y /\ length bx = 32%nat /\ length b_y = 32%nat.
Proof.
  intros L. destruct b as [|t b]; [discriminate L|]. injection L as L. exists t, (firstn 32 b), (skipn 32 b).
  rewrite firstn_skipn, firstn_length, skipn_length, L. auto.
Qed.
Lemma pk_parse_cases dbg b : length b = 65%nat -> bytes b ->
  (exists k x y, pk_parse dbg b = Some (Ok k) /\ key_at k (Aff x y)) \/ pk_parse dbg b = Some (Err InvalidPublicKey).
Proof.
  intros L B. destruct (split_33 b L) as (t & bx & b_y & -> & LX & LY). destruct (parse_cases dbg t bx b_y LX LY B) as [(k & K & A & _)|K]; [left | right; exact K].
  exists k. eauto.
Qed.
Lemma pk_parse_slice_cases dbg b f : bytes b ->
  (exists k x y, pk_parse_slice dbg b f = Some (Ok k) /\ key_at k (Aff x y)) \/ pk_parse_slice dbg b f = Some (Err InvalidPublicKey) \/
  (pk_parse_slice dbg b f = Some (Err InvalidInputLength) /\ forall g, ~ fmt_ok f (length b) g).
Proof.
  intros B. destruct (C05_parse_slice_pf dbg b f) as (H1 & H2 & H3 & H4).
  assert (D : forall g, fmt_ok f (length b) g \/ ~ fmt_ok f (length b) g).
  { intros g. unfold fmt_ok. destruct (Nat.eq_dec (fmt_len g) (length b)); [|tauto]. destruct f as [[| |]|], g; try (left; auto; fail); right; intros [_ [F|F]]; discriminate F. }
  destruct (D Full) as [F1|F1].
  { rewrite (H1 F1). destruct (pk_parse_cases dbg b) as [K|K]; [symmetry; apply F1 | exact B | tauto | tauto]. }
  destruct (D Raw) as [F2|F2].
  { rewrite (H2 F2). destruct (pk_parse_cases dbg (4 :: b)) as [K|K]; [cbn [length]; rewrite <- (proj1 F2); reflexivity | constructor; [lia | exact B] | tauto | tauto]. }
  destruct (D Compressed) as [F3|F3].
  { rewrite (H3 F3). destruct b as [|t bx]; [destruct F3 as [F3 _]; discriminate F3|].
    destruct (compressed_cases dbg t bx) as (r & -> & [(y & k & _ & _ & -> & K)|[_ ->]]).
    - destruct F3 as [F3 _]. injection F3 as F3. symmetry. exact F3.
    - exact B.
    - left. eauto.
    - tauto. }
  right. right. assert (N : forall g, ~ fmt_ok f (length b) g) by (intros [| |]; assumption). split; [apply H4|]; exact N.
Qed.
(** No public-key parser panics, on any byte string of any length and any format argument. *)
Lemma C17_pubkey_total_pf : forall dbg b f, bytes b -> exists r, pk_parse_slice dbg b f = Some r /\ (forall k, r = Ok k -> exists x y, key_at k (Aff x y)).
Proof.
  intros dbg b f B. destruct (pk_parse_slice_cases dbg b f B) as [(k & x & y & -> & K)|[->|[-> _]]]; eexists; (split; [reflexivity|]); intros k' EK; try discriminate EK.
  injection EK as <-. eauto.
Qed.
Lemma C17_pubkey_total_example_pf : bytes (sec1_full gx gy) /\ bytes [] /\ bytes [255; 0].
Proof. split; [apply G_bytes|]. split; repeat constructor; lia. Qed.

(** * C06 *)
(** The bytes produced depend only on the point. *)
Lemma C06_serialize_pf : forall dbg k x y, key_at k (Aff x y) ->
  pk_serialize dbg k = Some (sec1_full x y) /\ pk_serialize_compressed dbg k = Some (sec1_compressed x y).
Proof.
  intros dbg k x y (KX & KY & O & I & <- & <-). apply fok_frep in KX, KY.
  assert (VX : val (fe (af_x k)) = fv (af_x k) mod p) by apply val_toF. assert (VY : val (fe (af_y k)) = fv (af_y k) mod p) by apply val_toF. split.
  - assert (W : wp (pk_serialize dbg k) (fun b => b = sec1_full (fv (af_x k) mod p) (fv (af_y k) mod p))); [|apply wp_ex in W; destruct W as (a & -> & ->); reflexivity].
    unfold pk_serialize. apply wp_dassert; [rewrite I; reflexivity|].
    eapply wp_bind; [apply f_normalize_var_rep; fr|]. cbv beta. intros x' X'. eapply wp_bind; [apply f_normalize_var_rep; fr|]. cbv beta. intros y' Y'.
    eapply wp_bind; [apply f_b32_rep; exact X'|]. cbv beta. intros bx ->. eapply wp_bind; [apply f_b32_rep; exact Y'|]. cbv beta. intros b_y ->.
    apply wp_some. rewrite VX, VY. reflexivity.
  - assert (W : wp (pk_serialize_compressed dbg k) (fun b => b = sec1_compressed (fv (af_x k) mod p) (fv (af_y k) mod p))); [|apply wp_ex in W; destruct W as (a & -> & ->); reflexivity].
    unfold pk_serialize_compressed. apply wp_dassert; [rewrite I; reflexivity|].
    eapply wp_bind; [apply f_normalize_var_rep; fr|]. cbv beta. intros x' X'. eapply wp_bind; [apply f_normalize_var_rep; fr|]. cbv beta. intros y' Y'.
    eapply wp_bind; [apply f_b32_rep; exact X'|]. cbv beta. intros bx ->. eapply wp_bind; [apply f_is_odd_rep; exact Y'|]. cbv beta. intros o ->.
    apply wp_some. rewrite VX, VY. unfold sec1_compressed, TAG_PUBKEY_ODD, TAG_PUBKEY_EVEN. set (y := fv (af_y k) mod p). rewrite odd_mod.
    pose proof (Z.mod_pos_bound y 2 ltac:(lia)). f_equal. destruct (Z.eqb_spec (y mod 2) 1); lia.
Qed.
Lemma AFFINE_G_key : key_at AFFINE_G (Aff gx gy).
Proof. change (Aff gx gy) with G. rewrite <- sp_G. apply key_aok. apply (aok_mono 1 6); [apply AFFINE_G_ok | lia]. Qed.
Lemma C06_serialize_example_pf : key_at AFFINE_G (Aff gx gy) /\ exists k, k <> AFFINE_G /\ key_at k (Aff gx gy).
Proof.
  split; [exact AFFINE_G_key|]. assert (W : wp (let* a := af_neg true AFFINE_G in af_neg true a) (fun r => aok 6 f1 r eG)).
  { eapply wp_bind; [apply (af_neg_ok true 6 f1 AFFINE_G eG); [apply (aok_mono 1 6); [apply AFFINE_G_ok | lia] | lia]|]. cbv beta. intros a [A _].
    eapply wp_mono; [apply (af_neg_ok true 6 f1 a _ A); lia|]. cbv beta. intros r [R _]. rewrite eopp_opp in R. exact R. }
  apply wp_ex in W. destruct W as (r & HR & R). exists r. split; [|change (Aff gx gy) with G; rewrite <- sp_G; apply key_aok, R].
  intros ->. vm_compute in HR. discriminate HR.
Qed.

(** * C07 *)
Lemma be32_inj x y : 0 <= x < 2 ^ 256 -> 0 <= y < 2 ^ 256 -> be_bytes 32 x = be_bytes 32 y -> x = y.
Proof. intros X Y H. rewrite <- (val_be_bytes_32 x X), <- (val_be_bytes_32 y Y), H. reflexivity. Qed.
Lemma on_range x y : on_curve (Aff x y) -> 0 <= x < 2 ^ 256 /\ 0 <= y < 2 ^ 256.
Proof. intros (X & Y & _). pose proof p_lt256. lia. Qed.
Lemma app_inj_len {A} (a b c d : list A) : length a = length b -> a ++ c = b ++ d -> a = b /\ c = d.
Proof.
  revert b. induction a as [|x a IH]; intros [|y b] L H; try discriminate L; [split; [reflexivity | exact H]|].
  injection L as L. cbn [app] in H. injection H as -> H. destruct (IH b L H) as [-> ->]. split; reflexivity.
Qed.
Lemma be_len k v : length (be_bytes k v) = k.
Proof. induction k as [|k IH]; [reflexivity|]. cbn [be_bytes length]. rewrite IH. reflexivity. Qed.
Lemma cons_inv {A} (x y : A) a b : x :: a = y :: b -> x = y /\ a = b.
Proof. intros H. injection H as -> ->. split; reflexivity. Qed.
Lemma some_inv {A} (x y : A) : Some x = Some y -> x = y.
Proof. intros H. injection H as ->. reflexivity. Qed.
Lemma sec1_full_inj x y u v : on_curve (Aff x y) -> on_curve (Aff u v) -> sec1_full x y = sec1_full u v -> Aff x y = Aff u v.
Proof.
  intros O O' H. apply on_range in O, O'. apply cons_inv in H. destruct H as [_ H]. apply app_inj_len in H; [|rewrite !be_len; reflexivity]. destruct H as [HX HY].
  apply be32_inj in HX, HY; try tauto. rewrite HX, HY. reflexivity.
Qed.
Lemma same_parity x y z : on_curve (Aff x y) -> on_curve (Aff x z) -> y mod 2 = z mod 2 -> y = z.
Proof.
  intros O OZ T. destruct (on_aff _ _ O) as (A & SA & PA & _ & RY). destruct (on_aff _ _ OZ) as (B & SB & PB & _ & RZ).
  assert (EAB : A = B).
  { apply (lifts_fun (toF x) (Z.odd y)); [exists (toF y) | exists (toF z)]; (split; [assumption|]); rewrite val_toF, Z.mod_small by lia; [reflexivity|].
    rewrite !odd_mod, T. reflexivity. }
  subst B. rewrite SA in SB. injection SB as E0. exact E0.
Qed.
Lemma sec1_compressed_inj x y u v : on_curve (Aff x y) -> on_curve (Aff u v) -> sec1_compressed x y = sec1_compressed u v -> Aff x y = Aff u v.
Proof.
  intros O O' H. pose proof (on_range _ _ O). pose proof (on_range _ _ O'). apply cons_inv in H. destruct H as [HT HX]. apply be32_inj in HX; try tauto. subst u. f_equal.
  eapply same_parity; eassumption || lia.
Qed.
Lemma pk_eq_ok dbg k1 k2 x1 y1 x2 y2 : key_at k1 (Aff x1 y1) -> key_at k2 (Aff x2 y2) -> exists b, pk_eq dbg k1 k2 = Some b /\ (b = true <-> Aff x1 y1 = Aff x2 y2).
Proof.
  intros (X1 & Y1 & _ & I1 & VX1 & VY1) (X2 & Y2 & _ & I2 & VX2 & VY2). apply fok_frep in X1, Y1, X2, Y2. apply wp_ex. unfold pk_eq, af_eq.
  eapply wp_bind; [eapply f_eq_rep; [exact X1 | exact X2 | lia]|]. cbv beta. intros ex ->.
  assert (EX : feqb (fe (af_x k1)) (fe (af_x k2)) = true <-> x1 = x2).
  { rewrite feq_sym_b, <- VX1, <- VX2. unfold fe. rewrite <- !val_toF. split; [intros ->; reflexivity | apply val_inj]. }
  destruct (feqb (fe (af_x k1)) (fe (af_x k2))); cbn [negb].
  2:{ apply wp_some. split; [discriminate|]. intros Q. injection Q as Q _. apply EX in Q. discriminate Q. }
  eapply wp_bind; [eapply f_eq_rep; [exact Y1 | exact Y2 | lia]|]. cbv beta. intros ey ->.
  assert (EY : feqb (fe (af_y k1)) (fe (af_y k2)) = true <-> y1 = y2).
  { rewrite feq_sym_b, <- VY1, <- VY2. unfold fe. rewrite <- !val_toF. split; [intros ->; reflexivity | apply val_inj]. }
  destruct (feqb (fe (af_y k1)) (fe (af_y k2))); cbn [negb]; apply wp_some.
  2:{ split; [discriminate|]. intros Q. injection Q as _ Q. apply EY in Q. discriminate Q. }
  rewrite I1, I2. split; [|reflexivity]. intros _. f_equal; [apply EX | apply EY]; reflexivity.
Qed.
(** Two keys compare equal iff they denote the same point, iff their serializations coincide. *)
Lemma C07_equality_pf : forall dbg k1 k2 x1 y1 x2 y2, key_at k1 (Aff x1 y1) -> key_at k2 (Aff x2 y2) ->
  exists b, pk_eq dbg k1 k2 = Some b /\ (b = true <-> x1 = x2 /\ y1 = y2) /\ (b = true <-> pk_serialize dbg k1 = pk_serialize dbg k2) /\
  (b = true <-> pk_serialize_compressed dbg k1 = pk_serialize_compressed dbg k2).
Proof.
  intros dbg k1 k2 x1 y1 x2 y2 K1 K2. destruct (pk_eq_ok dbg _ _ _ _ _ _ K1 K2) as (b & -> & HB). exists b. split; [reflexivity|].
  destruct (C06_serialize_pf dbg _ _ _ K1) as [-> ->], (C06_serialize_pf dbg _ _ _ K2) as [-> ->].
  pose proof K1 as (_ & _ & O1 & _). pose proof K2 as (_ & _ & O2 & _). rewrite HB. clear HB. split; [|split].
  - split; [intros Q; injection Q as -> ->; split; reflexivity | intros [-> ->]; reflexivity].
  - split; [intros Q; injection Q as -> ->; reflexivity | intros Q; apply sec1_full_inj; [assumption | assumption | apply some_inv, Q]].
  - split; [intros Q; injection Q as -> ->; reflexivity | intros Q; apply sec1_compressed_inj; [assumption | assumption | apply some_inv, Q]].
Qed.
Lemma C07_equality_example_pf : exists k1 k2 x y, k1 <> k2 /\ key_at k1 (Aff x y) /\ key_at k2 (Aff x y).
Proof. destruct C06_serialize_example_pf as (K & k & N & K'). exists k, AFFINE_G, gx, gy. tauto. Qed.

(** Parsing what a key serializes to gives back an equal key, in both formats. *)
Lemma C06_roundtrip_pf : forall dbg k x y, key_at k (Aff x y) -> exists b c k1 k2,
  pk_serialize dbg k = Some b /\ pk_parse dbg b = Some (Ok k1) /\ key_at k1 (Aff x y) /\ pk_eq dbg k1 k = Some true /\
  pk_serialize_compressed dbg k = Some c /\ pk_parse_compressed dbg c = Some (Ok k2) /\ key_at k2 (Aff x y) /\ pk_eq dbg k2 k = Some true.
Proof.
  intros dbg k x y K. destruct (C06_serialize_pf dbg _ _ _ K) as [-> ->]. pose proof K as (_ & _ & O & _). destruct (on_range _ _ O) as [RX RY].
  exists (sec1_full x y), (sec1_compressed x y).
  destruct (C03_pubkey_parse_pf dbg 4 (be_bytes 32 x) (be_bytes 32 y)) as [P1 _]; [apply be_len | apply be_len | constructor; [lia | apply Forall_app; split; apply bytes_be]|].
  destruct (C04_pubkey_parse_compressed_pf dbg (2 + y mod 2) (be_bytes 32 x)) as [P2 _]; [apply be_len | constructor; [pose proof (Z.mod_pos_bound y 2 ltac:(lia)); lia | apply bytes_be]|].
  rewrite (val_be_bytes_32 x RX), (val_be_bytes_32 y RY) in P1. rewrite (val_be_bytes_32 x RX) in P2. destruct P1 as (k1 & E1 & K1); [left; reflexivity | exact O|]. destruct (P2 y O eq_refl) as (k2 & E2 & K2).
  exists k1, k2. destruct (pk_eq_ok dbg _ _ _ _ _ _ K1 K) as (b1 & EB1 & HB1). destruct (pk_eq_ok dbg _ _ _ _ _ _ K2 K) as (b2 & EB2 & HB2).
  rewrite EB1, EB2. rewrite (proj2 HB1 eq_refl), (proj2 HB2 eq_refl). unfold sec1_full, sec1_compressed. tauto.
Qed.
Lemma C06_roundtrip_example_pf : key_at AFFINE_G (Aff gx gy).
Proof. exact AFFINE_G_key. Qed.
(** Serializing what was parsed gives back the bytes (tag 4 for the full form). *)
Lemma C06_parse_serialize_pf : forall dbg,
  (forall b k, length b = 65%nat -> bytes b -> pk_parse dbg b = Some (Ok k) -> pk_serialize dbg k = Some (4 :: tl b)) /\
  (forall c k, length c = 33%nat -> bytes c -> pk_parse_compressed dbg c = Some (Ok k) -> pk_serialize_compressed dbg k = Some c).
Proof.
  intros dbg. split.
  - intros b k L B P. destruct (split_33 b L) as (t & bx & b_y & -> & LX & LY). destruct (parse_cases dbg t bx b_y LX LY B) as [(k' & K & A & T)|K]; [|congruence].
    rewrite K in P. injection P as <-. destruct (C06_serialize_pf dbg _ _ _ A) as [-> _]. apply bytes_cons_inv in B. destruct B as [_ B]. apply Forall_app in B.
    unfold sec1_full. rewrite !be_bytes_32 by tauto. reflexivity.
  - intros [|t bx] k L B P; [discriminate L|]. injection L as L. destruct (compressed_cases dbg t bx L B) as (r & R & [(y & k' & O & -> & -> & K)|[_ ->]]); [|congruence].
    rewrite R in P. injection P as <-. destruct (C06_serialize_pf dbg _ _ _ K) as [_ ->]. apply bytes_cons_inv in B. unfold sec1_compressed. rewrite be_bytes_32 by tauto. reflexivity.
Qed.
Lemma C06_parse_serialize_example_pf : length (sec1_full gx gy) = 65%nat /\ bytes (sec1_full gx gy) /\ exists k, pk_parse true (sec1_full gx gy) = Some (Ok k).
Proof. split; [reflexivity|]. split; [apply G_bytes|]. eexists. vm_compute. reflexivity. Qed.
(** The value left by [clear] on a secret key derives the point at infinity; serializing such a key panics in debug builds. *)
Lemma C06_infinity_panics_pf : exists k, key_at k Inf /\ pk_serialize true k = None /\ pk_serialize_compressed true k = None.
Proof.
  exists (Af f_default f_default true). split; [|split; reflexivity].
  assert (D : fok 6 f_default) by (apply (fok_mono 1 6); [exact (proj1 (fcrep1 _ _ fcrep_default)) | lia]). split; [exact D|]. split; [exact D|]. split; [exact I | reflexivity].
Qed.

(** * C42 *)
Lemma C42_try_from_affine_pf : forall dbg a, fok 8 (af_x a) -> fok 8 (af_y a) ->
  (af_inf a = false -> on_curve (Aff (fv (af_x a) mod p) (fv (af_y a) mod p)) -> pk_try_from dbg a = Some (Ok a)) /\
  (~ (af_inf a = false /\ on_curve (Aff (fv (af_x a) mod p) (fv (af_y a) mod p))) -> pk_try_from dbg a = Some (Err InvalidAffine)).
Proof.
  intros dbg a X Y. apply fok_frep in X, Y. unfold pk_try_from. destruct (af_inf a) eqn:I; [split; [discriminate | reflexivity]|].
  destruct (wp_ex _ _ (af_is_valid_var_ok dbg a _ _ X Y I)) as (v & -> & V). cbn [bind]. rewrite onc_spec in V. cbn [spt] in V. unfold fe in V. rewrite !val_toF in V.
  split.
  - intros _ O. apply V in O. rewrite O. reflexivity.
  - intros H. destruct v; [|reflexivity]. elim H. split; [reflexivity | apply V; reflexivity].
Qed.
Lemma C42_try_from_affine_example_pf : fok 8 (af_x AFFINE_G) /\ fok 8 (af_y AFFINE_G) /\ af_inf AFFINE_G = false /\ fv (af_x AFFINE_G) mod p = gx /\ fv (af_y AFFINE_G) mod p = gy /\ on_curve (Aff gx gy).
Proof.
  destruct AFFINE_G_key as (X & Y & O & I & VX & VY). repeat (split; [first [assumption | eapply fok_mono; [eassumption | lia]]|]). exact O.
Qed.

(** The validity test itself: true exactly on finite points of the curve. *)
Lemma C42_is_valid_var_pf : forall dbg a, fok 8 (af_x a) -> fok 8 (af_y a) ->
  exists b, af_is_valid_var dbg a = Some b /\ (b = true <-> af_inf a = false /\ on_curve (Aff (fv (af_x a) mod p) (fv (af_y a) mod p))).
Proof.
  intros dbg a X Y. apply fok_frep in X, Y. destruct (af_inf a) eqn:I.
  - exists false. unfold af_is_valid_var. rewrite I. split; [reflexivity|]. split; [discriminate | intros [H _]; discriminate H].
  - destruct (wp_ex _ _ (af_is_valid_var_ok dbg a _ _ X Y I)) as (v & E & V). rewrite onc_spec in V. cbn [spt] in V. unfold fe in V. rewrite !val_toF in V.
    exists v. split; [exact E|]. tauto.
Qed.
Lemma C42_is_valid_var_example_pf : exists a b, fok 8 (af_x a) /\ fok 8 (af_y a) /\ af_is_valid_var true a = Some true /\ fok 8 (af_x b) /\ fok 8 (af_y b) /\ af_is_valid_var true b = Some false.
Proof.
  destruct AFFINE_G_key as (X & Y & O & I & VX & VY). assert (X8 : fok 8 (af_x AFFINE_G)) by (eapply fok_mono; [eassumption | lia]). assert (Y8 : fok 8 (af_y AFFINE_G)) by (eapply fok_mono; [eassumption | lia]).
  exists AFFINE_G, (Af (af_x AFFINE_G) (af_y AFFINE_G) true). repeat (split; [assumption || reflexivity|]). reflexivity.
Qed.

(** * C43 *)
(** Deserializing the serialized form gives an equal key, for the binary and the base64 form, with any codec whose decoder inverts its encoder. *)
Lemma C43_serde_pf : forall dbg enc dec human k x y, (forall b, bytes b -> dec (enc b) = Some b) -> key_at k (Aff x y) ->
  exists v k', pk_ser dbg enc human k = Some v /\ pk_de dbg dec human v = Some (inl k') /\ key_at k' (Aff x y) /\ pk_eq dbg k' k = Some true.
Proof.
  intros dbg enc dec human k x y C K. destruct (C06_roundtrip_pf dbg k x y K) as (b & _ & k1 & _ & S1 & P1 & K1 & E1 & _).
  exists (if human then enc b else b), k1. unfold pk_ser. rewrite S1. split; [reflexivity|]. split; [|split; assumption].
  assert (L : length b = 65%nat /\ bytes b).
  { destruct (C06_serialize_pf dbg k x y K) as [S2 _]. rewrite S2 in S1. apply some_inv in S1. rewrite <- S1. unfold sec1_full. split; [cbn [length]; rewrite app_length, !be_len; reflexivity|].
    constructor; [lia | apply Forall_app; split; apply bytes_be]. }
  destruct L as [L B]. unfold pk_de, pk_parse_slice. destruct human; [rewrite (C b B)|]; rewrite L; cbn [Nat.eqb pk_format]; rewrite P1; reflexivity.
Qed.
Lemma C43_serde_example_pf : exists (enc : list Z -> list Z) (dec : list Z -> option (list Z)), (forall b, bytes b -> dec (enc b) = Some b) /\ key_at AFFINE_G (Aff gx gy).
Proof. exists (fun b => 0 :: b), (fun b => Some (tl b)). split; [reflexivity | exact AFFINE_G_key]. Qed.
(** Whatever is deserialized, from any string, is a finite curve point, and deserialization never panics. *)
Lemma C43_deserialize_valid_pf : forall dbg dec human v, (forall s b, dec s = Some b -> bytes b) -> bytes v ->
  exists r, pk_de dbg dec human v = Some r /\ forall k, r = inl k -> exists x y, key_at k (Aff x y).
Proof.
  intros dbg dec human v D V.
  assert (X : forall b f, bytes b -> exists r : sum pubkey (option error), (let* q := pk_parse_slice dbg b f in Some (match q with Ok k => inl k | Err _ => Datatypes.inr (Some InvalidPublicKey) end)) = Some r /\
     forall k : pubkey, r = inl k -> exists x y, key_at k (Aff x y)).
  { intros b f B. destruct (C17_pubkey_total_pf dbg b f B) as (r & -> & H). cbn [bind]. eexists. split; [reflexivity|]. intros k. destruct r as [k'|e]; [|discriminate].
    intros Q. injection Q as <-. apply H. reflexivity. }
  unfold pk_de. destruct human; [|apply X, V]. destruct (dec v) as [b|] eqn:DV; [|eexists; split; [reflexivity | discriminate]].
  cbv zeta. destruct (Nat.eqb (length b) 33); [apply X; eauto|]. destruct (Nat.eqb (length b) 64); [apply X; eauto|].
  destruct (Nat.eqb (length b) 65); [apply X; eauto|]. eexists. split; [reflexivity | discriminate].
Qed.
Lemma C43_deserialize_valid_example_pf : exists dec : list Z -> option (list Z), (forall s b, dec s = Some b -> bytes b) /\ dec [1] = Some (sec1_full gx gy).
Proof. exists (fun _ => Some (sec1_full gx gy)). split; [|reflexivity]. intros s b H. apply some_inv in H. rewrite <- H. apply G_bytes. Qed.

(** * C58 *)
(** Negation gives -P for every representation, in affine and Jacobian coordinates. *)
Lemma C58_affine_neg_pf : forall dbg m a P, aff_at m a P -> m <= 31 -> exists a', af_neg dbg a = Some a' /\ aff_at (Z.max m 2) a' (pneg P).
Proof.
  intros dbg m a P H L. destruct (aff_exists _ _ _ H) as (A & -> & HA). destruct (wp_ex _ _ (af_neg_ok dbg m f1 a A HA L)) as (a' & -> & H1 & _).
  exists a'. split; [reflexivity|]. rewrite <- sp_opp. apply aff_aok, H1.
Qed.
Lemma C58_affine_neg_example_pf : aff_at 6 AFFINE_G (Aff gx gy) /\ pneg (Aff gx gy) <> Aff gx gy.
Proof. split; [exact AFFINE_G_key|]. intros H. vm_compute in H. discriminate H. Qed.
Lemma C58_jacobian_neg_pf : forall dbg j P, jac_at j P -> exists j', j_neg dbg j = Some j' /\ jac_at j' (pneg P).
Proof.
  intros dbg j P H. destruct (jac_exists _ _ H) as (A & -> & HA). destruct (wp_ex _ _ (j_neg_ok dbg f1 j A HA)) as (a' & -> & H1 & _).
  exists a'. split; [reflexivity|]. rewrite <- sp_opp. apply jac_jok, H1.
Qed.
Lemma jac_of_key dbg k P : key_at k P -> exists j, j_set_ge dbg k = Some j /\ jac_at j P.
Proof.
  intros H. destruct (key_exists _ _ H) as (A & -> & HA). destruct (wp_ex _ _ (j_set_ge_ok dbg k A HA)) as (j & HJ & H1).
  exists j. split; [exact HJ|]. apply jac_jok. tauto.
Qed.
Lemma C58_jacobian_neg_example_pf : exists j, jac_at j (Aff gx gy).
Proof. destruct (jac_of_key true _ _ AFFINE_G_key) as (j & _ & J). exists j. exact J. Qed.
(** Storing and loading preserves the point, for every finite point in every representation. *)
Lemma C58_storage_pf : forall dbg m a x y, aff_at m a (Aff x y) -> m <= 31 -> exists s, af_to_storage dbg a = Some s /\ aff_at 1 (af_from_storage s) (Aff x y).
Proof.
  intros dbg m a x y H L. pose proof H as (_ & _ & _ & I & _). destruct (aff_exists _ _ _ H) as (A & HP & HA).
  destruct (wp_ex _ _ (af_to_storage_ok dbg m a A HA L I)) as (s & -> & S). exists s. split; [reflexivity|].
  destruct (af_from_storage_ok s A S) as [F _]. rewrite HP. apply aff_aok, F.
Qed.
Lemma C58_storage_example_pf : aff_at 1 AFFINE_G (Aff gx gy).
Proof. change (Aff gx gy) with G. rewrite <- sp_G. apply aff_aok, AFFINE_G_ok. Qed.
