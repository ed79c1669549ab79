(** Builds with overflow checks but without debug assertions: no overflow ever happens, on any coordinates of small magnitude, whether or not they are those of a point. *)
From Verif Require Import Word MField MScalar MGroup MEcmult MEcdsa MDer MApi Mono XField XScalar XGroup XEcmult XEcdsa XDer XApi Builds BuildsQ.
From Verif Require Import WP FieldMul FieldNorm Spec Fp Bits FieldOps FieldCodec FieldStore Denote Wnaf WnafC Curve Group Chain Order Jac JacOps Table Ecmult Lift Gen Key Ctx ApiScalar ApiDer ApiPub ApiGroup Ecdsa ApiEcdsa ApiKeys ApiBuilds.

Lemma lift {A} (g : option A) (x : bool * bool -> option A) (P Q : A -> Prop) : x (true, true) = g -> (forall c c', bge c c' -> ref (x c) (x c')) -> wp g P -> (forall a, P a -> Q a) -> forall c, wp (x c) Q.
Proof. intros E M H K c. destruct (wp_up _ _ _ H (up g x c E M)) as (v & -> & V). exact (K v V). Qed.
(** coordinates a field operation accepts *)
Definition am (a : affine) : Prop := fok 6 (af_x a) /\ fok 6 (af_y a).
Definition jm (j : jac) : Prop := fok 6 (j_x j) /\ fok 6 (j_y j) /\ fok 6 (j_z j).

Section Build.
Variable o : bool.
Local Notation B := (false, o).
Lemma x_mul a b : fok 8 a -> fok 8 b -> wp (f_mul_x B a b) (fok 1).
Proof. intros H K. refine (lift _ (fun c => f_mul_x c a b) _ _ (f_mul_corner true a b) (fun c c' Q => f_mul_off c c' Q a b) (f_mul_rep true a b _ _ (fok_frep _ _ H) (fok_frep _ _ K)) _ B). intros r R. apply R. Qed.
Lemma x_sqr a : fok 8 a -> wp (f_sqr_x B a) (fok 1).
Proof. intros H. refine (lift _ (fun c => f_sqr_x c a) _ _ (f_sqr_corner true a) (fun c c' Q => f_sqr_off c c' Q a) (f_sqr_rep true a _ (fok_frep _ _ H)) _ B). intros r R. apply R. Qed.
Lemma x_inv a : fok 8 a -> wp (f_inv_x B a) (fok 1).
Proof. intros H. refine (lift _ (fun c => f_inv_x c a) _ _ (f_inv_corner true a) (fun c c' Q => f_inv_off c c' Q a) (f_inv_rep true a _ (fok_frep _ _ H)) _ B). intros r R. apply R. Qed.
Lemma x_sqrt a : fok 8 a -> wp (f_sqrt_x B a) (fun '(r, _) => fok 1 r).
Proof. intros H. refine (lift _ (fun c => f_sqrt_x c a) _ _ (f_sqrt_corner true a) (fun c c' Q => f_sqrt_off c c' Q a) (f_sqrt_rep true a _ (fok_frep _ _ H)) _ B). intros [r b] R. apply R. Qed.
Lemma x_add a b k k' : fok k a -> fok k' b -> k + k' <= 32 -> wp (f_add_x B a b) (fok (k + k')).
Proof. intros H K L. refine (lift _ (fun c => f_add_x c a b) _ _ (f_add_corner true a b) (fun c c' Q => f_add_off c c' Q a b) (f_add_rep true a b _ _ _ _ (fok_frep _ _ H) (fok_frep _ _ K) L) _ B). intros r R. apply R. Qed.
Lemma x_neg a m : fok m a -> 0 <= m <= 31 -> wp (f_neg_x B a m) (fok (m + 1)).
Proof. intros H L. refine (lift _ (fun c => f_neg_x c a m) _ _ (f_neg_corner true a m) (fun c c' Q => f_neg_off c c' Q a m) (f_neg_rep true a _ m (fok_frep _ _ H) L) _ B). intros r R. apply R. Qed.
Lemma x_mul_int a k m : fok k a -> 0 <= m -> k * m <= 32 -> wp (f_mul_int_x B a m) (fok (k * m)).
Proof. intros H L K. refine (lift _ (fun c => f_mul_int_x c a m) _ _ (f_mul_int_corner true a m) (fun c c' Q => f_mul_int_off c c' Q a m) (f_mul_int_rep true a _ k m (fok_frep _ _ H) L K) _ B). intros r R. apply R. Qed.
Lemma x_weak a : fok 31 a -> wp (f_normalize_weak_x B a) (fok 1).
Proof. intros H. refine (lift _ (fun c => f_normalize_weak_x c a) _ _ (f_normalize_weak_corner true a) (fun c c' Q => f_normalize_weak_off c c' Q a) (f_normalize_weak_rep true a _ (fok_frep _ _ H)) _ B). intros r R. apply R. Qed.
Lemma x_norm a : fok 31 a -> wp (f_normalize_x B a) fcan.
Proof. intros H. refine (lift _ (fun c => f_normalize_x c a) _ _ (f_normalize_corner true a) (fun c c' Q => f_normalize_off c c' Q a) (f_normalize_rep true a _ (fok_frep _ _ H)) _ B). intros r R. apply R. Qed.
Lemma x_norm_var a : fok 31 a -> wp (f_normalize_var_x B a) fcan.
Proof. intros H. refine (lift _ (fun c => f_normalize_var_x c a) _ _ (f_normalize_var_corner true a) (fun c c' Q => f_normalize_var_off c c' Q a) (f_normalize_var_rep true a _ (fok_frep _ _ H)) _ B). intros r R. apply R. Qed.
Lemma x_to_zero a : fok 31 a -> wp (f_normalizes_to_zero_x B a) (fun _ => True).
Proof. intros H. refine (lift _ (fun c => f_normalizes_to_zero_x c a) _ _ (f_normalizes_to_zero_corner true a) (fun c c' Q => f_normalizes_to_zero_off c c' Q a) (f_normalizes_to_zero_rep true a _ (fok_frep _ _ H)) _ B). trivial. Qed.
Lemma x_to_zero_var a : fok 31 a -> wp (f_normalizes_to_zero_var_x B a) (fun _ => True).
Proof. intros H. refine (lift _ (fun c => f_normalizes_to_zero_var_x c a) _ _ (f_normalizes_to_zero_var_corner true a) (fun c c' Q => f_normalizes_to_zero_var_off c c' Q a) (f_normalizes_to_zero_var_rep true a _ (fok_frep _ _ H)) _ B). trivial. Qed.
Lemma x_set_int m : 0 <= m <= 67108863 -> wp (f_set_int_x B m) (fok 1).
Proof. intros H. refine (lift _ (fun c => f_set_int_x c m) _ _ (f_set_int_corner true m) (fun c c' Q => f_set_int_off c c' Q m) (f_set_int_rep true m H) _ B). intros r [[R _] _]. exact R. Qed.
Lemma x_eq_var a b k : fok 1 a -> fok k b -> k <= 29 -> wp (f_eq_var_x B a b) (fun _ => True).
Proof. intros H K L. refine (lift _ (fun c => f_eq_var_x c a b) _ _ (f_eq_var_corner true a b) (fun c c' Q => f_eq_var_off c c' Q a b) (f_eq_var_rep true a b _ _ _ (fok_frep _ _ H) (fok_frep _ _ K) L) _ B). trivial. Qed.
Lemma x_eq a b k k' : fok k a -> fok k' b -> k + k' <= 30 -> wp (f_eq_x B a b) (fun _ => True).
Proof. intros H K L. refine (lift _ (fun c => f_eq_x c a b) _ _ (f_eq_corner true a b) (fun c c' Q => f_eq_off c c' Q a b) (f_eq_rep true a b _ _ _ _ (fok_frep _ _ H) (fok_frep _ _ K) L) _ B). trivial. Qed.
Lemma x_b32 a : fcan a -> wp (f_b32_x B a) (fun b => length b = 32%nat /\ bytes b).
Proof. intros H. refine (lift _ (fun c => f_b32_x c a) _ _ (f_b32_corner true a) (fun c c' Q => f_b32_off c c' Q a) (f_b32_rep true a (fe a) (conj H eq_refl)) _ B). intros r ->. apply be32_bytes. Qed.
Lemma x_odd a : fcan a -> wp (f_is_odd_x B a) (fun _ => True).
Proof. intros H. refine (lift _ (fun c => f_is_odd_x c a) _ _ (f_is_odd_corner true a) (fun c c' Q => f_is_odd_off c c' Q a) (f_is_odd_rep true a (fe a) (conj H eq_refl)) _ B). trivial. Qed.
Lemma x_to_storage a : fcan a -> wp (f_to_storage_x B a) (fun s => fs_ok s /\ fsv s < p).
Proof. intros H. refine (lift _ (fun c => f_to_storage_x c a) _ _ (f_to_storage_corner true a) (fun c c' Q => f_to_storage_off c c' Q a) (f_to_storage_rep true a (fe a) (conj H eq_refl)) _ B). intros s [S E]. split; [exact S|]. rewrite E. apply val_range. Qed.

Lemma fok_default : fok 6 f_default. Proof. repeat split; vm_compute; congruence. Qed.
Lemma fok_FE1 : fok 6 FE1. Proof. destruct (fcrep_frep _ _ 6 fcrep_FE1 ltac:(lia)) as [H _]. exact H. Qed.
Lemma as_ok s s' : fs_ok s /\ fsv s < p -> fs_ok s' /\ fsv s' < p -> fok 1 (af_x (af_from_storage (As s s'))) /\ fok 1 (af_y (af_from_storage (As s s'))).
Proof. intros [A A'] [C C']. destruct (f_from_storage_rep s A A') as [[H _] _]. destruct (f_from_storage_rep s' C C') as [[K _] _]. split; [exact H | exact K]. Qed.

Ltac fr := first [ eassumption | eapply fok_mono; [eassumption | lia] ].
Ltac gs :=
  lazymatch goal with
  | |- wp (bind (f_mul_x _ _ _) _) _ => eapply wp_bind; [eapply x_mul; fr | cbv beta; intros ? ?]
  | |- wp (bind (f_sqr_x _ _) _) _ => eapply wp_bind; [eapply x_sqr; fr | cbv beta; intros ? ?]
  | |- wp (bind (f_inv_x _ _) _) _ => eapply wp_bind; [eapply x_inv; fr | cbv beta; intros ? ?]
  | |- wp (bind (f_add_x _ _ _) _) _ => eapply wp_bind; [eapply x_add; [eassumption | eassumption | lia] | cbv beta; intros ? ?]
  | |- wp (bind (f_neg_x _ _ _) _) _ => eapply wp_bind; [eapply x_neg; [fr | lia] | cbv beta; intros ? ?]
  | |- wp (bind (f_mul_int_x _ _ _) _) _ => eapply wp_bind; [eapply x_mul_int; [eassumption | lia | lia] | cbv beta; intros ? ?]
  | |- wp (bind (f_normalize_weak_x _ _) _) _ => eapply wp_bind; [eapply x_weak; fr | cbv beta; intros ? ?]
  | |- wp (bind (f_normalizes_to_zero_x _ _) _) _ => eapply wp_bind; [eapply x_to_zero; fr | cbv beta; intros ? _]
  | |- wp (bind (f_normalizes_to_zero_var_x _ _) _) _ => eapply wp_bind; [eapply x_to_zero_var; fr | cbv beta; intros ? _]
  | |- wp (bind (f_set_int_x _ _) _) _ => eapply wp_bind; [eapply x_set_int; unfold CURVE_B; lia | cbv beta; intros ? ?]
  | |- wp (bind (dassert (fst (false, _)) _) ?f) ?Q => change (wp (f tt) Q); cbv beta
  | |- wp (bind (Some ?a) ?f) ?Q => change (wp (f a) Q); cbv beta
  end.
Ltac am_done := split; cbn [af_x af_y]; fr.
Ltac jm_done := split; [|split]; cbn [j_x j_y j_z]; fr.

Lemma x_set_gej a : jm a -> wp (af_set_gej_x B a) (fun r => am r /\ af_inf r = j_inf a).
Proof. intros (X & Y & Z). unfold af_set_gej_x. repeat gs. apply wp_some. split; [am_done | reflexivity]. Qed.
Lemma x_set_gej_zinv a zi : jm a -> fok 6 zi -> wp (af_set_gej_zinv_x B a zi) (fun r => fok 1 (af_x r) /\ fok 1 (af_y r)).
Proof. intros (X & Y & Z) W. unfold af_set_gej_zinv_x. repeat gs. apply wp_some. split; assumption. Qed.
Lemma x_set_ge a : am a -> wp (j_set_ge_x B a) (fun r => jm r /\ j_inf r = af_inf a).
Proof. intros (X & Y). unfold j_set_ge_x. repeat gs. apply wp_some. split; [jm_done | reflexivity]. Qed.
Lemma x_af_neg a : am a -> wp (af_neg_x B a) am.
Proof. intros (X & Y). unfold af_neg_x. repeat gs. apply wp_some. am_done. Qed.
Lemma x_af_eq a b : am a -> am b -> wp (af_eq_x B a b) (fun _ => True).
Proof.
  intros (X & Y) (X' & Y'). unfold af_eq_x. eapply wp_bind; [eapply x_eq; [exact X | exact X' | lia]|]. cbv beta. intros b1 _. destruct (negb b1); [exact Logic.I|].
  eapply wp_bind; [eapply x_eq; [exact Y | exact Y' | lia]|]. cbv beta. intros b2 _. destruct (negb b2); exact Logic.I.
Qed.
Lemma x_is_valid a : am a -> wp (af_is_valid_var_x B a) (fun _ => True).
Proof. intros (X & Y). unfold af_is_valid_var_x. destruct (af_inf a); [exact Logic.I|]. repeat gs. eapply x_eq_var; [eassumption | eassumption | lia]. Qed.
Lemma x_to_astorage a : am a -> wp (af_to_storage_x B a) (fun s => fok 1 (af_x (af_from_storage s)) /\ fok 1 (af_y (af_from_storage s))).
Proof.
  intros (X & Y). unfold af_to_storage_x. gs. eapply wp_bind; [apply x_norm; fr|]. intros x CX. eapply wp_bind; [apply x_norm; fr|]. intros y CY.
  eapply wp_bind; [apply x_to_storage, CX|]. intros sx SX. eapply wp_bind; [apply x_to_storage, CY|]. intros sy SY. apply wp_some. apply as_ok; assumption.
Qed.
Lemma x_eq_x_var a x : jm a -> fok 8 x -> wp (j_eq_x_var_x B a x) (fun _ => True).
Proof. intros (X & Y & Z) H. unfold j_eq_x_var_x. repeat gs. eapply x_eq_var; [eassumption | eassumption | lia]. Qed.
Definition om (z : option field) (z' : option field) : Prop := match z, z' with None, None => True | Some _, Some f => fok 6 f | _, _ => False end.
Lemma x_double_in self a z : jm self -> jm a -> wp (j_double_var_in_place_x B self a z) (fun '(r, z') => jm r /\ om z z').
Proof.
  intros (SX & SY & SZ) (X & Y & Z). unfold j_double_var_in_place_x. destruct (j_inf a).
  - destruct z as [f|]; cbn [om].
    + eapply wp_bind; [gs; apply wp_some; instantiate (1 := fun q => om (Some f_default) q); cbn [om]; fr|]. cbv beta. intros q Q. apply wp_some. split; [jm_done | exact Q].
    + gs. apply wp_some. split; [jm_done | exact Logic.I].
  - eapply (wp_bind _ _ (fun q => om z q)).
    + destruct z as [f|]; [|exact Logic.I]. do 2 gs. apply wp_some. cbn [om]. fr.
    + cbv beta. intros q Q. repeat gs. apply wp_some. split; [jm_done | exact Q].
Qed.
Lemma jm_default : jm j_default. Proof. split; [|split]; exact fok_default. Qed.
Lemma x_double a : jm a -> wp (j_double_x B a) jm.
Proof. intros H. unfold j_double_x, j_double_var_x. eapply wp_bind; [apply x_double_in; [exact jm_default | exact H]|]. intros [r z] [R _]. exact R. Qed.
Lemma x_double_nz s a : jm s -> jm a -> wp (j_double_nonzero_in_place_x B s a) jm.
Proof. intros S H. unfold j_double_nonzero_in_place_x. gs. eapply wp_bind; [apply x_double_in; [exact S | exact H]|]. intros [r z] [R _]. exact R. Qed.
Lemma x_tail u1 s1 i i2 h2 h3 z : fok 6 u1 -> fok 6 s1 -> fok 6 i -> fok 1 i2 -> fok 1 h2 -> fok 1 h3 -> fok 6 z -> wp (j_add_tail_x B u1 s1 i i2 h2 h3 z) jm.
Proof. intros. unfold j_add_tail_x. repeat gs. apply wp_some. jm_done. Qed.
Lemma x_same a i z : jm a -> fok 31 i -> wp (j_add_same_x_x B a i z) (fun '(r, z') => jm r /\ om z z').
Proof.
  intros A I. unfold j_add_same_x_x. gs. destruct a0; [apply x_double_in; [exact jm_default | exact A]|]. eapply (wp_bind _ _ (fun q => om z q)).
  - destruct z as [f|]; [|exact Logic.I]. gs. apply wp_some. cbn [om]. fr.
  - cbv beta. intros q Q. apply wp_some. split; [split; [|split]; exact fok_default | exact Q].
Qed.
Lemma x_add_ge_var a b z : jm a -> am b -> match z with Some f => fok 6 f | None => True end -> wp (j_add_ge_var_x B a b z) (fun '(r, z') => jm r /\ om z z').
Proof.
  intros A Bm ZO. unfold j_add_ge_var_x. destruct (j_inf a).
  - gs. eapply wp_bind; [apply x_set_ge, Bm|]. intros r [R _]. apply wp_some. split; [exact R | destruct z; [exact ZO | exact Logic.I]].
  - destruct (af_inf b).
    + eapply (wp_bind _ _ (fun q => om z q)); [destruct z as [f|]; [gs; apply wp_some; cbn [om]; fr | exact Logic.I]|]. cbv beta. intros q Q. apply wp_some. split; [exact A | exact Q].
    + pose proof A as (X & Y & Z). destruct Bm as (BX & BY). do 10 gs. gs. match goal with |- wp (if ?q then _ else _) _ => destruct q end; [apply x_same; [exact A | fr]|].
      do 3 gs. gs. gs. eapply wp_bind; [apply x_tail; fr|]. intros r R. apply wp_some. split; [exact R|]. destruct z; cbn [om]; [fr | exact Logic.I].
Qed.
Lemma x_add_ge_v a b : jm a -> am b -> wp (j_add_ge_v_x B a b) jm.
Proof. intros A Bm. unfold j_add_ge_v_x. eapply wp_bind; [apply x_add_ge_var; [exact A | exact Bm | exact Logic.I]|]. intros [r z] [R _]. exact R. Qed.
Lemma x_add_zinv a b bz : jm a -> am b -> fok 6 bz -> wp (j_add_zinv_var_x B a b bz) jm.
Proof.
  intros A (BX & BY) W. pose proof A as (X & Y & Z). unfold j_add_zinv_var_x. destruct (af_inf b); [exact A|]. destruct (j_inf a).
  - repeat gs. apply wp_some. jm_done.
  - do 12 gs. match goal with |- wp (if ?q then _ else _) _ => destruct q end.
    + eapply wp_bind; [apply x_same; [exact A | fr]|]. intros [r z] [R _]. exact R.
    + do 4 gs. apply x_tail; fr.
Qed.
Lemma cmov_ok k f g c : fok k f -> fok k g -> fok k (f_cmov f g c).
Proof. intros H K. rewrite f_cmov_eq. destruct c; assumption. Qed.
Lemma x_add_ge a b : jm a -> am b -> wp (j_add_ge_x B a b) jm.
Proof.
  intros (X & Y & Z) (BX & BY). unfold j_add_ge_x. do 14 gs.
  eapply (wp_bind _ _ (fun _ => True)). { match goal with |- wp (if ?q then _ else _) _ => destruct q end; [apply x_to_zero; fr | exact Logic.I]. }
  cbv beta. intros deg _. do 2 gs.
  match goal with |- wp (bind (Some (f_cmov ?x ?y ?c)) _) _ => assert (RA : fok 6 (f_cmov x y c)) by (apply cmov_ok; fr); generalize dependent (f_cmov x y c); intros ra RA; gs end.
  match goal with |- wp (bind (Some (f_cmov ?x ?y ?c)) _) _ => assert (MA : fok 6 (f_cmov x y c)) by (apply cmov_ok; fr); generalize dependent (f_cmov x y c); intros ma MA; gs end.
  do 3 gs.
  match goal with |- wp (bind (Some (f_cmov ?x ?y ?c)) _) _ => assert (NN : fok 2 (f_cmov x y c)) by (apply cmov_ok; fr); generalize dependent (f_cmov x y c); intros nn NN; gs end.
  do 4 gs. gs. do 3 gs. gs. do 7 gs. gs.
  match goal with |- wp (bind (Some (f_cmov ?x ?y ?c)) _) _ => assert (X3 : fok 6 (f_cmov x y c)) by (apply cmov_ok; fr); generalize dependent (f_cmov x y c); intros x3 X3; gs end.
  match goal with |- wp (bind (Some (f_cmov ?x ?y ?c)) _) _ => assert (Y3 : fok 6 (f_cmov x y c)) by (apply cmov_ok; fr); generalize dependent (f_cmov x y c); intros y3 Y3; gs end.
  match goal with |- wp (bind (Some (f_cmov ?x ?y ?c)) _) _ => assert (Z3 : fok 6 (f_cmov x y c)) by (apply cmov_ok; first [exact fok_FE1 | fr]); generalize dependent (f_cmov x y c); intros z3 Z3; gs end.
  apply wp_some. jm_done.
Qed.
(** * Tables *)
Lemma x_odd_loop k : forall prev d, jm prev -> am d -> wp (odd_mult_loop_x B k prev d) (fun '(pj, zr) => Forall jm pj /\ Forall (fok 6) zr /\ length pj = k /\ length zr = k).
Proof.
  induction k as [|k IH]; intros prev d P D; cbn [odd_mult_loop_x]; [repeat constructor|].
  eapply wp_bind; [apply x_add_ge_var; [exact P | exact D | exact fok_default]|]. intros [nx z] [N Z]. destruct z as [z|]; [|contradiction]. cbn [om] in Z. gs.
  eapply wp_bind; [apply IH; [exact N | exact D]|]. intros [pj zr] (F & G & L & M). apply wp_some. split; [constructor; assumption|]. split; [constructor; assumption|]. split; cbn [length]; lia.
Qed.
Lemma x_scale_last dz : fok 6 dz -> forall l, l <> [] -> Forall jm l -> wp (scale_last_x B l dz) (fun l' => Forall jm l' /\ length l' = length l).
Proof.
  intros D. induction l as [|a l IH]; intros NE H; [contradiction|]. inversion H as [|? ? A T]; subst. cbn [scale_last_x]. destruct l as [|b l].
  - destruct A as (X & Y & Z). gs. apply wp_some. split; [|reflexivity]. constructor; [jm_done | constructor].
  - eapply wp_bind; [apply IH; [discriminate | exact T]|]. cbv beta. intros t [F L]. apply wp_some. split; [constructor; assumption | cbn [length]; cbn [length] in L; lia].
Qed.
Lemma x_odd_table k a : jm a -> wp (odd_multiples_table_x B (Datatypes.S k) a) (fun '(pj, zr) => Forall jm pj /\ Forall (fok 6) zr /\ length pj = Datatypes.S k /\ length zr = Datatypes.S k).
Proof.
  intros A. unfold odd_multiples_table_x. do 2 gs. eapply wp_bind; [apply x_double, A|]. cbv beta. intros d (DX & DY & DZ). gs.
  eapply wp_bind; [apply x_set_gej_zinv; [exact A | exact DZ]|]. cbv beta. intros g (GX & GY). gs. destruct A as (AX & AY & AZ).
  eapply wp_bind; [apply x_odd_loop; [jm_done | am_done]|]. intros [pj zr] (F & G & L & M).
  eapply wp_bind; [apply x_scale_last; [exact DZ | discriminate | constructor; [jm_done | exact F]]|]. cbv beta. intros pj' [F' L']. apply wp_some.
  cbn [length] in L'. split; [exact F'|]. split; [constructor; assumption|]. split; [|cbn [length]]; lia.
Qed.
Lemma am1 a : fok 1 (af_x a) /\ fok 1 (af_y a) -> am a. Proof. intros [X Y]. am_done. Qed.
Lemma x_table_loop : forall ra rzr zi acc, (length ra <= length rzr)%nat -> Forall jm ra -> Forall (fok 6) rzr -> fok 6 zi -> Forall am acc ->
  wp (set_table_loop_x B ra rzr zi acc) (fun t => Forall am t /\ length t = (length ra + length acc)%nat).
Proof.
  induction ra as [|a ra IH]; intros rzr zi acc L H G Z A; [destruct rzr; (split; [exact A | reflexivity])|]. destruct rzr as [|z rzr]; [cbn [length] in L; lia|].
  inversion H; subst. inversion G; subst. cbn [set_table_loop_x]. gs. eapply wp_bind; [apply x_set_gej_zinv; [assumption | fr]|]. cbv beta. intros r R.
  eapply wp_mono; [apply IH; [cbn [length] in L; lia | assumption | assumption | fr | constructor; [apply am1, R | exact A]]|]. cbv beta. intros t [T LT]. split; [exact T|]. cbn [length] in *. lia.
Qed.
Lemma x_globalz a zr : length a = length zr -> a <> [] -> Forall jm a -> Forall (fok 6) zr -> wp (globalz_set_table_gej_x B a zr) (fun '(t, z) => Forall am t /\ length t = length a /\ fok 6 z).
Proof.
  intros L N H G. unfold globalz_set_table_gej_x. gs. assert (LA : length (rev a) = length a) by apply rev_length. assert (LZ : length (rev zr) = length zr) by apply rev_length.
  apply Forall_rev in H. apply Forall_rev in G. destruct (rev a) as [|al ra]; [destruct a; [contradiction | discriminate LA]|]. destruct (rev zr) as [|zl rzr]; [cbn [length] in *; lia|].
  inversion H as [|? ? (X & Y & Z) HR]; subst. inversion G as [|? ? GZ GR]; subst. gs. destruct ra as [|a1 ra].
  - apply wp_some. split; [constructor; [am_done | constructor] | split; [exact LA | exact Z]].
  - inversion HR; subst. eapply wp_bind; [apply x_set_gej_zinv; assumption|]. cbv beta. intros r1 R1.
    eapply wp_bind; [apply x_table_loop; [cbn [length] in *; lia | assumption | assumption | assumption | constructor; [apply am1, R1 | constructor; [am_done | constructor]]]|].
    cbv beta. intros t [T LT]. apply wp_some. split; [exact T|]. split; [cbn [length] in *; lia | exact Z].
Qed.
Lemma x_windowa a : jm a -> wp (odd_multiples_table_globalz_windowa_x B a) (fun '(t, z) => Forall am t /\ length t = 8%nat /\ fok 6 z).
Proof.
  intros A. unfold odd_multiples_table_globalz_windowa_x. change ECMULT_TABLE_SIZE_A with 8%nat. eapply wp_bind; [apply x_odd_table, A|]. intros [pj zr] (F & G & L & M).
  eapply wp_mono; [apply x_globalz; [congruence | intros ->; discriminate L | exact F | exact G]|]. intros [t z] (T & LT & Z). split; [exact T|]. split; [congruence | exact Z].
Qed.
Lemma digits_off n w : digit_asserts_x B n w = Some tt. Proof. reflexivity. Qed.
Lemma nth_am (t : list affine) i : Forall am t -> 0 <= i < Z.of_nat (length t) -> exists a, idx t i = Some a /\ am a.
Proof.
  intros F L. rewrite idx_nth by lia. destruct (nth_error t (Z.to_nat i)) as [a|] eqn:E; [|apply nth_error_None in E; lia].
  exists a. split; [reflexivity|]. apply nth_error_In in E. exact (proj1 (Forall_forall _ _) F a E).
Qed.
Lemma quot_rng d m : 0 < d < 2 * m -> 0 <= Z.quot (d - 1) 2 < m.
Proof. intros H. rewrite Z.quot_div_nonneg by lia. Z.to_euclidean_division_equations; lia. Qed.
Lemma x_table_get t d : Forall am t -> length t = 8%nat -> d <> 0 -> -16 < d < 16 -> wp (table_get_ge_x B t d WINDOW_A) am.
Proof.
  intros F L N D. unfold table_get_ge_x. rewrite digits_off. gs. destruct (Z.ltb_spec 0 d) as [P|P].
  - destruct (nth_am t (Z.quot (d - 1) 2) F ltac:(rewrite L; apply quot_rng; cbn; lia)) as (a & -> & A). exact A.
  - destruct (nth_am t (Z.quot (- d - 1) 2) F ltac:(rewrite L; apply quot_rng; cbn; lia)) as (a & -> & A). gs. apply x_af_neg, A.
Qed.
Definition sm (s : astorage) : Prop := am (af_from_storage s).
Lemma x_storage_get t d : Forall sm t -> Z.of_nat (length t) = 16384 -> d <> 0 -> - 32768 < d < 32768 -> wp (table_get_ge_storage_x B t d WINDOW_G) am.
Proof.
  intros F L N D. unfold table_get_ge_storage_x. rewrite digits_off. gs.
  assert (K : forall i, 0 <= i < 16384 -> exists a, idx t i = Some a /\ sm a).
  { intros i H. rewrite idx_nth by lia. destruct (nth_error t (Z.to_nat i)) as [a|] eqn:E; [|apply nth_error_None in E; lia]. exists a. split; [reflexivity|]. apply nth_error_In in E. exact (proj1 (Forall_forall _ _) F a E). }
  destruct (Z.ltb_spec 0 d) as [P|P].
  - destruct (K (Z.quot (d - 1) 2) ltac:(apply quot_rng; lia)) as (a & -> & A). gs. exact A.
  - destruct (K (Z.quot (- d - 1) 2) ltac:(apply quot_rng; lia)) as (a & -> & A). gs. apply x_af_neg, A.
Qed.
Lemma x_loop pg pa z wa wg ba bg : Forall sm pg -> Z.of_nat (length pg) = 16384 -> Forall am pa -> length pa = 8%nat -> fok 6 z -> Z.of_nat (length wa) = 256 -> Z.of_nat (length wg) = 256 ->
  (forall i, 0 <= i -> wdigit 5 (digit wa i)) -> (forall i, 0 <= i -> wdigit 16 (digit wg i)) -> forall k r, Z.of_nat k <= 256 -> jm r -> wp (ecmult_loop_x B k pg pa z wa wg ba bg r) jm.
Proof.
  intros PG LG PA LA Z WA WG DA DG. induction k as [|k IH]; intros r K R; [exact R|]. cbn [ecmult_loop_x]. gs. eapply wp_bind; [apply x_double, R|]. cbv beta. intros r1 R1.
  rewrite idx_digit by lia. gs. eapply (wp_bind _ _ jm).
  { destruct (Z.eqb_spec (digit wa (Z.of_nat k)) 0) as [E|E]; [rewrite Bool.andb_false_r; exact R1|]. destruct (Z.of_nat k <? ba); cbn [andb negb]; [|exact R1].
    destruct (DA (Z.of_nat k) ltac:(lia)) as [?|[_ RG]]; [contradiction|]. change (2 ^ (5 - 1)) with 16 in RG. eapply wp_bind; [apply x_table_get; [exact PA | exact LA | exact E | exact RG]|]. cbv beta. intros t T. apply x_add_ge_v; assumption. }
  cbv beta. intros r2 R2. rewrite idx_digit by lia. gs. eapply (wp_bind _ _ jm).
  { destruct (Z.eqb_spec (digit wg (Z.of_nat k)) 0) as [E|E]; [rewrite Bool.andb_false_r; exact R2|]. destruct (Z.of_nat k <? bg); cbn [andb negb]; [|exact R2].
    destruct (DG (Z.of_nat k) ltac:(lia)) as [?|[_ RG]]; [contradiction|]. change (2 ^ (16 - 1)) with 32768 in RG. eapply wp_bind; [apply x_storage_get; [exact PG | exact LG | exact E | exact RG]|]. cbv beta. intros t T. apply x_add_zinv; assumption. }
  cbv beta. intros r3 R3. apply IH; [lia | exact R3].
Qed.
Definition cm (c : ecctx) : Prop := match c with Ctx t => Forall sm t /\ Z.of_nat (length t) = 16384 end.
Lemma x_recodes w a : 0 <= a < n -> 2 <= w <= 30 -> wp (ecmult_wnaf_x B 256 (scalar_of a) w) (fun '(l, bits) => Z.of_nat (length l) = 256 /\ 0 <= bits <= 256 /\ forall i, 0 <= i -> wdigit w (digit l i)).
Proof.
  intros A W. refine (lift _ (fun c => ecmult_wnaf_x c 256 (scalar_of a) w) _ _ (ecmult_wnaf_corner true _ _ _) (fun c c' Q => ecmult_wnaf_off c c' Q _ _ _) (recodes_ok true w a A W) _ B). intros [l bits] (H1 & H2 & _ & _ & H5). auto.
Qed.
Lemma x_ecmult ctx j a g : cm ctx -> jm j -> 0 <= a < n -> 0 <= g < n -> wp (ecmult_x B ctx j (scalar_of a) (scalar_of g)) jm.
Proof.
  destruct ctx as [pg]. intros [PG LG] J A G. unfold ecmult_x. eapply wp_bind; [apply x_recodes; [exact A | unfold WINDOW_A; lia]|]. intros [la ba] (L1 & B1 & D1).
  eapply wp_bind; [apply x_windowa, J|]. intros [pa z] (PA & LA & Z). eapply wp_bind; [apply x_recodes; [exact G | unfold WINDOW_G; lia]|]. intros [lg bg] (L2 & B2 & D2). gs.
  eapply wp_bind; [apply (x_loop pg pa z la lg ba bg PG LG PA LA Z L1 L2 D1 D2); [destruct (ba <? bg); lia | split; [|split]; exact fok_default]|].
  cbv beta. intros r (X & Y & W). destruct (j_inf r); [split; [|split]; assumption|]. gs. apply wp_some. jm_done.
Qed.
(** * The constant-time multiplication *)
Definition am1' (a : affine) : Prop := fok 6 (af_x a) /\ fok 1 (af_y a).
Lemma x_const_get t r d : Forall am1' t -> length t = 8%nat -> odd15 d -> wp (table_get_ge_const_x B r t d WINDOW_A) am.
Proof.
  intros F L [O R]. unfold table_get_ge_const_x. assert (NZ : d <> 0) by (intros ->; discriminate O).
  assert (AB : d * (b2z (0 <? d) * 2 - 1) = Z.abs d) by (destruct (Z.ltb_spec 0 d); cbn [b2z]; lia). rewrite AB. rewrite ichk_small by lia. do 2 gs. rewrite digits_off. gs.
  destruct (nth_error t (Z.to_nat (Z.quot (Z.abs d) 2))) as [a|] eqn:E.
  2:{ apply nth_error_None in E. rewrite L in E. rewrite Z.quot_div_nonneg in E by lia. exfalso. revert E. generalize (Z.abs_nonneg d). assert (Z.abs d < 16) by lia. intros. Z.to_euclidean_division_equations; lia. }
  rewrite (cmov_loop_ok t 0 _ _ _ a); [| rewrite Z.sub_0_r; exact E | rewrite Z.quot_div_nonneg by lia; apply Z.div_pos; lia].
  apply nth_error_In in E. destruct (proj1 (Forall_forall _ _) F a E) as [X Y]. gs. cbv beta iota. gs. gs. apply wp_some. split; cbn [af_x af_y]; [exact X|]. apply cmov_ok; fr.
Qed.
Lemma x_double_n k : forall r, jm r -> wp (double_nonzero_n_x B k r) jm.
Proof. induction k as [|k IH]; intros r R; [exact R|]. cbn [double_nonzero_n_x]. eapply wp_bind; [apply x_double_nz; exact R|]. cbv beta. intros r1 R1. apply IH, R1. Qed.
Lemma x_const_loop t l : Forall am1' t -> length t = 8%nat -> Z.of_nat (length l) = 65 -> (forall i, 0 <= i < 65 -> odd15 (digit l i)) -> forall k tmpa r, (k <= 64)%nat -> jm r -> wp (ecmult_const_loop_x B k t l tmpa r) jm.
Proof.
  intros F LT L D. induction k as [|k IH]; intros tmpa r K R; [exact R|]. cbn [ecmult_const_loop_x]. eapply wp_bind; [apply x_double_n, R|]. cbv beta. intros r1 R1. rewrite idx_digit by lia. gs.
  eapply wp_bind; [apply x_const_get; [exact F | exact LT | apply D; lia]|]. cbv beta. intros ta TA. gs. eapply wp_bind; [apply x_add_ge; assumption|]. cbv beta. intros r2 R2. apply IH; [lia | exact R2].
Qed.
Lemma x_mapo t : Forall am t -> wp (mapo (fun p => let* y := f_normalize_weak_x B (af_y p) in Some (Af (af_x p) y (af_inf p))) t) (fun t' => Forall am1' t' /\ length t' = length t).
Proof.
  induction t as [|a t IH]; intros H; cbn [mapo]; [split; [constructor | reflexivity]|]. inversion H as [|? ? (X & Y) T]; subst.
  eapply wp_bind; [gs; apply wp_some; instantiate (1 := am1'); split; cbn [af_x af_y]; assumption|]. cbv beta. intros q Q. eapply wp_bind; [apply IH, T|]. cbv beta. intros t' [F L]. apply wp_some. split; [constructor; assumption | cbn [length]; congruence].
Qed.
Lemma x_ecmult_const a k : am a -> 0 <= k < n -> wp (ecmult_const_x B a (scalar_of k)) jm.
Proof.
  intros A K. unfold ecmult_const_x. change (WINDOW_A - 1) with 4.
  eapply wp_bind. { refine (lift _ (fun c => ecmult_wnaf_const_x c 65 (scalar_of k) 4) _ (fun '(l, _) => Z.of_nat (length l) = 65 /\ forall i, 0 <= i < 65 -> odd15 (digit l i)) (ecmult_wnaf_const_corner true _ _ _) (fun c c' Q => ecmult_wnaf_const_off c c' Q _ _ _) (ecmult_wnaf_const_ok true k K) _ B). intros [l sk] (H1 & _ & H2 & _). auto. }
  intros [l sk] (L & D). eapply wp_bind; [apply x_set_ge, A|]. cbv beta. intros r [R _]. eapply wp_bind; [apply x_windowa, R|]. intros [t z] (T & LT & Z).
  eapply wp_bind; [apply x_mapo, T|]. cbv beta. intros t' [T' LT']. rewrite idx_digit by lia. do 2 gs. eapply wp_bind; [apply x_const_get; [exact T' | congruence | apply D; lia]|]. cbv beta. intros ta TA.
  eapply wp_bind; [apply x_set_ge, TA|]. cbv beta. intros r1 [R1 _]. eapply wp_bind; [apply x_const_loop; [exact T' | congruence | exact L | exact D | lia | exact R1]|]. cbv beta. intros r2 (X2 & Y2 & Z2).
  do 2 gs. eapply wp_bind; [apply x_set_ge, A|]. cbv beta. intros tj [TJ _]. eapply wp_bind; [apply x_double, TJ|]. cbv beta. intros tj2 TJ2. eapply wp_bind; [apply x_set_gej, TJ2|]. cbv beta. intros co [CO _].
  eapply wp_bind; [apply x_to_astorage, A|]. cbv beta. intros c1 C1. eapply wp_bind; [apply x_to_astorage, CO|]. cbv beta. intros a2 A2. gs.
  assert (CC : sm (as_cmov c1 a2 (sk =? 2))). { destruct c1 as [u v], a2 as [u' v']. unfold as_cmov, sm. rewrite !fs_cmov_eq. destruct (sk =? 2); apply am1; assumption. }
  eapply wp_bind; [apply x_af_neg; exact CC|]. cbv beta. intros cr CR. apply x_add_ge; [jm_done | exact CR].
Qed.
End Build.
