(** Programs in all four build configurations: overflow checks never make a difference to a program that uses the API. *)
From Verif Require Import Word MField MScalar MGroup MEcmult MEcdsa MDer MApi MEq MMachine MClient MDrbg Mono XField XScalar XGroup XEcmult XEcdsa XDer XApi XMachine XClient Builds BuildsQ.
From Verif Require Import WP FieldMul FieldNorm Spec Fp Bits FieldOps FieldCodec FieldStore Denote Wnaf WnafC Curve Group Chain Order Jac JacOps Table Ecmult Lift Gen Key Ctx ApiScalar ApiDer ApiPub ApiGroup Ecdsa ApiEcdsa ApiKeys ApiMachine ApiClient ApiDrbg ApiTotal ApiBuilds NoOvf.

(** * Any program in any state *)
Ltac same := lazymatch goal with |- ?x = ?x => exact eq_refl | |- _ => idtac end.
Ltac nths := repeat match goal with |- context [nth_error ?st ?i] => destruct (nth_error st i) as [[]|]; same end; same.
Lemma step_corner b gctx vctx D drbg fuel st c : step_x (b, b) gctx vctx D drbg fuel st c = step b gctx vctx D drbg fuel st c.
Proof.
  destruct c; cbn [step_x step]; same; nths.
  - rewrite pk_parse_slice_corner. reflexivity.
  - rewrite pk_from_secret_key_corner. reflexivity.
  - rewrite pk_serialize_corner. reflexivity.
  - rewrite pk_serialize_compressed_corner. reflexivity.
  - rewrite pk_tweak_add_assign_corner. reflexivity.
  - rewrite pk_tweak_mul_assign_corner. reflexivity.
  - destruct (pubs st l); [|reflexivity]. rewrite pk_combine_corner. reflexivity.
  - rewrite pk_eq_corner. reflexivity.
  - rewrite sk_parse_slice_corner. reflexivity.
  - rewrite sk_random_corner. reflexivity.
  - rewrite sk_default_corner. reflexivity.
  - rewrite sk_tweak_add_assign_corner. reflexivity.
  - rewrite sk_tweak_mul_assign_corner. reflexivity.
  - rewrite sk_inv_corner. reflexivity.
  - rewrite sig_parse_standard_slice_corner. reflexivity.
  - rewrite sig_parse_overflowing_slice_corner. reflexivity.
  - rewrite sig_parse_der_corner. reflexivity.
  - rewrite sig_parse_der_lax_corner. reflexivity.
  - rewrite sig_normalize_s_corner. reflexivity.
  - rewrite msg_parse_slice_corner. reflexivity.
  - rewrite shared_secret_new_corner. reflexivity.
  - rewrite verify_corner. reflexivity.
  - rewrite recover_corner. reflexivity.
  - unfold sign_x, sign. rewrite sign_loop_corner. reflexivity.
Qed.
Lemma call_corner b gctx vctx D drbg fuel st c : step_call_x (b, b) gctx vctx D drbg fuel st c = step_call b gctx vctx D drbg fuel st c.
Proof. destruct c; cbn [step_call_x step_call]; same; [apply step_corner|]. nths. rewrite pk_try_from_corner. reflexivity. Qed.
Lemma run_corner b gctx vctx D drbg fuel : forall p st, run_calls_x (b, b) gctx vctx D drbg fuel st p = run_calls b gctx vctx D drbg fuel st p.
Proof. induction p as [|c p IH]; intros st; cbn [run_calls_x run_calls]; [reflexivity|]. rewrite call_corner. destruct (step_call b gctx vctx D drbg fuel st c); [apply IH | reflexivity ..]. Qed.

(** What holds of one call of a function holds of the step that makes the call: [four tt tf ft ff]. *)
Definition four {A} (tt tf ft ff : outcome A) : Prop := oref tt tf /\ oref tt ft /\ oref tf ff /\ oref ft ff /\ (tt = Panic -> tf = Panic \/ ft = Panic).
Lemma four_refl {A} (x : outcome A) : four x x x x.
Proof. split; [right; reflexivity|]. split; [right; reflexivity|]. split; [right; reflexivity|]. split; [right; reflexivity | auto]. Qed.
Lemma omono_four {A} (x : bool * bool -> outcome A) : four (x (true, true)) (x (true, false)) (x (false, true)) (x (false, false)) -> omono x.
Proof.
  intros (H1 & H2 & H3 & H4 & _). assert (H0 : oref (x (true, true)) (x (false, false))) by (destruct H1 as [E|E]; [left; exact E | rewrite E; exact H3]).
  intros [[] []] [[] []] [G1 G2]; cbn [fst snd] in *; first [assumption | (right; reflexivity) | discriminate (G1 eq_refl) | discriminate (G2 eq_refl)].
Qed.
Lemma four_map {A B} (F : option A -> outcome B) (x : bool * bool -> option A) : F None = Panic -> (forall c c', bge c c' -> ref (x c) (x c')) -> quad (x (true, true)) (x (true, false)) (x (false, true)) (x (false, false)) ->
  four (F (x (true, true))) (F (x (true, false))) (F (x (false, true))) (F (x (false, false))).
Proof.
  intros N M Q. assert (R : forall c c', bge c c' -> oref (F (x c)) (F (x c'))).
  { intros c c' G. destruct (x c) as [a|] eqn:E; [rewrite (M c c' G a E); right; reflexivity | left; exact N]. }
  split; [apply R; split; intros H; discriminate H || exact H|]. split; [apply R; split; intros H; discriminate H || exact H|]. split; [apply R; split; intros H; discriminate H || exact H|]. split; [apply R; split; intros H; discriminate H || exact H|].
  intros P. destruct (x (true, true)) as [a|] eqn:E.
  - left. rewrite (M (true, true) (true, false) ltac:(split; intros H; discriminate H || exact H) a E). exact P.
  - destruct (quad_none _ _ _ _ Q eq_refl) as [->| ->]; [left | right]; exact N.
Qed.
Lemma four_outcome {A B} (F : outcome A -> outcome B) (x : bool * bool -> outcome A) : F Panic = Panic -> omono x -> (x (true, true) = Panic -> x (true, false) = Panic \/ x (false, true) = Panic) ->
  four (F (x (true, true))) (F (x (true, false))) (F (x (false, true))) (F (x (false, false))).
Proof.
  intros N M Q. assert (R : forall c c', bge c c' -> oref (F (x c)) (F (x c'))) by (intros c c' G; destruct (M c c' G) as [->| ->]; [left; exact N | right; reflexivity]).
  split; [apply R; split; intros H; discriminate H || exact H|]. split; [apply R; split; intros H; discriminate H || exact H|]. split; [apply R; split; intros H; discriminate H || exact H|]. split; [apply R; split; intros H; discriminate H || exact H|].
  intros P. destruct (x (true, true)) eqn:E.
  - left. destruct (M (true, true) (true, false) ltac:(split; intros H; discriminate H || exact H)) as [K|K]; [congruence|]. rewrite <- K, E. exact P.
  - destruct (Q eq_refl) as [->| ->]; [left | right]; exact N.
  - left. destruct (M (true, true) (true, false) ltac:(split; intros H; discriminate H || exact H)) as [K|K]; [congruence|]. rewrite <- K, E. exact P.
Qed.
Ltac same4 := lazymatch goal with |- four ?x ?x ?x ?x => apply four_refl | |- _ => idtac end.
Lemma step_four gctx vctx D drbg fuel st c : four (step_x (true, true) gctx vctx D drbg fuel st c) (step_x (true, false) gctx vctx D drbg fuel st c) (step_x (false, true) gctx vctx D drbg fuel st c) (step_x (false, false) gctx vctx D drbg fuel st c).
Proof.
  destruct c; cbn [step_x]; same4; repeat match goal with |- context [nth_error ?st ?i] => destruct (nth_error st i) as [[]|]; same4 end.
  - apply (four_map (fun o => push st (of_res CPub o)) (fun c => pk_parse_slice_x c b f)); [reflexivity | intros c c' G; apply (pk_parse_slice_off c c' G) | apply pk_parse_slice_quad].
  - apply (four_map (fun o => push st (of_opt CPub o)) (fun c => pk_from_secret_key_x c gctx k)); [reflexivity | intros c c' G; apply (pk_from_secret_key_off c c' G) | apply pk_from_secret_key_quad].
  - apply (four_map (fun o => push st (of_opt CBytes o)) (fun c => pk_serialize_x c k)); [reflexivity | intros c c' G; apply (pk_serialize_off c c' G) | apply pk_serialize_quad].
  - apply (four_map (fun o => push st (of_opt CBytes o)) (fun c => pk_serialize_compressed_x c k)); [reflexivity | intros c c' G; apply (pk_serialize_compressed_off c c' G) | apply pk_serialize_compressed_quad].
  - apply (four_map (fun o => assign CPub st i o) (fun c => pk_tweak_add_assign_x c vctx k k0)); [reflexivity | intros c c' G; apply (pk_tweak_add_assign_off c c' G) | apply pk_tweak_add_assign_quad].
  - apply (four_map (fun o => assign CPub st i o) (fun c => pk_tweak_mul_assign_x c vctx k k0)); [reflexivity | intros c c' G; apply (pk_tweak_mul_assign_off c c' G) | apply pk_tweak_mul_assign_quad].
  - destruct (pubs st l) as [ks|]; [|apply four_refl]. apply (four_map (fun o => push st (of_res CPub o)) (fun c => pk_combine_x c ks)); [reflexivity | intros c c' G; apply (pk_combine_off c c' G) | apply pk_combine_quad].
  - apply (four_map (fun o => push st (of_opt CBool o)) (fun c => pk_eq_x c k k0)); [reflexivity | intros c c' G; apply (pk_eq_off c c' G) | apply pk_eq_quad].
  - apply (four_map (fun o => push st (of_res CSec o)) (fun c => sk_parse_slice_x c b)); [reflexivity | intros c c' G; apply (sk_parse_slice_off c c' G) | apply sk_parse_slice_quad].
  - apply (four_outcome (fun o => match o with Done k => Done (st ++ [CSec k]) | Panic => Panic | Running => Running end) (fun c => sk_random_x c fuel rng 0)); [reflexivity | apply sk_random_off | apply sk_random_quad].
  - apply (four_map (fun o => push st (of_opt CSec o)) (fun c => sk_default_x c)); [reflexivity | intros c c' G; apply (sk_default_off c c' G) | apply sk_default_quad].
  - apply (four_map (fun o => assign CSec st i o) (fun c => sk_tweak_add_assign_x c k k0)); [reflexivity | intros c c' G; apply (sk_tweak_add_assign_off c c' G) | apply sk_tweak_add_assign_quad].
  - apply (four_map (fun o => assign CSec st i o) (fun c => sk_tweak_mul_assign_x c k k0)); [reflexivity | intros c c' G; apply (sk_tweak_mul_assign_off c c' G) | apply sk_tweak_mul_assign_quad].
  - apply (four_map (fun o => push st (of_opt CSec o)) (fun c => sk_inv_x c k)); [reflexivity | intros c c' G; apply (sk_inv_off c c' G) | apply sk_inv_quad].
  - apply (four_map (fun o => push st (of_res CSig o)) (fun c => sig_parse_standard_slice_x c b)); [reflexivity | intros c c' G; apply (sig_parse_standard_slice_off c c' G) | apply sig_parse_standard_slice_quad].
  - apply (four_map (fun o => push st (of_res CSig o)) (fun c => sig_parse_overflowing_slice_x c b)); [reflexivity | intros c c' G; apply (sig_parse_overflowing_slice_off c c' G) | apply sig_parse_overflowing_slice_quad].
  - apply (four_map (fun o => push st (of_res CSig o)) (fun c => sig_parse_der_x c b)); [reflexivity | intros c c' G; apply (sig_parse_der_off c c' G) | apply sig_parse_der_quad].
  - apply (four_map (fun o => push st (of_res CSig o)) (fun c => sig_parse_der_lax_x c b)); [reflexivity | intros c c' G; apply (sig_parse_der_lax_off c c' G) | apply sig_parse_der_lax_quad].
  - apply (four_map (fun o => match o with None => Panic | Some g' => Done (MMachine.upd st i (CSig g')) end) (fun c => sig_normalize_s_x c g)); [reflexivity | intros c c' G; apply (sig_normalize_s_off c c' G) | apply sig_normalize_s_quad].
  - apply (four_map (fun o => push st (of_res CMsg o)) (fun c => msg_parse_slice_x c b)); [reflexivity | intros c c' G; apply (msg_parse_slice_off c c' G) | apply msg_parse_slice_quad].
  - apply (four_map (fun o => push st (of_res CBytes o)) (fun c => shared_secret_new_x c D k k0)); [reflexivity | intros c c' G; apply (shared_secret_new_off c c' G) | apply shared_secret_new_quad].
  - apply (four_map (fun o => push st (of_opt CBool o)) (fun c => verify_x c vctx m g k)); [reflexivity | intros c c' G; apply (verify_off c c' G) | apply verify_quad].
  - apply (four_map (fun o => push st (of_res CPub o)) (fun c => recover_x c vctx m g i0)); [reflexivity | intros c c' G; apply (recover_off c c' G) | apply recover_quad].
  - apply (four_outcome (fun o => match o with Done (g, r) => Done (st ++ [CSig g; CRid r]) | Panic => Panic | Running => Running end) (fun c => sign_x c drbg fuel gctx m k)); [reflexivity | intros c c' G; unfold sign_x; apply (sign_loop_off _ _ _ _ _ _ c c' G) | apply sign_loop_quad].
Qed.
Lemma call_four gctx vctx D drbg fuel st c : four (step_call_x (true, true) gctx vctx D drbg fuel st c) (step_call_x (true, false) gctx vctx D drbg fuel st c) (step_call_x (false, true) gctx vctx D drbg fuel st c) (step_call_x (false, false) gctx vctx D drbg fuel st c).
Proof.
  destruct c; cbn [step_call_x]; same4; [apply step_four|]. destruct (nth_error st i) as [[]|]; same4.
  apply (four_map (fun o => push st (of_res CPub o)) (fun c => pk_try_from_x c k)); [reflexivity | intros c c' G; apply (pk_try_from_off c c' G) | apply pk_try_from_quad].
Qed.
Lemma run_four gctx vctx D drbg fuel : forall p st, four (run_calls_x (true, true) gctx vctx D drbg fuel st p) (run_calls_x (true, false) gctx vctx D drbg fuel st p) (run_calls_x (false, true) gctx vctx D drbg fuel st p) (run_calls_x (false, false) gctx vctx D drbg fuel st p).
Proof.
  induction p as [|c p IH]; intros st; cbn [run_calls_x]; [apply four_refl|]. destruct (call_four gctx vctx D drbg fuel st c) as (H1 & H2 & H3 & H4 & H5).
  set (w := step_call_x (true, true) gctx vctx D drbg fuel st c) in *. set (x := step_call_x (true, false) gctx vctx D drbg fuel st c) in *. set (y := step_call_x (false, true) gctx vctx D drbg fuel st c) in *. set (z := step_call_x (false, false) gctx vctx D drbg fuel st c) in *. clearbody w x y z.
  destruct H1 as [-> |E].
  - destruct (H5 eq_refl) as [->| ->].
    + destruct H4 as [->| ->]; [split; [left; reflexivity|]; split; [left; reflexivity|]; split; [left; reflexivity|]; split; [left; reflexivity | auto]|].
      split; [left; reflexivity|]. split; [left; reflexivity|]. split; [left; reflexivity|]. split; [|auto]. destruct z as [st'| |]; [exact (proj1 (proj2 (proj2 (proj2 (IH st'))))) | left; reflexivity | right; reflexivity].
    + destruct H3 as [->| ->]; [split; [left; reflexivity|]; split; [left; reflexivity|]; split; [left; reflexivity|]; split; [left; reflexivity | auto]|].
      split; [left; reflexivity|]. split; [left; reflexivity|]. split; [|split; [left; reflexivity | auto]]. destruct z as [st'| |]; [exact (proj1 (proj2 (proj2 (IH st')))) | left; reflexivity | right; reflexivity].
  - subst x. destruct w as [st'| |].
    + destruct H2 as [E|E]; [discriminate E|]. subst y. destruct H3 as [E|E]; [discriminate E|]. subst z. apply IH.
    + split; [left; reflexivity|]. split; [left; reflexivity|]. split; [left; reflexivity|]. split; [|auto]. destruct H4 as [->| ->]; [left; reflexivity|]. destruct z as [st'| |]; [|left; reflexivity | right; reflexivity]. exact (proj1 (proj2 (proj2 (proj2 (IH st'))))).
    + destruct H2 as [E|E]; [discriminate E|]. subst y. destruct H3 as [E|E]; [discriminate E|]. subst z. apply four_refl.
Qed.

(** * Programs that hold points of moderate coordinates and reduced scalars *)
Definition red (s : scalar) : Prop := exists a, 0 <= a < n /\ s = scalar_of a.
Definition mild (v : cval) : Prop :=
  match v with
  | CPub k => fok 6 (af_x k) /\ fok 6 (af_y k)
  | CSec s | CMsg s => red s
  | CSig g => red (sig_r g) /\ red (sig_s g)
  | CBytes b => small b
  | CRid i => 0 <= i < 4
  | _ => True
  end.
Lemma red_mod a : red (scalar_of (a mod n)). Proof. exists (a mod n). split; [apply Z.mod_pos_bound; pose proof n_pos; lia | reflexivity]. Qed.
Lemma red_u s : red s -> ScalarMul.s_u s. Proof. intros (a & _ & ->). apply scalar_of_u. Qed.
Definition mgives (o : option cval) : Prop := exists v, o = Some v /\ mild v.
Lemma mof_res {A} (f : A -> cval) (o : option (result A)) : (exists r, o = Some r /\ forall a, r = Ok a -> mild (f a)) -> mgives (of_res f o).
Proof. intros (r & -> & H). unfold of_res. change (bind (Some ?x) ?f) with (f x); cbv beta. destruct r as [a|e]; [exists (f a); auto | eexists; split; [reflexivity | exact Logic.I]]. Qed.
Lemma mof_opt {A} (f : A -> cval) (o : option A) : (exists a, o = Some a /\ mild (f a)) -> mgives (of_opt f o).
Proof. intros (a & -> & H). exists (f a). auto. Qed.
Lemma mild_nth st i v : Forall mild st -> nth_error st i = Some v -> mild v.
Proof. intros H E. apply nth_error_In in E. exact (proj1 (Forall_forall _ _) H v E). Qed.
Lemma mild_upd : forall st i v, Forall mild st -> mild v -> Forall mild (MMachine.upd st i v).
Proof. induction st as [|x st IH]; intros [|i] v H V; cbn [MMachine.upd]; inversion H; subst; constructor; auto. Qed.
Definition mgood (o : outcome (list cval)) : Prop := o = Running \/ exists st, o = Done st /\ Forall mild st.
Lemma mdone st : Forall mild st -> mgood (Done st). Proof. right. eauto. Qed.
Lemma madd st l : Forall mild st -> Forall mild l -> mgood (Done (st ++ l)). Proof. intros H L. apply mdone, Forall_app. auto. Qed.
Lemma madd1 st v : Forall mild st -> mild v -> mgood (Done (st ++ [v])). Proof. intros H L. apply madd; [exact H | constructor; [exact L | constructor]]. Qed.
Lemma mpush st o : Forall mild st -> mgives o -> mgood (push st o).
Proof. intros H (v & -> & V). apply madd1; assumption. Qed.
Lemma massign {A} (f : A -> cval) st i o : Forall mild st -> (exists k r, o = Some (k, r) /\ mild (f k)) -> mgood (assign f st i o).
Proof. intros H (k & r & -> & V). cbn [assign]. apply madd1; [apply mild_upd; assumption | destruct r; exact Logic.I]. Qed.
Lemma mild_pubs : forall st l ks, Forall mild st -> pubs st l = Some ks -> Forall am ks.
Proof.
  intros st. induction l as [|i l IH]; intros ks H E; cbn [pubs] in E; [injection E as <-; constructor|].
  destruct (nth_error st i) as [[]|] eqn:N; try discriminate E. destruct (pubs st l) as [ks'|]; [|discriminate E]. injection E as <-. constructor; [exact (mild_nth st i _ H N) | apply IH; [exact H | reflexivity]].
Qed.
Lemma verify_ctx_cm c : verify_ctx c -> cm c.
Proof.
  intros H. pose proof (verify_ctx_sized c H) as L. apply verify_ctx_ok in H. destruct c as [t]. split; [|exact L]. cbn [ctx_ok] in H. clear L. induction H as [|s A t l SA _ IH]; constructor; [|exact IH].
  destruct (af_from_storage_ok s A SA) as [(X & Y & _) _]. split; (eapply fok_mono; [eassumption | lia]).
Qed.
Lemma wpx {A} (x : option A) P : wp x P -> exists a, x = Some a /\ P a.
Proof. intros H. destruct x as [a|]; [exists a; split; [reflexivity | exact H] | destruct H]. Qed.

Lemma f31 f : fok 6 f -> fok 31 f. Proof. intros H. eapply fok_mono; [exact H | lia]. Qed.
Lemma f28 f : fok (1 + 1) f -> fok 8 f. Proof. intros H. eapply fok_mono; [exact H | lia]. Qed.

Section Run.
Variable o : bool.
Local Notation B := (false, o).
Ltac dosome := change (bind (Some ?x) ?f) with (f x); cbv beta iota.
Lemma r_set_b32 l : length l = 32%nat -> bytes l -> s_set_b32_x B l = Some (scalar_of (be_val l mod n), n <=? be_val l).
Proof. intros L H. apply (up _ (fun c => s_set_b32_x c l) B (s_set_b32_corner true _) (fun c c' Q => s_set_b32_off c c' Q _)). apply s_set_b32_eq; assumption. Qed.
Lemma r_add a b : red a -> red b -> exists r, s_add_x B a b = Some r /\ red r.
Proof.
  intros (u & U & ->) (v & V & ->). exists (scalar_of ((u + v) mod n)). split; [|apply red_mod].
  apply (up _ (fun c => s_add_x c (scalar_of u) (scalar_of v)) B (s_add_corner true _ _) (fun c c' Q => s_add_off c c' Q _ _)). apply s_add_eq; assumption.
Qed.
Lemma r_mul a b : red a -> red b -> exists r, s_mul_x B a b = Some r /\ red r.
Proof.
  pose proof n_lt. intros (u & U & ->) (v & V & ->). exists (scalar_of ((u * v) mod n)). split; [|apply red_mod].
  apply (up _ (fun c => s_mul_x c (scalar_of u) (scalar_of v)) B (s_mul_corner true _ _) (fun c c' Q => s_mul_off c c' Q _ _)). apply s_mul_eq; lia.
Qed.
Lemma r_neg a : red a -> exists r, s_neg_x B a = Some r /\ red r.
Proof. intros (u & U & ->). exists (scalar_of (- u mod n)). split; [|apply red_mod]. apply (up _ (fun c => s_neg_x c (scalar_of u)) B (s_neg_corner true _) (fun c c' Q => s_neg_off c c' Q _)). apply s_neg_eq; assumption. Qed.
Lemma r_inv a : red a -> exists r, s_inv_x B a = Some r /\ red r.
Proof. pose proof n_lt. intros (u & U & ->). exists (scalar_of (inv_mod n u)). split; [|exists (inv_mod n u); split; [apply inv_n_rng | reflexivity]]. apply (up _ (fun c => s_inv_x c (scalar_of u)) B (s_inv_corner true _) (fun c c' Q => s_inv_off c c' Q _)). apply s_inv_eq; lia. Qed.
Lemma r_field r : 0 <= r < n -> exists f b, f_set_b32_x B f_default (s_b32 (scalar_of r)) = Some (f, b) /\ fcan f.
Proof.
  intros R. pose proof n_lt. pose proof pnx. rewrite s_b32_eq by lia. destruct (be32_bytes r) as [L C].
  destruct (wp_up _ _ _ (f_set_b32_rep true f_default _ L C) (up _ (fun c => f_set_b32_x c f_default (be_bytes 32 r)) B (f_set_b32_corner true _ _) (fun c c' Q => f_set_b32_off c c' Q _ _))) as ([f b] & E & _ & F).
  exists f, b. split; [exact E|]. rewrite be32_val in F by lia. apply F. lia.
Qed.
Lemma m_from ctx k : gen_ctx ctx -> red k -> exists a, pk_from_secret_key_x B ctx k = Some a /\ am a.
Proof.
  intros GC (u & U & ->). apply gen_ctx_ok in GC. unfold pk_from_secret_key_x.
  destruct (wp_up _ _ _ (ecmult_gen_ok true ctx u GC U) (up _ (fun c => ecmult_gen_x c ctx (scalar_of u)) B (ecmult_gen_corner true _ _) (fun c c' Q => ecmult_gen_off c c' Q _ _))) as (j & -> & X & Y & Z & _). dosome.
  destruct (wpx _ _ (x_set_gej o j (conj X (conj Y Z)))) as (a & E & A & _). exists a. auto.
Qed.
Lemma m_serialize k : am k -> exists b, pk_serialize_x B k = Some b /\ small b.
Proof.
  intros [X Y]. unfold pk_serialize_x. change (dassert (fst B) ?b) with (Some tt). dosome.
  destruct (wpx _ _ (x_norm_var o _ (f31 _ X))) as (x & -> & CX). dosome. destruct (wpx _ _ (x_norm_var o _ (f31 _ Y))) as (y & -> & CY). dosome.
  destruct (wpx _ _ (x_b32 o x CX)) as (bx & -> & LX & BX). dosome. destruct (wpx _ _ (x_b32 o y CY)) as (b_y & -> & LY & BY). dosome. eexists. split; [reflexivity|]. apply small_be.
  - constructor; [unfold TAG_PUBKEY_FULL; lia|]. apply Forall_app. split; assumption.
  - cbn [length]. rewrite app_length, LX, LY. lia.
Qed.
Lemma m_serialize_compressed k : am k -> exists b, pk_serialize_compressed_x B k = Some b /\ small b.
Proof.
  intros [X Y]. unfold pk_serialize_compressed_x. change (dassert (fst B) ?b) with (Some tt). dosome.
  destruct (wpx _ _ (x_norm_var o _ (f31 _ X))) as (x & -> & CX). dosome. destruct (wpx _ _ (x_norm_var o _ (f31 _ Y))) as (y & -> & CY). dosome.
  destruct (wpx _ _ (x_b32 o x CX)) as (bx & -> & LX & BX). dosome. destruct (wpx _ _ (x_odd o y CY)) as (od & -> & _). dosome. eexists. split; [reflexivity|]. apply small_be.
  - constructor; [destruct od; unfold TAG_PUBKEY_ODD, TAG_PUBKEY_EVEN; lia | exact BX].
  - cbn [length]. rewrite LX. lia.
Qed.
Lemma red_int v : v = 0 \/ v = 1 -> s_from_int v = scalar_of v /\ 0 <= v < n.
Proof. intros [->| ->]; (split; [vm_compute; reflexivity | vmr]). Qed.
Lemma m_tweak_add ctx k t : cm ctx -> am k -> red t -> exists k' r, pk_tweak_add_assign_x B ctx k t = Some (k', r) /\ am k'.
Proof.
  intros C A (u & U & ->). unfold pk_tweak_add_assign_x. destruct (wpx _ _ (x_set_ge o k A)) as (j & -> & J & _). dosome. destruct (red_int 1 ltac:(auto)) as [-> R1]. dosome.
  destruct (wpx _ _ (x_ecmult o ctx j 1 u C J R1 U)) as (r & -> & R). dosome. destruct (j_inf r); [eexists _, _; split; [reflexivity | exact A]|].
  destruct (wpx _ _ (x_set_gej o r R)) as (k' & -> & K & _). dosome. eexists _, _. split; [reflexivity | exact K].
Qed.
Lemma m_tweak_mul ctx k t : cm ctx -> am k -> red t -> exists k' r, pk_tweak_mul_assign_x B ctx k t = Some (k', r) /\ am k'.
Proof.
  intros C A (u & U & ->). unfold pk_tweak_mul_assign_x. destruct (s_is_zero _); [eexists _, _; split; [reflexivity | exact A]|]. dosome. destruct (wpx _ _ (x_set_ge o k A)) as (j & -> & J & _). dosome. destruct (red_int 0 ltac:(auto)) as [-> R1].
  destruct (wpx _ _ (x_ecmult o ctx j u 0 C J U R1)) as (r & -> & R). dosome.
  destruct (wpx _ _ (x_set_gej o r R)) as (k' & -> & K & _). dosome. eexists _, _. split; [reflexivity | exact K].
Qed.
Lemma m_combine ks : Forall am ks -> exists r, pk_combine_x B ks = Some r /\ forall k, r = Ok k -> am k.
Proof.
  intros H. unfold pk_combine_x. assert (L : forall ks q, Forall am ks -> jm q -> exists q', combine_loop_x B q ks = Some q' /\ jm q').
  { clear ks H. induction ks as [|k ks IH]; intros q H Q; cbn [combine_loop_x]; [eauto|]. inversion H; subst. destruct (wpx _ _ (x_add_ge o q k Q ltac:(assumption))) as (q1 & -> & Q1). dosome. apply IH; assumption. }
  destruct (L ks j_set_infinity H) as (q & -> & Q); [split; [|split]; exact fok_default|]. dosome. destruct (j_inf q); [eexists; split; [reflexivity | intros k E; discriminate E]|].
  destruct (wpx _ _ (x_set_gej o q Q)) as (k' & -> & K & _). dosome. eexists. split; [reflexivity|]. intros k E. injection E as <-. exact K.
Qed.
Lemma m_parse b f : bytes b -> exists r, pk_parse_slice_x B b f = Some r /\ forall k, r = Ok k -> am k.
Proof.
  intros H. destruct (C17_pubkey_total_pf true b f H) as (r & E & K). exists r. split; [exact (up _ (fun c => pk_parse_slice_x c b f) B (pk_parse_slice_corner true _ _) (fun c c' Q => pk_parse_slice_off c c' Q _ _) _ E)|].
  intros k Ek. destruct (K k Ek) as (x & y & X & Y & _). split; [exact X | exact Y].
Qed.
Lemma m_sk_parse l : length l = 32%nat -> bytes l -> exists r, sk_parse_x B l = Some r /\ forall k, r = Ok k -> red k.
Proof.
  intros L H. unfold sk_parse_x. rewrite (r_set_b32 l L H). dosome. destruct (n <=? be_val l); cbn [negb]; eexists; (split; [reflexivity|]); intros k E; [discriminate E|]. unfold sk_try_from in E. destruct (s_is_zero _); [discriminate E|]. injection E as <-. apply red_mod.
Qed.
Lemma m_random rng : stream rng -> forall f i, sk_random_x B f rng i = Running \/ exists k, sk_random_x B f rng i = Done k /\ red k.
Proof.
  intros S. induction f as [|f IH]; intros i; cbn [sk_random_x]; [left; reflexivity|]. destruct (S i) as [L H]. destruct (m_sk_parse (rng i) L H) as ([k|e] & -> & K); [right; exists k; split; [reflexivity | apply K; reflexivity] | apply IH].
Qed.
Lemma m_default : sk_default_x B = Some (scalar_of 1).
Proof. apply (up _ (fun c => sk_default_x c) B (sk_default_corner true) (fun c c' Q => sk_default_off c c' Q)). apply C39_default_pf. Qed.
Lemma m_der b : small b -> exists r, sig_parse_der_x B b = Some r /\ forall g, r = Ok g -> mild (CSig g).
Proof.
  intros [H L]. destruct (proj1 (C17_der_total_pf true b H L)) as [E|(r & s & R & S & E)]; apply (up _ (fun c => sig_parse_der_x c b) B (sig_parse_der_corner true _) (fun c c' Q => sig_parse_der_off c c' Q _)) in E; eexists; (split; [exact E|]); intros g G; [discriminate G|].
  injection G as <-. split; [exists r | exists s]; auto.
Qed.
Lemma m_der_lax b : small b -> exists r, sig_parse_der_lax_x B b = Some r /\ forall g, r = Ok g -> mild (CSig g).
Proof.
  intros [H L]. destruct (proj2 (C17_der_total_pf true b H L)) as [E|(r & s & R & S & E)]; apply (up _ (fun c => sig_parse_der_lax_x c b) B (sig_parse_der_lax_corner true _) (fun c c' Q => sig_parse_der_lax_off c c' Q _)) in E; eexists; (split; [exact E|]); intros g G; [discriminate G|].
  injection G as <-. split; [exists r | exists s]; auto.
Qed.
Lemma m_ecdh D k s : am k -> red s -> (forall b, small (D b)) -> exists r, shared_secret_new_x B D k s = Some r /\ forall b, r = Ok b -> small b.
Proof.
  intros A (u & U & ->) DS. unfold shared_secret_new_x, ecdh_raw_x. destruct (s_is_zero _); [eexists; split; [reflexivity | intros b E; discriminate E]|].
  destruct (wpx _ _ (x_ecmult_const o k u A U)) as (j & -> & J). dosome. destruct (wpx _ _ (x_set_gej o j J)) as (a & -> & [X Y] & _). dosome.
  destruct (wpx _ _ (x_norm o _ (f31 _ X))) as (x & -> & CX). dosome. destruct (wpx _ _ (x_norm o _ (f31 _ Y))) as (y & -> & CY). dosome.
  destruct (wpx _ _ (x_b32 o x CX)) as (bx & -> & LX & BX). dosome. destruct (wpx _ _ (x_odd o y CY)) as (od & -> & _). do 2 dosome. eexists. split; [reflexivity|]. intros b E. injection E as <-. apply DS.
Qed.
Lemma m_ge f g : fcan f -> fcan g -> exists c, f_ge_x B f g = Some c.
Proof.
  intros H K. destruct (wp_up _ _ _ (f_ge_rep true f g _ _ (conj H eq_refl) (conj K eq_refl)) (up _ (fun c => f_ge_x c f g) B (f_ge_corner true _ _) (fun c c' Q => f_ge_off c c' Q _ _))) as (c & E & _). eauto.
Qed.
Lemma m_verify ctx z g k : cm ctx -> red z -> red (sig_r g) -> red (sig_s g) -> am k -> exists b, verify_x B ctx z g k = Some b.
Proof.
  destruct g as [r s]. cbn [sig_r sig_s]. intros C Z R S A. unfold verify_x, verify_raw_x. cbn [sig_r sig_s]. destruct (s_is_zero r || s_is_zero s); [eauto|].
  destruct (r_inv s S) as (sn & -> & SN). dosome. destruct (r_mul sn z SN Z) as (u1 & -> & U1). dosome. destruct (r_mul sn r SN R) as (u2 & -> & U2). dosome.
  destruct (wpx _ _ (x_set_ge o k A)) as (j & -> & J & _). dosome. destruct U1 as (v1 & V1 & ->). destruct U2 as (v2 & V2 & ->). destruct (wpx _ _ (x_ecmult o ctx j v2 v1 C J V2 V1)) as (pr & -> & PR). dosome.
  destruct (j_inf pr); [eauto|]. dosome. destruct R as (x & X & ->). destruct (r_field x X) as (f & b & -> & F). dosome.
  assert (F8 : fok 8 f) by (destruct (fcrep_frep f (fe f) 8 (conj F eq_refl) ltac:(lia)) as [H _]; exact H).
  destruct (wpx _ _ (x_eq_x_var o pr f PR F8)) as (e & -> & _). dosome. destruct e; [eauto|]. destruct (m_ge f P_MINUS_ORDER F (proj1 P_MINUS_ORDER_rep)) as (c & ->). dosome. destruct c; [eauto|].
  destruct (wpx _ _ (x_add o f ORDER_AS_FE 1 1 (proj1 (fcrep_frep f (fe f) 1 (conj F eq_refl) ltac:(lia))) (proj1 (fcrep_frep _ _ 1 ORDER_AS_FE_rep ltac:(lia))) ltac:(lia))) as (f' & -> & F'). dosome.
  destruct (wpx _ _ (x_eq_x_var o pr f' PR (f28 _ F'))) as (e & -> & _). dosome. destruct e; eauto.
Qed.
Lemma m_recover ctx z g i : verify_ctx ctx -> red z -> red (sig_r g) -> red (sig_s g) -> 0 <= i < 4 -> exists r, recover_x B ctx z g i = Some r /\ forall k, r = Ok k -> am k.
Proof.
  destruct g as [r s]. cbn [sig_r sig_s]. intros C (u & U & ->) (v & V & ->) (w & W & ->) I.
  destruct (C25_recover_exact_pf true ctx u v w i C V W U I) as [(k & Q & E & K & _)|[E _]]; apply (up _ (fun c => recover_x c ctx (scalar_of u) (Sig (scalar_of v) (scalar_of w)) i) B (recover_corner true _ _ _ _) (fun c c' Q => recover_off c c' Q _ _ _ _)) in E; eexists; (split; [exact E|]); intros k' G; [|discriminate G].
  injection G as <-. destruct K as (X & Y & _). split; [exact X | exact Y].
Qed.
Lemma m_sign drbg fuel ctx z d : gen_ctx ctx -> (forall s s', stream (drbg s s')) -> red z -> red d -> sign_x B drbg fuel ctx z d = Running \/ exists g i, sign_x B drbg fuel ctx z d = Done (g, i) /\ mild (CSig g) /\ 0 <= i < 4.
Proof.
  intros GC RS (u & U & ->) (v & V & ->). rewrite (proj1 (C94_sign_pf drbg fuel ctx v u o GC RS V U)). unfold sign. specialize (RS (s_b32 (scalar_of v)) (s_b32 (scalar_of u))). set (gen := drbg _ _) in *. clearbody gen.
  destruct (sign_cases false ctx GC gen v u RS V U fuel 0%nat) as [(j & r & s & id & _ & _ & US & SF & E)|[[E _]|(_ & E & _)]]; [right | left; exact E | discriminate E].
  exists (Sig (scalar_of r) (scalar_of s)), id. split; [exact E|]. destruct US as (K & _). destruct (signature_for_ok v u _ r s id V U K SF) as (R & S1 & S2 & I & _). split; [|exact I]. split; [exists r | exists s]; (split; [lia | reflexivity]).
Qed.
Lemma m_try_from k : am k -> exists r, pk_try_from_x B k = Some r /\ forall k', r = Ok k' -> am k'.
Proof.
  intros A. unfold pk_try_from_x. destruct (af_inf k); [eexists; split; [reflexivity | intros ? E; discriminate E]|]. destruct (wpx _ _ (x_is_valid o k A)) as (v & -> & _). dosome. destruct v; cbn [negb]; eexists; (split; [reflexivity|]); intros k' E; [injection E as <-; exact A | discriminate E].
Qed.

Variables (gctx : genctx) (vctx : ecctx) (D : list Z -> list Z) (drbg : list Z -> list Z -> nat -> list Z) (fuel : nat).
Hypothesis (GC : gen_ctx gctx) (VC : verify_ctx vctx) (DS : forall b, small (D b)) (RS : forall s s', stream (drbg s s')).
Ltac nref H := lazymatch goal with |- mgood (match nth_error ?st ?i with _ => _ end) => let E := fresh "E" in destruct (nth_error st i) as [[]|] eqn:E; try (exact (mdone st H)); apply (mild_nth st i _ H) in E; cbn [mild] in E end.
Lemma mstep st c : Forall mild st -> cmd_ok c -> mgood (step_x B gctx vctx D drbg fuel st c).
Proof.
  intros H OK. pose proof (verify_ctx_cm vctx VC) as CM. destruct c; cbn [step_x cmd_ok] in *; repeat nref H.
  - apply madd1; assumption.
  - apply mpush; [exact H|]. apply mof_res. exact (m_parse b f (proj1 E)).
  - apply mpush; [exact H|]. apply mof_opt. exact (m_from gctx k GC E).
  - apply mpush; [exact H|]. apply mof_opt. exact (m_serialize k E).
  - apply mpush; [exact H|]. apply mof_opt. exact (m_serialize_compressed k E).
  - apply massign; [exact H|]. exact (m_tweak_add vctx k k0 CM E E0).
  - apply massign; [exact H|]. exact (m_tweak_mul vctx k k0 CM E E0).
  - destruct (pubs st l) as [ks|] eqn:P; [|apply mdone, H]. apply mpush; [exact H|]. apply mof_res. exact (m_combine ks (mild_pubs st l ks H P)).
  - apply mpush; [exact H|]. apply mof_opt. destruct (wpx _ _ (x_af_eq o k k0 E E0)) as (r & R & _). exists r. split; [exact R | exact Logic.I].
  - apply mpush; [exact H|]. apply mof_res. unfold sk_parse_slice_x. destruct (Nat.eqb_spec (length b) SECRET_KEY_SIZE) as [L|L]; cbn [negb]; [exact (m_sk_parse b L (proj1 E)) | eexists; split; [reflexivity | intros a Q; discriminate Q]].
  - destruct (m_random rng OK fuel 0%nat) as [->|(k & -> & K)]; [left; reflexivity | apply madd1; assumption].
  - apply mpush; [exact H|]. rewrite m_default. apply mof_opt. eexists. split; [reflexivity|]. exists 1. split; [vmr | reflexivity].
  - apply madd1; [exact H | apply s_b32_small, red_u, E].
  - apply massign; [exact H|]. unfold sk_tweak_add_assign_x. destruct (r_add k k0 E E0) as (r & -> & R). dosome. destruct (s_is_zero r); eexists _, _; (split; [reflexivity | assumption]).
  - apply massign; [exact H|]. unfold sk_tweak_mul_assign_x. destruct (s_is_zero k0); [eexists _, _; split; [reflexivity | exact E]|]. destruct (r_mul k k0 E E0) as (r & -> & R). dosome. eexists _, _. split; [reflexivity | exact R].
  - apply mpush; [exact H|]. apply mof_opt. exact (r_inv k E).
  - apply madd1; [exact H | exact Logic.I].
  - destruct E as [BB _]. apply mpush; [exact H|]. apply mof_res. unfold sig_parse_standard_slice_x, sig_parse_standard_x. destruct (Nat.eqb_spec (length b) SIGNATURE_SIZE) as [L|L]; cbn [negb]; [|eexists; split; [reflexivity | intros a Q; discriminate Q]].
    destruct (sub_shape b 0 BB ltac:(unfold SIGNATURE_SIZE in L; lia)) as [L0 B0]. destruct (sub_shape b 32 BB ltac:(unfold SIGNATURE_SIZE in L; lia)) as [L1 B1].
    rewrite (r_set_b32 _ L0 B0). dosome. rewrite (r_set_b32 _ L1 B1). dosome. destruct (_ || _); eexists; (split; [reflexivity|]); intros g Q; [discriminate Q|]. injection Q as <-. split; apply red_mod.
  - destruct E as [BB _]. apply mpush; [exact H|]. apply mof_res. unfold sig_parse_overflowing_slice_x, sig_parse_overflowing_x. destruct (Nat.eqb_spec (length b) SIGNATURE_SIZE) as [L|L]; cbn [negb]; [|eexists; split; [reflexivity | intros a Q; discriminate Q]].
    destruct (sub_shape b 0 BB ltac:(unfold SIGNATURE_SIZE in L; lia)) as [L0 B0]. destruct (sub_shape b 32 BB ltac:(unfold SIGNATURE_SIZE in L; lia)) as [L1 B1].
    rewrite (r_set_b32 _ L0 B0). dosome. rewrite (r_set_b32 _ L1 B1). do 2 dosome. eexists. split; [reflexivity|]. intros g Q. injection Q as <-. split; apply red_mod.
  - apply mpush; [exact H|]. apply mof_res. exact (m_der b E).
  - apply mpush; [exact H|]. apply mof_res. exact (m_der_lax b E).
  - destruct E as [U V]. unfold sig_normalize_s_x. destruct (s_is_high (sig_s g)); [|apply mdone, mild_upd; [exact H | split; assumption]]. destruct (r_neg _ V) as (s & -> & W). dosome. apply mdone, mild_upd; [exact H | split; assumption].
  - destruct E as [U V]. apply madd1; [exact H|]. destruct (s_b32_shape _ (red_u _ U)) as [L1 B1]. destruct (s_b32_shape _ (red_u _ V)) as [L2 B2]. apply small_be; [apply Forall_app; split; assumption | unfold sig_serialize; rewrite app_length, L1, L2; lia].
  - destruct E as [U V]. apply madd1; [exact H | apply der_small; apply red_u; assumption].
  - apply madd1; [exact H | exact Logic.I].
  - destruct E as [BB _]. apply mpush; [exact H|]. apply mof_res. unfold msg_parse_slice_x, msg_parse_x. destruct (Nat.eqb_spec (length b) MESSAGE_SIZE) as [L|L]; cbn [negb]; [|eexists; split; [reflexivity | intros a Q; discriminate Q]].
    rewrite (r_set_b32 b L BB). do 2 dosome. eexists. split; [reflexivity|]. intros a Q. injection Q as <-. apply red_mod.
  - apply madd1; [exact H | apply s_b32_small, red_u, E].
  - apply mpush; [exact H|]. apply mof_res. eexists. split; [reflexivity|]. intros i E. unfold rid_parse in E. destruct (Z.ltb_spec v 4) as [L|L]; [injection E as <-; cbn [mild]; lia | discriminate E].
  - apply mpush; [exact H|]. apply mof_res. eexists. split; [reflexivity|]. intros i E. unfold rid_parse_rpc, rid_parse in E. destruct (Z.leb_spec 27 v) as [L|L]; cbn [andb] in E; [|discriminate E]. destruct (v <? 31); [|discriminate E]. destruct (Z.ltb_spec (v - 27) 4) as [L'|L']; [injection E as <-; cbn [mild]; lia | discriminate E].
  - apply madd1; [exact H | exact Logic.I].
  - apply mpush; [exact H|]. apply mof_res. exact (m_ecdh D k k0 E E0 DS).
  - destruct E0 as [U V]. apply mpush; [exact H|]. apply mof_opt. destruct (m_verify vctx m g k CM E U V E1) as (r & R). exists r. split; [exact R | exact Logic.I].
  - destruct E0 as [U V]. apply mpush; [exact H|]. apply mof_res. exact (m_recover vctx m g _ VC E U V E1).
  - destruct (m_sign drbg fuel gctx m k GC RS E E0) as [->|(g & id & -> & G & ID)]; [left; reflexivity|]. apply madd; [exact H|]. constructor; [exact G|]. constructor; [exact ID | constructor].
Qed.
Lemma mcall st c : Forall mild st -> call_ok c -> mgood (step_call_x B gctx vctx D drbg fuel st c).
Proof.
  intros H OK. destruct c; cbn [step_call_x call_ok] in *; [apply mstep; assumption | ..]; repeat nref H.
  - apply mdone, mild_upd; [exact H|]. exists 0. split; [vmr | vm_compute; reflexivity].
  - apply madd1; [exact H | exact Logic.I].
  - apply madd1; [exact H | exact E].
  - apply mpush; [exact H|]. apply mof_res. eexists. split; [reflexivity|]. intros k Q. unfold sk_try_from in Q. destruct (s_is_zero m); [discriminate Q | injection Q as <-; exact E].
  - apply madd1; [exact H | split; assumption].
  - destruct E as [U V]. apply madd; [exact H|]. constructor; [exact U|]. constructor; [exact V | constructor].
  - apply mpush; [exact H|]. apply mof_res. exact (m_try_from k E).
Qed.
Lemma mrun : forall p st, Forall mild st -> Forall call_ok p -> mgood (run_calls_x B gctx vctx D drbg fuel st p).
Proof.
  induction p as [|c p IH]; intros st H OK; cbn [run_calls_x]; [apply mdone, H|]. inversion OK as [|? ? OC OP]; subst. destruct (mcall st c H OC) as [->|(st' & -> & H')]; [left; reflexivity | apply IH; assumption].
Qed.
End Run.

(** * C95 *)
(** Any program, from any state, with any contexts: turning a check off never changes a result, and a debug build panics exactly when one kind of check alone does. *)
Lemma C95_programs_pf : forall gctx vctx D drbg fuel st q, every_outcome (run_calls true gctx vctx D drbg fuel st q) (run_calls false gctx vctx D drbg fuel st q) (fun c => run_calls_x c gctx vctx D drbg fuel st q).
Proof.
  intros gctx vctx D drbg fuel st q. pose proof (run_four gctx vctx D drbg fuel q st) as H. apply outcome_intro; [apply run_corner | apply run_corner | exact (omono_four (fun c => run_calls_x c gctx vctx D drbg fuel st q) H)|].
  destruct H as (_ & _ & _ & _ & H5). exact H5.
Qed.
Lemma C95_programs_example_pf : exists q, forall gctx vctx D drbg fuel, gen_ctx gctx -> verify_ctx vctx -> (forall s s', stream (drbg s s')) -> (forall b, small (D b)) ->
  run_calls_x (true, true) gctx vctx D drbg fuel [] q = Panic /\ run_calls_x (true, false) gctx vctx D drbg fuel [] q = Panic /\ run_calls_x (false, true) gctx vctx D drbg fuel [] q <> Panic.
Proof.
  destruct C86_debug_total_refuted_pf as (q & OK & H). exists q. intros gctx vctx D drbg fuel GC VC RS DS. specialize (H gctx vctx D drbg fuel GC). destruct (run_four gctx vctx D drbg fuel q []) as (_ & _ & _ & _ & H5).
  rewrite <- (run_corner true) in H. split; [exact H|]. assert (N : run_calls_x (false, true) gctx vctx D drbg fuel [] q <> Panic) by (destruct (mrun true gctx vctx D drbg fuel GC VC DS RS q [] (Forall_nil _) OK) as [->|(st & -> & _)]; discriminate).
  split; [|exact N]. destruct (H5 H) as [E|E]; [exact E | contradiction].
Qed.
(** Programs of moderate values: overflow checks never make a difference, in builds with debug assertions and in builds without. *)
Lemma C95_overflow_checks_pf : forall gctx vctx D drbg fuel st q, gen_ctx gctx -> verify_ctx vctx -> (forall b, small (D b)) -> (forall s s', stream (drbg s s')) -> Forall call_ok q -> Forall mild st ->
  (forall a o, run_calls_x (a, o) gctx vctx D drbg fuel st q = run_calls a gctx vctx D drbg fuel st q) /\
  (run_calls false gctx vctx D drbg fuel st q = Running \/ exists st', run_calls false gctx vctx D drbg fuel st q = Done st' /\ Forall mild st').
Proof.
  intros gctx vctx D drbg fuel st q GC VC DS RS OK H. destruct (run_four gctx vctx D drbg fuel q st) as (H1 & H2 & H3 & H4 & H5). rewrite <- (run_corner false). split; [|exact (mrun false gctx vctx D drbg fuel GC VC DS RS q st H OK)].
  assert (N : run_calls_x (false, true) gctx vctx D drbg fuel st q <> Panic) by (destruct (mrun true gctx vctx D drbg fuel GC VC DS RS q st H OK) as [->|(st' & -> & _)]; discriminate).
  intros a o. rewrite <- (run_corner a). destruct a, o; same.
  - destruct H1 as [E|E]; [|symmetry; exact E]. rewrite E. destruct (H5 E) as [E'|E']; [exact E' | contradiction].
  - destruct H4 as [E|E]; [contradiction | exact E].
Qed.
Definition odd_key : affine := Af (Fe 5 0 0 0 0 0 0 0 0 0 6 false) (Fe 7 0 0 0 0 0 0 0 0 0 6 false) false.
Lemma odd_key_am : am odd_key. Proof. split; repeat split; vm_compute; congruence. Qed.
Lemma C95_overflow_checks_example_pf : Forall mild [CPub odd_key; CSec (scalar_of 0); CMsg (scalar_of (n - 1)); CSig (Sig (scalar_of 5) (scalar_of 0)); CRid 3; CPub AFFINE_INFINITY] /\
  Forall call_ok [Do (PkTweakAdd 0 1); Do (Ecdh 0 1); Do (Verify 2 3 0); Do (PkCombine [0%nat; 5%nat]); SkClear 1; Do (Sign 2 1)] /\ (exists gctx, gen_ctx gctx) /\ (exists vctx, verify_ctx vctx).
Proof.
  split; [|split; [repeat constructor|]].
  - assert (R : forall a, 0 <= a < n -> red (scalar_of a)) by (intros a A; exists a; auto).
    apply Forall_cons; [exact odd_key_am|]. apply Forall_cons; [apply R; vmr|]. apply Forall_cons; [apply R; pose proof n_pos; lia|]. apply Forall_cons; [split; apply R; vmr|]. apply Forall_cons; [cbn [mild]; lia|]. apply Forall_cons; [split; repeat split; vm_compute; congruence | apply Forall_nil].
  - split; [destruct C53_ecmult_gen_example_pf as (gctx & _ & GC); eauto | destruct C34_public_tweak_add_example_pf as ((vctx & VC) & _); eauto].
Qed.
(** Of any values this is false. *)
Lemma C95_any_values_refuted_pf : exists st q, Forall call_ok q /\ forall gctx vctx D drbg fuel, run_calls_x (false, true) gctx vctx D drbg fuel st q = Panic /\ run_calls_x (true, false) gctx vctx D drbg fuel st q <> Panic.
Proof.
  exists [CPub (Af (Fe 4294967295 0 0 0 0 0 0 0 0 4294967295 1 false) FE1 false)], [Do (PkSerialize 0)]. split; [repeat constructor|]. intros gctx vctx D drbg fuel.
  cbn [run_calls_x step_call_x step_x nth_error]. split; [vm_compute; reflexivity | vm_compute; discriminate].
Qed.
(** The library as it is shipped, from an empty state. *)
Lemma C95_library_pf : forall fuel q, Forall call_ok q -> exists gctx vctx, ecmult_gen_context_new true = Some gctx /\ ecmult_context_new true = Some vctx /\
  (forall a o, run_calls_x (a, o) gctx vctx sha256 (sign_drbg (hmac sha256)) fuel [] q = run_calls a gctx vctx sha256 (sign_drbg (hmac sha256)) fuel [] q) /\ (forall o, run_calls_x (false, o) gctx vctx sha256 (sign_drbg (hmac sha256)) fuel [] q <> Panic).
Proof.
  intros fuel q OK. destruct (C54_contexts_pf true) as [(vctx & EV & VC) (gctx & EG & GC)]. exists gctx, vctx. split; [exact EG|]. split; [exact EV|]. destruct C69_hmac_sha256_pf as [SH MM].
  assert (DS : forall b, small (sha256 b)) by (intros b; destruct (SH b) as [L B]; apply small_be; [exact B | rewrite L; lia]).
  assert (RS : forall s s', stream (sign_drbg (hmac sha256) s s')) by (intros s s'; apply drbg_stream, MM).
  generalize dependent (sign_drbg (hmac sha256)). intros drbg RS.
  destruct (C95_overflow_checks_pf gctx vctx sha256 drbg fuel [] q GC VC DS RS OK (Forall_nil _)) as [H K]. split; [exact H|]. intros o. rewrite (H false o). destruct K as [->|(st & -> & _)]; discriminate.
Qed.
Lemma C95_library_example_pf : Forall call_ok [Do SkDefault; Do (PkFromSecret 0); SkClear 0; Do (PkFromSecret 0); Do (PkCombine [1%nat; 2%nat]); Do (PkSerialize 3)].
Proof. repeat constructor. Qed.
(** Multiplication without debug assertions: any point whose coordinates have magnitude at most 6, on the curve or not, and any reduced scalars. *)
Lemma C95_multiplication_pf : forall o gctx vctx a j s t, gen_ctx gctx -> verify_ctx vctx -> 0 <= s < n -> 0 <= t < n -> am a -> jm j ->
  (exists r, ecmult_x (false, o) vctx j (scalar_of s) (scalar_of t) = Some r /\ ecmult false vctx j (scalar_of s) (scalar_of t) = Some r /\ jm r) /\
  (exists r, ecmult_const_x (false, o) a (scalar_of s) = Some r /\ ecmult_const false a (scalar_of s) = Some r /\ jm r) /\
  (exists r, ecmult_gen_x (false, o) gctx (scalar_of s) = Some r /\ ecmult_gen false gctx (scalar_of s) = Some r /\ jm r).
Proof.
  intros o gctx vctx a j s t GC VC S T A J. split; [|split].
  - destruct (wpx _ _ (x_ecmult o vctx j s t (verify_ctx_cm _ VC) J S T)) as (r & E & R). exists r. split; [exact E|]. split; [|exact R]. rewrite <- (ecmult_corner false). exact (ecmult_off _ _ (bge_bot (false, o)) _ _ _ _ _ E).
  - destruct (wpx _ _ (x_ecmult_const o a s A S)) as (r & E & R). exists r. split; [exact E|]. split; [|exact R]. rewrite <- (ecmult_const_corner false). exact (ecmult_const_off _ _ (bge_bot (false, o)) _ _ _ E).
  - apply gen_ctx_ok in GC. destruct (wp_up _ _ _ (ecmult_gen_ok true gctx s GC S) (up _ (fun c => ecmult_gen_x c gctx (scalar_of s)) (false, o) (ecmult_gen_corner true _ _) (fun c c' Q => ecmult_gen_off c c' Q _ _))) as (r & E & X & Y & Z & _).
    exists r. split; [exact E|]. split; [|split; [exact X | split; [exact Y | exact Z]]]. rewrite <- (ecmult_gen_corner false). exact (ecmult_gen_off _ _ (bge_bot (false, o)) _ _ _ E).
Qed.
Lemma C95_multiplication_example_pf : (exists gctx, gen_ctx gctx) /\ (exists vctx, verify_ctx vctx) /\ am odd_key /\ jm (Ja (af_x odd_key) (af_y odd_key) FE1 false) /\ af_is_valid_var true odd_key = Some false /\ 0 <= 0 < n.
Proof.
  split; [destruct C53_ecmult_gen_example_pf as (gctx & _ & GC); eauto|]. split; [destruct C34_public_tweak_add_example_pf as ((vctx & VC) & _); eauto|]. split; [exact odd_key_am|].
  split; [split; [exact (proj1 odd_key_am)|]; split; [exact (proj2 odd_key_am) | exact fok_FE1]|]. split; [vm_compute; reflexivity | vmr].
Qed.

(** The magnitude and the normalized flag a field element carries along. *)
Definition retag (m : Z) (b : bool) (f : field) : field := match f with Fe n0 n1 n2 n3 n4 n5 n6 n7 n8 n9 _ _ => Fe n0 n1 n2 n3 n4 n5 n6 n7 n8 n9 m b end.
Lemma bind_ext {A C} (x y : option A) (f g : A -> option C) : x = y -> (forall a, f a = g a) -> bind x f = bind y g.
Proof. intros -> H. destruct y; [apply H | reflexivity]. Qed.
Section Tags.
Variable o : bool.
Local Notation B := (false, o).
Lemma off e {A} (k : unit -> option A) : bind (dassert (fst B) e) k = k tt. Proof. reflexivity. Qed.
Ltac erase f := cbv beta iota delta [f retag].
Ltac fin := repeat change (dassert (fst B) ?e) with (Some tt); lazymatch goal with |- ?x = ?x => exact eq_refl end.
Lemma t_mul a b m t m' t' : f_mul_x B (retag m t a) (retag m' t' b) = f_mul_x B a b.
Proof. assert (I : f_mul_inner_x B (retag m t a) (retag m' t' b) = f_mul_inner_x B a b) by (destruct a, b; erase f_mul_inner_x; exact eq_refl). unfold f_mul_x. rewrite !off, I. exact eq_refl. Qed.
Lemma t_sqr a m t : f_sqr_x B (retag m t a) = f_sqr_x B a.
Proof. assert (I : f_sqr_inner_x B (retag m t a) = f_sqr_inner_x B a) by (destruct a; erase f_sqr_inner_x; exact eq_refl). unfold f_sqr_x. rewrite !off, I. exact eq_refl. Qed.
Lemma retag_same a : a = retag (f_mag a) (f_norm a) a. Proof. destruct a. reflexivity. Qed.
Lemma t_mul1 a b m t : f_mul_x B (retag m t a) b = f_mul_x B a b. Proof. rewrite (retag_same b). rewrite t_mul. rewrite (retag_same a) at 2. rewrite t_mul. reflexivity. Qed.
Lemma t_mul2 a b m t : f_mul_x B a (retag m t b) = f_mul_x B a b. Proof. rewrite (retag_same a). rewrite t_mul. rewrite (retag_same b) at 2. rewrite t_mul. reflexivity. Qed.
Lemma t_chain a m t : f_chain223_x B (retag m t a) = f_chain223_x B a.
Proof.
  unfold f_chain223_x. apply bind_ext; [apply t_sqr|]. intros x. apply bind_ext; [apply t_mul2|]. intros x2. apply bind_ext; [exact eq_refl|]. intros x3. apply bind_ext; [apply t_mul2|]. intros y. exact eq_refl.
Qed.
Lemma t_inv a m t : f_inv_x B (retag m t a) = f_inv_x B a.
Proof.
  unfold f_inv_x. apply bind_ext; [apply t_chain|]. intros [[x2 x22] x223]. apply bind_ext; [exact eq_refl|]. intros t1. apply bind_ext; [exact eq_refl|]. intros t2. apply bind_ext; [exact eq_refl|]. intros t3. apply bind_ext; [apply t_mul2|]. intros t4.
  apply bind_ext; [exact eq_refl|]. intros t5. apply bind_ext; [exact eq_refl|]. intros t6. apply bind_ext; [exact eq_refl|]. intros t7. apply t_mul1.
Qed.
Lemma t_norm a m t : f_normalize_x B (retag m t a) = f_normalize_x B a. Proof. destruct a. erase f_normalize_x. fin. Qed.
Lemma t_norm_var a m t : f_normalize_var_x B (retag m t a) = f_normalize_var_x B a. Proof. destruct a. erase f_normalize_var_x. fin. Qed.
Lemma t_zero a m t : f_normalizes_to_zero_x B (retag m t a) = f_normalizes_to_zero_x B a. Proof. destruct a. erase f_normalizes_to_zero_x. fin. Qed.
Lemma t_zero_var a m t : f_normalizes_to_zero_var_x B (retag m t a) = f_normalizes_to_zero_var_x B a. Proof. destruct a. erase f_normalizes_to_zero_var_x. fin. Qed.
Lemma t_neg a k m t : f_neg_x B (retag m t a) k = f_neg_x B a k. Proof. destruct a. erase f_neg_x. fin. Qed.
Lemma t_is_zero a m t : f_is_zero_x B (retag m t a) = f_is_zero_x B a. Proof. destruct a. erase f_is_zero_x. fin. Qed.
Lemma t_is_odd a m t : f_is_odd_x B (retag m t a) = f_is_odd_x B a. Proof. destruct a. erase f_is_odd_x. fin. Qed.
Lemma t_cmp a b m t m' t' : f_cmp_var_x B (retag m t a) (retag m' t' b) = f_cmp_var_x B a b. Proof. destruct a, b. erase f_cmp_var_x. fin. Qed.
Lemma t_b32 a m t : f_b32_x B (retag m t a) = f_b32_x B a. Proof. destruct a. erase f_b32_x. fin. Qed.
Lemma t_storage a m t : f_to_storage_x B (retag m t a) = f_to_storage_x B a. Proof. destruct a. erase f_to_storage_x. fin. Qed.
End Tags.
(** Without debug assertions these two have no effect on any of the following functions, with overflow checks or without. *)
Lemma C95_bookkeeping_pf : forall o a b k m t m' t',
  f_mul_x (false, o) (retag m t a) (retag m' t' b) = f_mul_x (false, o) a b /\
  f_sqr_x (false, o) (retag m t a) = f_sqr_x (false, o) a /\
  f_inv_x (false, o) (retag m t a) = f_inv_x (false, o) a /\
  f_neg_x (false, o) (retag m t a) k = f_neg_x (false, o) a k /\
  f_normalize_x (false, o) (retag m t a) = f_normalize_x (false, o) a /\
  f_normalize_var_x (false, o) (retag m t a) = f_normalize_var_x (false, o) a /\
  f_normalizes_to_zero_x (false, o) (retag m t a) = f_normalizes_to_zero_x (false, o) a /\
  f_normalizes_to_zero_var_x (false, o) (retag m t a) = f_normalizes_to_zero_var_x (false, o) a /\
  f_is_zero_x (false, o) (retag m t a) = f_is_zero_x (false, o) a /\
  f_is_odd_x (false, o) (retag m t a) = f_is_odd_x (false, o) a /\
  f_cmp_var_x (false, o) (retag m t a) (retag m' t' b) = f_cmp_var_x (false, o) a b /\
  f_b32_x (false, o) (retag m t a) = f_b32_x (false, o) a /\
  f_to_storage_x (false, o) (retag m t a) = f_to_storage_x (false, o) a.
Proof.
  intros o a b k m t m' t'. split; [apply t_mul|]. split; [apply t_sqr|]. split; [apply t_inv|]. split; [apply t_neg|]. split; [apply t_norm|]. split; [apply t_norm_var|]. split; [apply t_zero|]. split; [apply t_zero_var|].
  split; [apply t_is_zero|]. split; [apply t_is_odd|]. split; [apply t_cmp|]. split; [apply t_b32 | apply t_storage].
Qed.
Lemma C95_bookkeeping_example_pf : f_mul_x (true, false) (retag 9 false FE1) FE1 = None /\ exists r, f_mul_x (false, true) (retag 9 false FE1) FE1 = Some r.
Proof. split; [vm_compute; reflexivity|]. eexists. vm_compute. reflexivity. Qed.
(** Comparing is not among them: it negates by the recorded magnitude, so that two elements of the same value compare equal or not depending on it, in a release build. *)
Lemma C95_equality_bookkeeping_refuted_pf : exists d b m, let a := f_new_raw 0 0 0 0 0 0 0 0 0 d in 0 <= d < 2 ^ 32 /\ fv a = fv b /\ f_eq_x (false, false) a b = Some false /\ f_eq_x (false, true) a b = None /\ f_eq_x (false, false) (retag m false a) b = Some true.
Proof.
  exists 268435456, (Fe 0 4 0 0 0 0 0 0 0 0 1 true), 4. cbv zeta. split; [lia|]. split; [reflexivity|]. split; [vm_compute; reflexivity|]. split; vm_compute; reflexivity.
Qed.
