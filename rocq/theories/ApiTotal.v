(** Release builds never panic: any values, any points (also off the curve), any tables of the right size. *)
From Verif Require Import Word MField MScalar MGroup MEcmult MEcdsa MDer MApi MEq MMachine MClient MDrbg WP FieldNorm ScalarMul ScalarOps ScalarBits ScalarMore Spec Fp Bits FieldOps Denote Wnaf WnafC Curve Group Chain Order Jac JacOps Lift Key Ecmult Heap Ctx Unred ApiScalar ApiDer ApiGrammar ApiPub ApiGroup ApiEcdsa ApiKeys ApiMore ApiUnred ApiEdge ApiWire ApiDrbg ApiClear ApiMachine ApiClient Total.

Lemma tot_bind_eq {A B} (x : option A) (f : A -> option B) : tot x -> (forall a, x = Some a -> tot (f a)) -> tot (bind x f).
Proof. intros (a & ->) K. apply K. reflexivity. Qed.
(** total with a property of the result *)
Lemma tot_wp {A} (x : option A) P : wp x P -> exists a, x = Some a /\ P a. Proof. apply wp_inv. Qed.
(** * Tables *)
Lemma set_table_loop_len : forall ra rzr zi acc, (length ra <= length rzr)%nat -> exists t, set_table_loop false ra rzr zi acc = Some t /\ length t = (length ra + length acc)%nat.
Proof.
  induction ra as [|a ra IH]; intros rzr zi acc L; [exists acc; split; [destruct rzr; reflexivity | reflexivity]|]. destruct rzr as [|z rzr]; [cbn [length] in L; lia|]. cbn [set_table_loop].
  destruct (f_mul_tot zi z) as (zi' & ->). cbn [bind]. destruct (af_set_gej_zinv_tot a zi') as (r & ->). cbn [bind]. destruct (IH rzr zi' (r :: acc) ltac:(cbn [length] in L; lia)) as (t & E & LT).
  exists t. split; [exact E|]. rewrite LT. cbn [length]. lia.
Qed.
Lemma globalz_len a zr : length a = length zr -> a <> [] -> exists t z, globalz_set_table_gej false a zr = Some (t, z) /\ length t = length a.
Proof.
  intros L N. unfold globalz_set_table_gej. change (dassert false ?b) with (Some tt). change (bind (Some ?x) ?f) with (f x); cbv beta.
  assert (LA : length (rev a) = length a) by apply rev_length. assert (LZ : length (rev zr) = length zr) by apply rev_length.
  destruct (rev a) as [|al ra]; [destruct a; [congruence | discriminate LA]|]. destruct (rev zr) as [|zl rzr]; [cbn [length] in *; lia|].
  change (bind (Some ?x) ?f) with (f x); cbv beta. destruct ra as [|a1 ra]; [eexists _, _; split; [reflexivity | rewrite <- LA; reflexivity]|].
  destruct (af_set_gej_zinv_tot a1 zl) as (r1 & ->). cbn [bind]. cbn [length] in *. destruct (set_table_loop_len ra rzr zl [r1; Af (j_x al) (j_y al) false] ltac:(lia)) as (t & -> & LT).
  cbn [bind]. eexists _, _. split; [reflexivity|]. rewrite LT. cbn [length]. lia.
Qed.
Lemma scale_last_tot dz : forall l, l <> [] -> tot (scale_last false l dz).
Proof.
  induction l as [|a l IH]; [congruence|]. intros _. cbn [scale_last]. destruct l as [|b l]; [tots|]. apply tot_bind; [apply IH; discriminate | intros; apply tot_some].
Qed.
Lemma odd_table_tot k a : exists pj zr, odd_multiples_table false (S k) a = Some (pj, zr) /\ length pj = S k /\ length zr = S k.
Proof.
  unfold odd_multiples_table. change (dassert false ?b) with (Some tt). do 2 (change (bind (Some ?x) ?f) with (f x); cbv beta). destruct (j_double_tot a) as (d & ->). cbn [bind].
  destruct (af_set_gej_zinv_tot a (j_z d)) as (g & ->). cbn [bind]. destruct (odd_mult_loop_tot k (Ja (af_x g) (af_y g) (j_z a) false) (Af (j_x d) (j_y d) false)) as ([pj zr] & E). rewrite E. cbn [bind].
  destruct (odd_mult_len _ _ _ _ _ _ E) as [L1 L2]. match goal with |- context [scale_last false ?l ?z] => destruct (scale_last_tot z l ltac:(discriminate)) as (pj' & E2); rewrite E2 end. cbn [bind].
  apply scale_last_len in E2. eexists _, _. split; [reflexivity|]. rewrite E2. cbn [length]. rewrite L1, L2. auto.
Qed.
Lemma windowa_tot a : exists t z, odd_multiples_table_globalz_windowa false a = Some (t, z) /\ length t = 8%nat.
Proof.
  unfold odd_multiples_table_globalz_windowa, ECMULT_TABLE_SIZE_A. destruct (odd_table_tot 7 a) as (pj & zr & -> & L1 & L2). cbn [bind]. destruct (globalz_len pj zr) as (t & z & E & L); [congruence | intros ->; discriminate L1|].
  exists t, z. split; [exact E | congruence].
Qed.
(** * Multiplication *)
Definition any_scalar (s : scalar) (a : Z) : Prop := 0 <= a < 2 ^ 256 /\ s = scalar_of a.
Lemma s_u_any s : s_u s -> exists a, any_scalar s a.
Proof. intros U. exists (sv s). split; [apply sv_range, U | apply scalar_of_id, U]. Qed.
Lemma any_s_u s a : any_scalar s a -> s_u s. Proof. intros [_ ->]. apply scalar_of_u. Qed.
Lemma recodes_any w a : 2 <= w <= 30 -> 0 <= a < 2 ^ 256 -> recodes false w (scalar_of a) a.
Proof.
  intros W A. destruct (Z.lt_ge_cases a n); [apply recodes_ok; lia|]. apply (wnaf_big false a w); [lia | exact W | right; reflexivity].
Qed.
Lemma idx_tot {A} (l : list A) i : 0 <= i < Z.of_nat (length l) -> tot (idx l i).
Proof. intros H. rewrite idx_nth by lia. destruct (nth_error l (Z.to_nat i)) as [x|] eqn:E; [exists x; reflexivity|]. apply nth_error_None in E. lia. Qed.
Lemma quot_small m t : 1 <= m < 2 * t -> 0 <= Z.quot (m - 1) 2 < t.
Proof. intros H. rewrite Z.quot_div_nonneg by lia. split; [apply Z.div_pos; lia | apply Z.div_lt_upper_bound; lia]. Qed.
Lemma table_get_tot pre n w : 2 <= w -> wdigit w n -> n <> 0 -> Z.of_nat (length pre) = 2 ^ (w - 2) -> tot (table_get_ge false pre n w).
Proof.
  intros W [->|[O R]] N L; [congruence|]. assert (P : 2 ^ (w - 1) = 2 * 2 ^ (w - 2)) by (rewrite <- Z.pow_succ_r by lia; f_equal; lia). unfold table_get_ge. apply tot_bind; [apply digit_asserts_tot|]. intros _.
  destruct (Z.ltb_spec 0 n).
  - apply idx_tot. rewrite L. apply quot_small. lia.
  - apply tot_bind; [|intros; apply af_neg_tot]. apply idx_tot. rewrite L. apply quot_small. lia.
Qed.
Lemma table_get_storage_tot pre n w : 2 <= w -> wdigit w n -> n <> 0 -> Z.of_nat (length pre) = 2 ^ (w - 2) -> tot (table_get_ge_storage false pre n w).
Proof.
  intros W [->|[O R]] N L; [congruence|]. assert (P : 2 ^ (w - 1) = 2 * 2 ^ (w - 2)) by (rewrite <- Z.pow_succ_r by lia; f_equal; lia). unfold table_get_ge_storage. apply tot_bind; [apply digit_asserts_tot|]. intros _.
  destruct (Z.ltb_spec 0 n).
  - apply tot_bind; [|intros; apply tot_some]. apply idx_tot. rewrite L. apply quot_small. lia.
  - apply tot_bind; [|intros; apply af_neg_tot]. apply idx_tot. rewrite L. apply quot_small. lia.
Qed.
Lemma ecmult_loop_tot pg pa z la lg ba bg : Z.of_nat (length pg) = 16384 -> length pa = 8%nat -> Z.of_nat (length la) = 256 -> Z.of_nat (length lg) = 256 ->
  (forall i, 0 <= i -> wdigit WINDOW_A (digit la i)) -> (forall i, 0 <= i -> wdigit WINDOW_G (digit lg i)) -> forall k r, (k <= 256)%nat -> tot (ecmult_loop false k pg pa z la lg ba bg r).
Proof.
  intros LP LA L1 L2 D1 D2. induction k as [|k IH]; intros r K; [apply tot_some|]. cbn [ecmult_loop]. change (bind (Some ?x) ?f) with (f x); cbv beta.
  destruct (j_double_tot r) as (r1 & ->). cbn [bind]. rewrite !idx_digit by lia. cbn [bind]. apply tot_bind.
  { destruct ((Z.of_nat k <? ba) && negb (digit la (Z.of_nat k) =? 0)) eqn:E; [|apply tot_some]. apply andb_prop in E. destruct E as [_ E]. apply negb_true_iff, Z.eqb_neq in E.
    apply tot_bind; [apply table_get_tot; [unfold WINDOW_A; lia | apply D1; lia | exact E | rewrite LA; reflexivity]|]. intros. apply j_add_ge_v_tot. }
  intros r2. apply tot_bind.
  { destruct ((Z.of_nat k <? bg) && negb (digit lg (Z.of_nat k) =? 0)) eqn:E; [|apply tot_some]. apply andb_prop in E. destruct E as [_ E]. apply negb_true_iff, Z.eqb_neq in E.
    apply tot_bind; [apply table_get_storage_tot; [unfold WINDOW_G; lia | apply D2; lia | exact E | rewrite LP; reflexivity]|]. intros. apply j_add_zinv_var_tot. }
  intros r3. apply IH. lia.
Qed.
(** contexts of the right shape *)
Definition sized_v (c : ecctx) : Prop := match c with Ctx t => Z.of_nat (length t) = 16384 end.
Definition sized_g (c : genctx) : Prop := match c with GCtx prec blind _ => length prec = 64%nat /\ s_u blind end.
Lemma verify_ctx_sized c : verify_ctx c -> sized_v c. Proof. destruct c as [t]. intros [L _]. exact L. Qed.
Lemma gen_ctx_sized c : gen_ctx c -> sized_g c. Proof. destruct c as [prec bl ini]. intros (b & I & Bs & -> & _ & _ & _ & _ & L & _). split; [exact L | apply scalar_of_u]. Qed.
Lemma ecmult_tot ctx j na ng : sized_v ctx -> s_u na -> s_u ng -> tot (ecmult false ctx j na ng).
Proof.
  intros SZ UA UG. destruct (s_u_any na UA) as (a & A & ->). destruct (s_u_any ng UG) as (g & G & ->). destruct ctx as [pg]. unfold ecmult.
  destruct (wp_inv _ _ (recodes_any WINDOW_A a ltac:(unfold WINDOW_A; lia) A)) as ([la ba] & -> & L1 & B1 & _ & _ & D1). cbn [bind].
  destruct (windowa_tot j) as (pa & z & -> & LA). cbn [bind]. destruct (wp_inv _ _ (recodes_any WINDOW_G g ltac:(unfold WINDOW_G; lia) G)) as ([lg bg] & -> & L2 & B2 & _ & _ & D2). cbn [bind].
  apply tot_bind; [|intros r; destruct (j_inf r); [apply tot_some | apply tot_bind; [apply f_mul_tot | intros; apply tot_some]]].
  apply ecmult_loop_tot; try assumption. destruct (ba <? bg); lia.
Qed.
Lemma wnaf_const_any a : 0 <= a < 2 ^ 256 -> exists l sk, ecmult_wnaf_const false 65 (scalar_of a) (WINDOW_A - 1) = Some (l, sk) /\ length l = 65%nat.
Proof.
  intros A. change (WINDOW_A - 1) with 4. destruct (Z.lt_ge_cases a n) as [L|G]; [|destruct (Z.lt_ge_cases a (2 ^ 256 - 2)) as [L|E]].
  - destruct (wp_inv _ _ (ecmult_wnaf_const_full false a (conj (proj1 A) L))) as ([l sk] & E & LE & _). exists l, sk. split; [exact E | lia].
  - destruct (wp_inv _ _ (wnaf_release a (conj G L))) as ([l sk] & E & LE & _). exists l, sk. split; [exact E | lia].
  - exists edge, (2 ^ 256 - a). split; [apply wnaf_edge; lia | reflexivity].
Qed.
Lemma table_const_tot r pre n w : tot (table_get_ge_const false r pre n w).
Proof.
  unfold table_get_ge_const. apply tot_bind; [apply ichk_tot|]. intros m. change (bind (Some ?x) ?f) with (f x); cbv beta. apply tot_bind; [apply digit_asserts_tot|]. intros _.
  change (bind (Some ?x) ?f) with (f x); cbv beta. destruct (cmov_loop _ _ _ _ _) as [x y]. tots.
Qed.
Lemma const_loop_tot pre l : length l = 65%nat -> forall k tmp r, (k <= 64)%nat -> tot (ecmult_const_loop false k pre l tmp r).
Proof.
  intros L. induction k as [|k IH]; intros tmp r K; [apply tot_some|]. cbn [ecmult_const_loop]. apply tot_bind; [apply double_nonzero_n_tot|]. intros r1.
  apply tot_bind; [apply idx_tot; lia|]. intros d. apply tot_bind; [apply table_const_tot|]. intros t. apply tot_bind; [apply dassert_tot|]. intros _. apply tot_bind; [apply j_add_ge_tot|]. intros r2. apply IH. lia.
Qed.
Lemma ecmult_const_tot a s : s_u s -> tot (ecmult_const false a s).
Proof.
  intros U. destruct (s_u_any s U) as (d & D & ->). unfold ecmult_const. destruct (wnaf_const_any d D) as (l & sk & -> & L). cbn [bind]. destruct (j_set_ge_tot a) as (r & ->). cbn [bind].
  destruct (windowa_tot r) as (pa & z & -> & _). cbn [bind]. apply tot_bind; [apply tot_mapo; intros; tots|]. intros pa'. apply tot_bind; [apply idx_tot; lia|]. intros i. apply tot_bind; [apply dassert_tot|]. intros _.
  apply tot_bind; [apply table_const_tot|]. intros t. apply tot_bind; [apply j_set_ge_tot|]. intros r1. apply tot_bind; [apply const_loop_tot; [exact L | lia]|]. intros r2. tots.
Qed.
Lemma gen_loop_tot g : s_u g -> forall prec j adds r, 0 <= j -> j + Z.of_nat (length prec) <= 64 -> tot (ecmult_gen_loop false prec j g adds r).
Proof.
  intros U. induction prec as [|row prec IH]; intros j adds r J L; [apply tot_some|]. cbn [ecmult_gen_loop]. cbn [length] in L.
  assert (Q : (j * 4 + 4 - 1) / 32 = j * 4 / 32) by (Z.to_euclidean_division_equations; lia).
  destruct (wp_inv _ _ (s_bits_ok false g (j * 4) 4 U ltac:(lia) ltac:(lia) ltac:(lia) Q)) as (b & -> & _). cbn [bind].
  apply tot_bind; [apply j_add_ge_tot|]. intros r1. apply IH; lia.
Qed.
Lemma ecmult_gen_tot ctx s : sized_g ctx -> s_u s -> tot (ecmult_gen false ctx s).
Proof.
  intros SZ U. destruct ctx as [prec bl ini]. destruct SZ as [L UB]. destruct (s_u_any s U) as (a & A & ->). destruct (s_u_any bl UB) as (b & B & ->). unfold ecmult_gen. rewrite s_add_any by assumption. cbn [bind].
  apply gen_loop_tot; [apply scalar_of_u | lia | lia].
Qed.
(** * The functions of the API *)
Ltac dosome := change (bind (Some ?x) ?f) with (f x); cbv beta iota.
Lemma f_set_b32_tot old l : length l = 32%nat -> tot (f_set_b32 false old l).
Proof.
  intros L. do 32 (destruct l as [|? l]; [discriminate L|]). destruct l; [|discriminate L]. unfold f_set_b32. tots.
Qed.
Lemma as_u8_byte a : 0 <= as_u8 a < 256. Proof. unfold as_u8. apply Z.mod_pos_bound. lia. Qed.
Lemma f_b32_bytes f : exists l, f_b32 false f = Some l /\ length l = 32%nat /\ bytes l.
Proof. destruct f. eexists. split; [reflexivity|]. split; [reflexivity|]. unfold bytes. repeat (constructor; [apply as_u8_byte|]). constructor. Qed.
(** Any value a client may hold: scalars of 256 bits, points of any coordinates, byte strings. *)
Definition held (v : cval) : Prop :=
  match v with
  | CSec s | CMsg s => s_u s
  | CSig g => s_u (sig_r g) /\ s_u (sig_s g)
  | CBytes b => small b
  | _ => True
  end.
Definition gives (o : option cval) : Prop := exists v, o = Some v /\ held v.
Lemma gives_err e : gives (Some (CErr e)). Proof. eexists. split; [reflexivity | exact I]. Qed.
Lemma of_res_gives {A} (f : A -> cval) (o : option (result A)) : (exists r, o = Some r /\ forall a, r = Ok a -> held (f a)) -> gives (of_res f o).
Proof. intros (r & -> & H). unfold of_res. dosome. destruct r as [a|e]; [exists (f a); auto | apply gives_err]. Qed.
Lemma of_opt_gives {A} (f : A -> cval) (o : option A) : (exists a, o = Some a /\ held (f a)) -> gives (of_opt f o).
Proof. intros (a & -> & H). exists (f a). auto. Qed.
Lemma tot_res {A} (f : A -> cval) (o : option (result A)) : (forall a, held (f a)) -> tot o -> gives (of_res f o).
Proof. intros H (r & ->). apply of_res_gives. exists r. auto. Qed.
Lemma tot_opt {A} (f : A -> cval) (o : option A) : (forall a, held (f a)) -> tot o -> gives (of_opt f o).
Proof. intros H (r & ->). apply of_opt_gives. exists r. auto. Qed.
Lemma pk_from_tot ctx k : sized_g ctx -> s_u k -> tot (pk_from_secret_key false ctx k).
Proof. intros S U. unfold pk_from_secret_key. apply tot_bind; [apply ecmult_gen_tot; assumption|]. intros. apply af_set_gej_tot. Qed.
Lemma pk_serialize_small k : exists b, pk_serialize false k = Some b /\ small b.
Proof.
  unfold pk_serialize. change (dassert false ?b) with (Some tt). dosome. destruct (f_normalize_var_tot (af_x k)) as (x & ->). dosome. destruct (f_normalize_var_tot (af_y k)) as (y & ->). dosome.
  destruct (f_b32_bytes x) as (bx & -> & LX & BX). dosome. destruct (f_b32_bytes y) as (b_y & -> & LY & BY). dosome. eexists. split; [reflexivity|]. apply small_be.
  - constructor; [unfold TAG_PUBKEY_FULL; lia|]. apply Forall_app. split; assumption.
  - cbn [length]. rewrite app_length, LX, LY. lia.
Qed.
Lemma pk_serialize_compressed_small k : exists b, pk_serialize_compressed false k = Some b /\ small b.
Proof.
  unfold pk_serialize_compressed. change (dassert false ?b) with (Some tt). dosome. destruct (f_normalize_var_tot (af_x k)) as (x & ->). dosome. destruct (f_normalize_var_tot (af_y k)) as (y & ->). dosome.
  destruct (f_b32_bytes x) as (bx & -> & LX & BX). dosome. destruct (f_is_odd_tot y) as (o & ->). dosome. eexists. split; [reflexivity|]. apply small_be.
  - constructor; [destruct o; unfold TAG_PUBKEY_ODD, TAG_PUBKEY_EVEN; lia | exact BX].
  - cbn [length]. rewrite LX. lia.
Qed.
Lemma pk_tweak_add_tot ctx k t : sized_v ctx -> s_u t -> tot (pk_tweak_add_assign false ctx k t).
Proof.
  intros S U. unfold pk_tweak_add_assign. apply tot_bind; [apply j_set_ge_tot|]. intros a. dosome. apply tot_bind; [apply ecmult_tot; [exact S | rewrite <- scalar_of_1; apply scalar_of_u | exact U]|].
  intros r. destruct (j_inf r); [apply tot_some|]. apply tot_bind; [apply af_set_gej_tot | intros; apply tot_some].
Qed.
Lemma pk_tweak_mul_tot ctx k t : sized_v ctx -> s_u t -> tot (pk_tweak_mul_assign false ctx k t).
Proof.
  intros S U. unfold pk_tweak_mul_assign. destruct (s_is_zero t); [apply tot_some|]. dosome. apply tot_bind; [apply j_set_ge_tot|]. intros a. apply tot_bind; [apply ecmult_tot; [exact S | exact U | apply (scalar_of_u 0)]|].
  intros r. apply tot_bind; [apply af_set_gej_tot | intros; apply tot_some].
Qed.
Lemma combine_loop_tot : forall l q, tot (combine_loop false q l).
Proof. induction l as [|k l IH]; intros q; cbn [combine_loop]; [apply tot_some|]. apply tot_bind; [apply j_add_ge_tot | intros; apply IH]. Qed.
Lemma pk_combine_tot l : tot (pk_combine false l).
Proof. unfold pk_combine. apply tot_bind; [apply combine_loop_tot|]. intros q. destruct (j_inf q); [apply tot_some|]. apply tot_bind; [apply af_set_gej_tot | intros; apply tot_some]. Qed.
Lemma pk_try_from_tot a : tot (pk_try_from false a).
Proof. unfold pk_try_from. destruct (af_inf a); [apply tot_some|]. apply tot_bind; [apply af_is_valid_var_tot|]. intros v. destruct v; apply tot_some. Qed.
Lemma s_set_b32_u l : length l = 32%nat -> bytes l -> exists s o, s_set_b32 false l = Some (s, o) /\ s_u s.
Proof. intros L B. rewrite s_set_b32_eq by assumption. eexists _, _. split; [reflexivity | apply scalar_of_u]. Qed.
Lemma sk_parse_u l : length l = 32%nat -> bytes l -> exists r, sk_parse false l = Some r /\ forall k, r = Ok k -> s_u k.
Proof.
  intros L B. unfold sk_parse. destruct (s_set_b32_u l L B) as (s & o & -> & U). dosome. destruct (negb o); eexists; (split; [reflexivity|]); intros k E; [|discriminate E].
  unfold sk_try_from in E. destruct (s_is_zero s); [discriminate E | injection E as <-; exact U].
Qed.
Lemma sk_random_u : forall fuel rng i, stream rng -> sk_random false fuel rng i = Running \/ exists k, sk_random false fuel rng i = Done k /\ s_u k.
Proof.
  induction fuel as [|f IH]; intros rng i R; cbn [sk_random]; [left; reflexivity|]. destruct (R i) as [L B]. destruct (sk_parse_u (rng i) L B) as (r & -> & H). destruct r as [k|e]; [right; eauto | apply IH, R].
Qed.
Lemma s_b32_small s : s_u s -> small (s_b32 s).
Proof. intros U. destruct (s_u_any s U) as (a & A & ->). rewrite s_b32_eq by exact A. apply small_be; [apply be_bytes_bytes | rewrite be_bytes_length; lia]. Qed.
Lemma s_b32_shape s : s_u s -> length (s_b32 s) = 32%nat /\ bytes (s_b32 s).
Proof. intros U. destruct (s_u_any s U) as (a & A & ->). rewrite s_b32_eq by exact A. split; [apply be_bytes_length | apply be_bytes_bytes]. Qed.
Lemma s_mul_u a b : s_u a -> s_u b -> exists r, s_mul false a b = Some r /\ s_u r.
Proof. intros U V. destruct (s_u_any a U) as (x & X & ->). destruct (s_u_any b V) as (y & Y & ->). rewrite s_mul_eq by assumption. eexists. split; [reflexivity | apply scalar_of_u]. Qed.
Lemma s_add_u a b : s_u a -> s_u b -> exists r, s_add false a b = Some r /\ s_u r.
Proof. intros U V. destruct (s_u_any a U) as (x & X & ->). destruct (s_u_any b V) as (y & Y & ->). rewrite s_add_any by assumption. eexists. split; [reflexivity | apply scalar_of_u]. Qed.
Lemma s_neg_u a : s_u a -> exists r, s_neg false a = Some r /\ s_u r.
Proof. intros U. destruct (s_u_any a U) as (x & X & ->). rewrite s_neg_any by assumption. eexists. split; [reflexivity | apply scalar_of_u]. Qed.
Lemma s_inv_u a : s_u a -> exists r, s_inv false a = Some r /\ s_u r.
Proof. intros U. destruct (s_u_any a U) as (x & X & ->). rewrite s_inv_eq by assumption. eexists. split; [reflexivity | apply scalar_of_u]. Qed.
Lemma slice_small : forall l, bytes l -> (length (integer_slice l) <= length l)%nat /\ bytes (integer_slice l).
Proof.
  induction l as [|a l IH]; intros B; [split; [reflexivity | exact B]|]. cbn [integer_slice]. destruct l as [|b l]; [split; [reflexivity | exact B]|].
  destruct ((a =? 0) && (b <? 128)); [|split; [reflexivity | exact B]]. inversion B as [|? ? _ B2]; subst. destruct (IH B2) as [L BB]. split; [cbn [length] in *; lia | exact BB].
Qed.
Lemma der_small g : s_u (sig_r g) -> s_u (sig_s g) -> small (sig_serialize_der g).
Proof.
  intros U V. unfold sig_serialize_der. destruct (s_b32_shape _ U) as [LR BR]. destruct (s_b32_shape _ V) as [LS BS].
  destruct (slice_small (0 :: s_b32 (sig_r g))) as [L1 B1]; [constructor; [lia | exact BR]|]. destruct (slice_small (0 :: s_b32 (sig_s g))) as [L2 B2]; [constructor; [lia | exact BS]|].
  set (r := integer_slice (0 :: s_b32 (sig_r g))) in *. set (s := integer_slice (0 :: s_b32 (sig_s g))) in *. cbn [length] in L1, L2. rewrite LR in L1. rewrite LS in L2. apply small_be.
  - unfold bytes. cbn [app]. constructor; [lia|]. constructor; [apply as_u8_byte|]. constructor; [lia|]. constructor; [apply as_u8_byte|]. apply Forall_app. split; [exact B1|].
    constructor; [lia|]. constructor; [apply as_u8_byte | exact B2].
  - cbn [app length]. rewrite app_length. cbn [length]. lia.
Qed.
Lemma verify_tot ctx m g k : sized_v ctx -> s_u m -> s_u (sig_r g) -> s_u (sig_s g) -> tot (verify false ctx m g k).
Proof.
  intros S M R T. unfold verify, verify_raw. destruct (_ || _); [apply tot_some|]. destruct (s_inv_u _ T) as (sn & -> & N). dosome. destruct (s_mul_u _ _ N M) as (u1 & -> & U1). dosome. destruct (s_mul_u _ _ N R) as (u2 & -> & U2). dosome.
  apply tot_bind; [apply j_set_ge_tot|]. intros pj. apply tot_bind; [apply ecmult_tot; assumption|]. intros pr. destruct (j_inf pr); [apply tot_some|]. dosome.
  destruct (f_set_b32_tot f_default (s_b32 (sig_r g)) (proj1 (s_b32_shape _ R))) as ([xr ok] & ->). dosome. tots.
Qed.
Lemma recover_tot ctx m g id : sized_v ctx -> s_u m -> s_u (sig_r g) -> s_u (sig_s g) -> tot (recover false ctx m g id).
Proof.
  intros S M R T. unfold recover, recover_raw. change (dassert false ?b) with (Some tt). dosome. destruct (_ || _); [apply tot_some|]. dosome.
  destruct (f_set_b32_tot f_default (s_b32 (sig_r g)) (proj1 (s_b32_shape _ R))) as ([xr ok] & ->). dosome. dosome. apply tot_bind; [tots|]. intros [fx|]; [|apply tot_some].
  destruct (af_set_xo_var_tot fx (0 <? Z.land id 1)) as ([x okx] & ->). dosome. destruct (negb okx); [apply tot_some|]. apply tot_bind; [apply j_set_ge_tot|]. intros xj.
  destruct (s_inv_u _ R) as (rn & -> & N). dosome. destruct (s_mul_u _ _ N M) as (u1 & -> & U1). dosome. destruct (s_neg_u _ U1) as (v1 & -> & V1). dosome. destruct (s_mul_u _ _ N T) as (u2 & -> & U2). dosome.
  apply tot_bind; [apply ecmult_tot; assumption|]. intros qj. apply tot_bind; [apply af_set_gej_var_tot|]. intros k. destruct (af_inf k); apply tot_some.
Qed.
Lemma sign_raw_u ctx d z k : sized_g ctx -> s_u d -> s_u z -> s_u k -> exists r, sign_raw false ctx d z k = Some r /\ forall x y id, r = Ok (x, y, id) -> s_u x /\ s_u y.
Proof.
  intros S D Z K. unfold sign_raw. destruct (ecmult_gen_tot ctx k S K) as (rp & ->). dosome. destruct (af_set_gej_tot rp) as (r & ->). dosome. destruct (f_normalize_tot (af_x r)) as (rx & ->). dosome. destruct (f_normalize_tot (af_y r)) as (ry & ->). dosome.
  destruct (f_b32_bytes rx) as (b & -> & LB & BB). dosome. destruct (s_set_b32_u b LB BB) as (sr & o & -> & SR). dosome. change (dassert false ?b) with (Some tt). do 2 dosome. destruct (f_is_odd_tot ry) as (odd & ->). dosome. dosome.
  destruct (s_mul_u _ _ SR D) as (n1 & -> & N1). dosome. destruct (s_add_u _ _ N1 Z) as (n2 & -> & N2). dosome. destruct (s_inv_u _ K) as (ki & -> & KI). dosome. destruct (s_mul_u _ _ KI N2) as (ss & -> & SS). dosome.
  destruct (s_is_zero ss); [eexists; split; [reflexivity | intros x y id E; discriminate E]|]. destruct (s_is_high ss).
  - destruct (s_neg_u _ SS) as (sn & -> & SN). dosome. eexists. split; [reflexivity|]. intros x y id E. injection E as <- <- _. auto.
  - eexists. split; [reflexivity|]. intros x y id E. injection E as <- <- _. auto.
Qed.
Lemma sign_loop_u ctx d z gen : sized_g ctx -> s_u d -> s_u z -> stream gen -> forall fuel i, sign_loop false fuel gen i ctx d z = Running \/ exists g id, sign_loop false fuel gen i ctx d z = Done (g, id) /\ s_u (sig_r g) /\ s_u (sig_s g).
Proof.
  intros S D Z G. induction fuel as [|f IH]; intros i; cbn [sign_loop]; [left; reflexivity|]. destruct (G i) as [L B]. destruct (s_set_b32_u (gen i) L B) as (k & o & -> & K). destruct (negb o && negb (s_is_zero k)); [|apply IH].
  destruct (sign_raw_u ctx d z k S D Z K) as (r & -> & H). destruct r as [[[x y] id]|e]; [|apply IH]. right. exists (Sig x y), id. split; [reflexivity|]. exact (H x y id eq_refl).
Qed.
Lemma ecdh_tot D k s : s_u s -> (forall b, small (D b)) -> exists r, shared_secret_new false D k s = Some r /\ forall b, r = Ok b -> small b.
Proof.
  intros U DS. unfold shared_secret_new, ecdh_raw. destruct (s_is_zero s); [eexists; split; [reflexivity | intros b E; discriminate E]|].
  destruct (ecmult_const_tot k s U) as (res & ->). dosome. destruct (af_set_gej_tot res) as (pt & ->). dosome. destruct (f_normalize_tot (af_x pt)) as (px & ->). dosome. destruct (f_normalize_tot (af_y pt)) as (py & ->). dosome.
  destruct (f_b32_bytes px) as (b & -> & _). dosome. destruct (f_is_odd_tot py) as (odd & ->). dosome. do 2 dosome. eexists. split; [reflexivity|]. intros x E. injection E as <-. apply DS.
Qed.
Lemma sub_shape b o : bytes b -> (o + 32 <= length b)%nat -> length (sub_array b o 32) = 32%nat /\ bytes (sub_array b o 32).
Proof.
  intros B L. unfold sub_array. split; [rewrite firstn_length, skipn_length; lia|]. unfold bytes in *. rewrite Forall_forall in *. intros x X. apply B. rewrite <- (firstn_skipn o b). apply in_or_app. right.
  rewrite <- (firstn_skipn 32 (skipn o b)). apply in_or_app. left. exact X.
Qed.
(** * Programs *)
Lemma held_nth st i v : Forall held st -> nth_error st i = Some v -> held v.
Proof. intros H E. apply nth_error_In in E. exact (proj1 (Forall_forall _ _) H v E). Qed.
Lemma held_upd : forall st i v, Forall held st -> held v -> Forall held (MMachine.upd st i v).
Proof. induction st as [|x st IH]; intros [|i] v H V; cbn [MMachine.upd]; inversion H; subst; constructor; auto. Qed.
Definition good_out (o : outcome (list cval)) : Prop := o = Running \/ exists st, o = Done st /\ Forall held st.
Lemma good_done st : Forall held st -> good_out (Done st). Proof. right. eauto. Qed.
Lemma good_add st l : Forall held st -> Forall held l -> good_out (Done (st ++ l)). Proof. intros H L. apply good_done, Forall_app. auto. Qed.
Lemma good_add1 st v : Forall held st -> held v -> good_out (Done (st ++ [v])). Proof. intros H L. apply good_add; [exact H | constructor; [exact L | constructor]]. Qed.
Lemma good_push st o : Forall held st -> gives o -> good_out (push st o).
Proof. intros H (v & -> & V). apply good_add1; assumption. Qed.
Lemma good_assign {A} (f : A -> cval) st i o : Forall held st -> (exists k r, o = Some (k, r) /\ held (f k)) -> good_out (assign f st i o).
Proof. intros H (k & r & -> & V). cbn [assign]. apply good_add1; [apply held_upd; assumption | destruct r; exact I]. Qed.

Section Run.
Variables (gctx : genctx) (vctx : ecctx) (D : list Z -> list Z) (drbg : list Z -> list Z -> nat -> list Z) (fuel : nat).
Hypothesis (SG : sized_g gctx) (SV : sized_v vctx) (DS : forall b, small (D b)) (RS : forall s s', stream (drbg s s')).
Ltac ref H := lazymatch goal with |- good_out (match nth_error ?st ?i with _ => _ end) => let E := fresh "E" in destruct (nth_error st i) as [[]|] eqn:E; try (exact (good_done st H)); apply (held_nth st i _ H) in E; cbn [held] in E end.
Lemma step_good st c : Forall held st -> cmd_ok c -> good_out (step false gctx vctx D drbg fuel st c).
Proof.
  intros H OK. destruct c; cbn [step cmd_ok] in *; try (repeat ref H).
  - apply good_add1; assumption.
  - destruct E as [B _]. apply good_push; [exact H|]. apply of_res_gives. destruct (C17_pubkey_total_pf false b f B) as (r & -> & _). exists r. split; [reflexivity | intros; exact I].
  - apply good_push; [exact H|]. apply tot_opt; [intros; exact I | apply pk_from_tot; assumption].
  - apply good_push; [exact H|]. apply of_opt_gives, pk_serialize_small.
  - apply good_push; [exact H|]. apply of_opt_gives, pk_serialize_compressed_small.
  - apply good_assign; [exact H|]. destruct (pk_tweak_add_tot vctx k k0 SV E0) as ([k' r] & ->). exists k', r. split; [reflexivity | exact I].
  - apply good_assign; [exact H|]. destruct (pk_tweak_mul_tot vctx k k0 SV E0) as ([k' r] & ->). exists k', r. split; [reflexivity | exact I].
  - destruct (pubs st l) as [ks|]; [|apply good_done, H]. apply good_push; [exact H|]. apply tot_res; [intros; exact I | apply pk_combine_tot].
  - apply good_push; [exact H|]. apply tot_opt; [intros; exact I | apply af_eq_tot].
  - destruct E as [B _]. apply good_push; [exact H|]. apply of_res_gives. unfold sk_parse_slice. destruct (Nat.eqb_spec (length b) SECRET_KEY_SIZE) as [L|L]; cbn [negb]; [exact (sk_parse_u b L B) | eexists; split; [reflexivity | intros a Q; discriminate Q]].
  - destruct (sk_random_u fuel rng 0 OK) as [->|(k & -> & U)]; [left; reflexivity | apply good_add1; assumption].
  - apply good_push; [exact H|]. rewrite C39_default_pf. apply of_opt_gives. eexists. split; [reflexivity | apply scalar_of_u].
  - apply good_add1; [exact H | apply s_b32_small, E].
  - apply good_assign; [exact H|]. unfold sk_tweak_add_assign. destruct (s_add_u k k0 E E0) as (r & -> & U). dosome. destruct (s_is_zero r); eexists _, _; (split; [reflexivity | assumption]).
  - apply good_assign; [exact H|]. unfold sk_tweak_mul_assign. destruct (s_is_zero k0); [eexists _, _; split; [reflexivity | exact E]|]. destruct (s_mul_u k k0 E E0) as (r & -> & U). dosome. eexists _, _. split; [reflexivity | exact U].
  - apply good_push; [exact H|]. apply of_opt_gives. exact (s_inv_u k E).
  - apply good_add1; [exact H | exact I].
  - destruct E as [B _]. apply good_push; [exact H|]. apply of_res_gives. unfold sig_parse_standard_slice, sig_parse_standard. destruct (Nat.eqb_spec (length b) SIGNATURE_SIZE) as [L|L]; cbn [negb]; [|eexists; split; [reflexivity | intros a Q; discriminate Q]].
    destruct (sub_shape b 0 B ltac:(unfold SIGNATURE_SIZE in L; lia)) as [L0 B0]. destruct (sub_shape b 32 B ltac:(unfold SIGNATURE_SIZE in L; lia)) as [L1 B1].
    destruct (s_set_b32_u _ L0 B0) as (r & o & -> & U). dosome. destruct (s_set_b32_u _ L1 B1) as (s & o' & -> & V). dosome. destruct (o || o'); eexists; (split; [reflexivity|]); intros g Q; [discriminate Q|]. injection Q as <-. split; assumption.
  - destruct E as [B _]. apply good_push; [exact H|]. apply of_res_gives. unfold sig_parse_overflowing_slice, sig_parse_overflowing. destruct (Nat.eqb_spec (length b) SIGNATURE_SIZE) as [L|L]; cbn [negb]; [|eexists; split; [reflexivity | intros a Q; discriminate Q]].
    destruct (sub_shape b 0 B ltac:(unfold SIGNATURE_SIZE in L; lia)) as [L0 B0]. destruct (sub_shape b 32 B ltac:(unfold SIGNATURE_SIZE in L; lia)) as [L1 B1].
    destruct (s_set_b32_u _ L0 B0) as (r & o & -> & U). dosome. destruct (s_set_b32_u _ L1 B1) as (s & o' & -> & V). do 2 dosome. eexists. split; [reflexivity|]. intros g Q. injection Q as <-. split; assumption.
  - destruct E as [B LB]. apply good_push; [exact H|]. apply of_res_gives. destruct (proj1 (C17_der_total_pf false b B LB)) as [->|(r & s & _ & _ & ->)]; eexists; (split; [reflexivity|]); intros g Q; [discriminate Q|]. injection Q as <-. split; apply scalar_of_u.
  - destruct E as [B LB]. apply good_push; [exact H|]. apply of_res_gives. destruct (proj2 (C17_der_total_pf false b B LB)) as [->|(r & s & _ & _ & ->)]; eexists; (split; [reflexivity|]); intros g Q; [discriminate Q|]. injection Q as <-. split; apply scalar_of_u.
  - destruct E as [U V]. unfold sig_normalize_s. destruct (s_is_high (sig_s g)); [|apply good_done, held_upd; [exact H | split; assumption]]. destruct (s_neg_u _ V) as (s & -> & W). dosome. apply good_done, held_upd; [exact H | split; assumption].
  - destruct E as [U V]. apply good_add1; [exact H|]. destruct (s_b32_shape _ U) as [L1 B1]. destruct (s_b32_shape _ V) as [L2 B2]. apply small_be; [apply Forall_app; split; assumption | unfold sig_serialize; rewrite app_length, L1, L2; lia].
  - destruct E as [U V]. apply good_add1; [exact H | apply der_small; assumption].
  - apply good_add1; [exact H | exact I].
  - destruct E as [B _]. apply good_push; [exact H|]. apply of_res_gives. unfold msg_parse_slice, msg_parse. destruct (Nat.eqb_spec (length b) MESSAGE_SIZE) as [L|L]; cbn [negb]; [|eexists; split; [reflexivity | intros a Q; discriminate Q]].
    destruct (s_set_b32_u b L B) as (s & o & -> & U). do 2 dosome. eexists. split; [reflexivity|]. intros a Q. injection Q as <-. exact U.
  - apply good_add1; [exact H | apply s_b32_small, E].
  - apply good_push; [exact H|]. apply tot_res; [intros; exact I | apply tot_some].
  - apply good_push; [exact H|]. apply tot_res; [intros; exact I | apply tot_some].
  - apply good_add1; [exact H | exact I].
  - apply good_push; [exact H|]. apply of_res_gives. destruct (ecdh_tot D k k0 E0 DS) as (r & -> & B). exists r. split; [reflexivity | exact B].
  - destruct E0 as [U V]. apply good_push; [exact H|]. apply tot_opt; [intros; exact I | apply verify_tot; assumption].
  - destruct E0 as [U V]. apply good_push; [exact H|]. apply tot_res; [intros; exact I | apply recover_tot; assumption].
  - unfold sign. destruct (sign_loop_u gctx k m (drbg (s_b32 k) (s_b32 m)) SG E0 E (RS _ _) fuel 0) as [->|(g & id & -> & U & V)]; [left; reflexivity|]. apply good_add; [exact H|]. constructor; [split; assumption|]. constructor; [exact I | constructor].
Qed.
Lemma call_good st c : Forall held st -> call_ok c -> good_out (step_call false gctx vctx D drbg fuel st c).
Proof.
  intros H OK. destruct c; cbn [step_call call_ok] in *; [apply step_good; assumption | ..]; try (repeat ref H).
  - apply good_done, held_upd; [exact H | apply (scalar_of_u 0)].
  - apply good_add1; [exact H | exact I].
  - apply good_add1; [exact H | exact E].
  - apply good_push; [exact H|]. apply of_res_gives. eexists. split; [reflexivity|]. intros k Q. unfold sk_try_from in Q. destruct (s_is_zero m); [discriminate Q | injection Q as <-; exact E].
  - apply good_add1; [exact H | split; assumption].
  - destruct E as [U V]. apply good_add; [exact H|]. constructor; [exact U|]. constructor; [exact V | constructor].
  - apply good_push; [exact H|]. apply tot_res; [intros; exact I | apply pk_try_from_tot].
Qed.
Lemma run_good : forall p st, Forall held st -> Forall call_ok p -> good_out (run_calls false gctx vctx D drbg fuel st p).
Proof.
  induction p as [|c p IH]; intros st H OK; cbn [run_calls]; [apply good_done, H|]. inversion OK as [|? ? OC OP]; subst. destruct (call_good st c H OC) as [->|(st' & -> & H')]; [left; reflexivity | apply IH; assumption].
Qed.
End Run.

(** * C86 *)
(** No program panics in a release build, whatever values it starts from. *)
Lemma C86_release_total_pf : forall gctx vctx D drbg fuel p st, sized_g gctx -> sized_v vctx -> (forall b, small (D b)) -> (forall s s', stream (drbg s s')) -> Forall call_ok p -> Forall held st ->
  run_calls false gctx vctx D drbg fuel st p = Running \/ exists st', run_calls false gctx vctx D drbg fuel st p = Done st' /\ Forall held st'.
Proof. intros gctx vctx D drbg fuel p st SG SV DS RS OK H. exact (run_good gctx vctx D drbg fuel SG SV DS RS p st H OK). Qed.
Lemma C86_release_total_example_pf : Forall held [CPub (Af (Fe 1 2 3 4 5 6 7 8 9 4294967295 77 true) (Fe 0 0 0 0 0 0 0 0 0 0 0 false) true); CSec (scalar_of (2 ^ 256 - 1)); CMsg (scalar_of n); CSig (Sig (scalar_of p) (scalar_of (n + 1)))] /\
  Forall call_ok [Do (PkTweakAdd 0 1); Do (Ecdh 0 1); Do (Verify 2 3 0); Do (PkCombine [0%nat; 0%nat]); SkClear 1; Do (Sign 2 1)] /\ (exists gctx, gen_ctx gctx /\ sized_g gctx) /\ (exists vctx, verify_ctx vctx /\ sized_v vctx).
Proof.
  split; [apply Forall_cons; [exact I|]; apply Forall_cons; [apply scalar_of_u|]; apply Forall_cons; [apply scalar_of_u|]; apply Forall_cons; [split; apply scalar_of_u | apply Forall_nil]|]. split; [repeat constructor|]. split.
  - destruct C53_ecmult_gen_example_pf as (gctx & _ & GC). exists gctx. split; [exact GC | apply gen_ctx_sized, GC].
  - destruct C34_public_tweak_add_example_pf as ((vctx & VC) & _). exists vctx. split; [exact VC | apply verify_ctx_sized, VC].
Qed.
(** In a debug build some do. *)
Lemma C86_debug_total_refuted_pf : exists q, Forall call_ok q /\ forall gctx vctx D drbg fuel, gen_ctx gctx -> run_calls true gctx vctx D drbg fuel [] q = Panic.
Proof.
  exists [Do SkDefault; SkClear 0; Do (PkFromSecret 0); Do (PkSerialize 1)]. split; [repeat constructor|]. intros gctx vctx D drbg fuel GC.
  destruct (C84_public_pf true gctx s_default GC) as (k & EK & K). change (sk_clear s_default) with s_default in EK.
  cbn [run_calls step_call step]. rewrite C39_default_pf. cbn [push of_opt bind app nth_error run_calls step_call step MMachine.upd]. unfold sk_clear. rewrite EK. cbn [push of_opt bind app nth_error run_calls step_call step].
  destruct K as (_ & _ & _ & _ & IK). unfold pk_serialize. rewrite IK. reflexivity.
Qed.
(** The library as it is shipped. *)
Lemma C86_library_pf : forall fuel p, Forall call_ok p -> exists gctx vctx, ecmult_gen_context_new false = Some gctx /\ ecmult_context_new false = Some vctx /\ run_calls false gctx vctx sha256 (sign_drbg (hmac sha256)) fuel [] p <> Panic.
Proof.
  intros fuel p OK. destruct (C54_contexts_pf false) as [(vctx & EV & VC) (gctx & EG & GC)]. exists gctx, vctx. split; [exact EG|]. split; [exact EV|]. destruct C69_hmac_sha256_pf as [SH MM].
  assert (DS : forall b, small (sha256 b)) by (intros b; destruct (SH b) as [L B]; apply small_be; [exact B | rewrite L; lia]).
  assert (RS : forall s s', stream (sign_drbg (hmac sha256) s s')) by (intros s s'; apply drbg_stream, MM).
  generalize dependent (sign_drbg (hmac sha256)). intros drbg RS.
  destruct (C86_release_total_pf gctx vctx sha256 drbg fuel p [] (gen_ctx_sized _ GC) (verify_ctx_sized _ VC) DS RS OK (Forall_nil _)) as [E|(st & E & _)]; rewrite E; discriminate.
Qed.
Lemma C86_library_example_pf : Forall call_ok [Do SkDefault; Do (PkFromSecret 0); SkClear 0; Do (PkFromSecret 0); Do (PkCombine [1%nat; 2%nat]); Do (PkSerialize 3)].
Proof. repeat constructor. Qed.
(** Multiplication: any point, also off the curve, with any limbs; any scalars of 256 bits; tables of the right size with any entries. *)
Lemma C86_multiplication_pf : forall gctx vctx a j s t, sized_g gctx -> sized_v vctx -> s_u s -> s_u t ->
  (exists r, ecmult false vctx j s t = Some r) /\ (exists r, ecmult_const false a s = Some r) /\ (exists r, ecmult_gen false gctx s = Some r).
Proof. intros gctx vctx a j s t SG SV S T. split; [exact (ecmult_tot vctx j s t SV S T)|]. split; [exact (ecmult_const_tot a s S) | exact (ecmult_gen_tot gctx s SG S)]. Qed.
Lemma C86_multiplication_example_pf : sized_v (Ctx (repeat as_default (Z.to_nat 16384))) /\ sized_g (GCtx (repeat [] 64) (scalar_of (2 ^ 256 - 1)) j_set_infinity) /\ s_u (scalar_of (2 ^ 256 - 1)).
Proof. split; [unfold sized_v; rewrite repeat_length; lia|]. split; [split; [apply repeat_length | apply scalar_of_u] | apply scalar_of_u]. Qed.
(** Field elements: any limbs, magnitudes and flags. *)
Lemma C86_field_pf : forall a b m, (exists r, f_add false a b = Some r) /\ (exists r, f_mul false a b = Some r) /\ (exists r, f_sqr false a = Some r) /\ (exists r, f_neg false a m = Some r) /\ (exists r, f_mul_int false a m = Some r) /\
  (exists r, f_inv false a = Some r) /\ (exists r, f_sqrt false a = Some r) /\ (exists r, f_is_quad_var false a = Some r) /\ (exists r, f_normalize false a = Some r) /\ (exists r, f_normalize_weak false a = Some r) /\ (exists r, f_normalize_var false a = Some r) /\
  (exists r, f_normalizes_to_zero false a = Some r) /\ (exists r, f_normalizes_to_zero_var false a = Some r) /\ (exists r, f_set_int false m = Some r) /\ (exists r, f_is_zero false a = Some r) /\ (exists r, f_is_odd false a = Some r) /\
  (exists r, f_cmp_var false a b = Some r) /\ (exists r, f_eq false a b = Some r) /\ (exists r, f_b32 false a = Some r) /\ (exists r, f_to_storage false a = Some r).
Proof.
  intros a b m. repeat apply conj; [apply f_add_tot | apply f_mul_tot | apply f_sqr_tot | apply f_neg_tot | apply f_mul_int_tot | apply f_inv_tot | apply f_sqrt_tot | apply f_is_quad_var_tot | apply f_normalize_tot | apply f_normalize_weak_tot | apply f_normalize_var_tot
  | apply f_normalizes_to_zero_tot | apply f_normalizes_to_zero_var_tot | apply f_set_int_tot | apply f_is_zero_tot | apply f_is_odd_tot | apply f_cmp_var_tot | apply f_eq_tot | apply f_b32_tot | apply f_to_storage_tot].
Qed.
Lemma C86_field_example_pf : f_mul true (Fe 1 0 0 0 0 0 0 0 0 0 9 false) (Fe 1 0 0 0 0 0 0 0 0 0 1 true) = None.
Proof. reflexivity. Qed.
(** Points: any coordinates and flags. *)
Lemma C86_group_pf : forall (a b : jac) (g h : affine) (f z : field) (o : bool) (rzr : option field),
  (exists r, j_add_var false a b rzr = Some r) /\ (exists r, j_add_ge_var false a g rzr = Some r) /\ (exists r, j_add_ge false a g = Some r) /\ (exists r, j_add_zinv_var false a g z = Some r) /\ (exists r, j_double_var false a rzr = Some r) /\ (exists r, j_neg false a = Some r) /\
  (exists r, j_rescale false a f = Some r) /\ (exists r, j_eq_x_var false a f = Some r) /\ (exists r, j_has_quad_y_var false a = Some r) /\ (exists r, j_set_ge false g = Some r) /\ (exists r, af_set_gej false a = Some r) /\ (exists r, af_set_gej_var false g a = Some r) /\
  (exists r, af_set_xo_var false f o = Some r) /\ (exists r, af_set_xquad false f = Some r) /\ (exists r, af_is_valid_var false g = Some r) /\ (exists r, af_neg false g = Some r) /\ (exists r, af_eq false g h = Some r) /\ (exists r, af_to_storage false g = Some r).
Proof.
  intros a b g h f z o rzr. repeat apply conj; [apply j_add_var_tot | apply j_add_ge_var_tot | apply j_add_ge_tot | apply j_add_zinv_var_tot | apply j_double_var_tot | apply j_neg_tot | apply j_rescale_tot | apply j_eq_x_var_tot | apply j_has_quad_y_var_tot | apply j_set_ge_tot
  | apply af_set_gej_tot | apply af_set_gej_var_tot | apply af_set_xo_var_tot | apply af_set_xquad_tot | apply af_is_valid_var_tot | apply af_neg_tot | apply af_eq_tot | apply af_to_storage_tot].
Qed.
Lemma C86_group_example_pf : j_add_ge true j_set_infinity (Af f_default f_default true) = None /\ exists r, j_add_ge false j_set_infinity (Af f_default f_default true) = Some r.
Proof. split; [reflexivity | apply j_add_ge_tot]. Qed.
