(** The array programs of MHeap.v compute what the list programs of MEcmult.v compute. *)
From Verif Require Import Word MField MScalar MGroup MEcmult MHeap.

Lemma get_mid {A} (l r : cells A) x i : i = length l -> get (l ++ Some x :: r) i = Val x.
Proof. intros ->. unfold get. rewrite nth_error_app2, Nat.sub_diag by lia. reflexivity. Qed.
Lemma upd_mid {A} (l r : list A) x v : upd (l ++ x :: r) (length l) v = l ++ v :: r.
Proof. induction l as [|a l IH]; cbn [app length upd]; [reflexivity|]. rewrite IH. reflexivity. Qed.
Lemma set_mid {A} (l r : cells A) x i v : i = length l -> set (l ++ x :: r) i v = Val (l ++ Some v :: r).
Proof.
  intros ->. unfold set. rewrite (proj2 (Nat.ltb_lt _ _)) by (rewrite app_length; cbn [length]; lia). rewrite upd_mid. reflexivity.
Qed.
Lemma set_head {A} (r : cells A) x v : set (x :: r) 0 v = Val (Some v :: r).
Proof. reflexivity. Qed.
Lemma set2_mid {A} (l r : list (cells A)) (c1 c2 : cells A) x j i v : j = length l -> i = length c1 ->
  set2 (l ++ (c1 ++ x :: c2) :: r) j i v = Val (l ++ (c1 ++ Some v :: c2) :: r).
Proof.
  intros -> ->. unfold set2. rewrite nth_error_app2, Nat.sub_diag by lia. cbn [nth_error]. rewrite set_mid by reflexivity. cbn [bindR]. rewrite upd_mid. reflexivity.
Qed.
Lemma some_len {A} (l : list A) : length (map Some l) = length l. Proof. apply map_length. Qed.
Lemma freeze_some {A} (l : list A) : freeze (map Some l) = Val l.
Proof. induction l as [|a l IH]; cbn [map freeze]; [reflexivity|]. rewrite IH. reflexivity. Qed.
Lemma vec_some {A} n (d : A) : vec n d = map Some (repeat d n).
Proof. unfold vec. induction n as [|n IH]; cbn [repeat map]; [reflexivity|]. rewrite IH. reflexivity. Qed.
Lemma last_split {A} (l : list A) n : length l = S n -> exists l' x, l = l' ++ [x] /\ length l' = n.
Proof.
  intros L. destruct (@exists_last _ l) as (l' & x & ->); [intros ->; discriminate L|]. exists l', x. split; [reflexivity|]. rewrite app_length in L. cbn [length] in L. lia.
Qed.
Lemma for_up_fill {A} (v : nat -> A) (r : cells A) : forall (k : nat) (l : list A) (u : cells A), length u = k ->
  for_up k (length l) (fun i s => set s i (v i)) (map Some l ++ u ++ r) = Val (map Some (l ++ map v (seq (length l) k)) ++ r).
Proof.
  induction k as [|k IH]; intros l [|x u] L; try discriminate L; cbn [for_up seq map].
  - rewrite app_nil_r. reflexivity.
  - cbn [app]. rewrite set_mid by (rewrite some_len; reflexivity). cbn [bindR]. injection L as L.
    specialize (IH (l ++ [v (length l)]) u L). rewrite map_app, app_length, Nat.add_1_r, <- !app_assoc in IH. cbn [map app] in IH. rewrite IH. reflexivity.
Qed.
Lemma for_up_ext {S} (f g : nat -> S -> res S) (H : forall i s, f i s = g i s) : forall k lo s, for_up k lo f s = for_up k lo g s.
Proof. induction k as [|k IH]; intros lo s; [reflexivity|]. cbn [for_up]. rewrite H. destruct (g lo s); cbn [bindR]; auto. Qed.

Ltac rwR H := match type of H with ?l = _ => match goal with |- bindR ?e _ = _ => change e with l; rewrite H end end.
Section B.
Variable dbg : bool.
Lemma chk_true : chk dbg true = Val tt.
Proof. unfold chk, dassert. destruct dbg; reflexivity. Qed.

(** * odd_multiples_table *)
Definition odd_body d_ge (i : nat) (s : cells jac * cells field) : res (cells jac * cells field) :=
    let '(prej, zr) := s in
    let% p := get prej (i - 1) in
    let% old := get zr i in
    let% '(nx, z) := ofo (j_add_ge_var dbg p d_ge (Some old)) in
    let% prej := set prej i nx in
    let% zr := set zr i (match z with Some f => f | None => old end) in
    Val (prej, zr).
Lemma odd_loop d_ge : forall k pre prev u zpre, length u = k -> length zpre = S (length pre) ->
  for_up k (S (length pre)) (odd_body d_ge) (map Some pre ++ Some prev :: u, map Some zpre ++ map Some (repeat f_default k)) =
  match odd_mult_loop dbg k prev d_ge with
  | Some (pj, zs) => Val (map Some (pre ++ prev :: pj), map Some (zpre ++ zs))
  | None => Panic
  end.
Proof.
  induction k as [|k IH]; intros pre prev [|x u] zpre L LZ; try discriminate L; cbn [for_up odd_mult_loop repeat map].
  - rewrite !app_nil_r, map_app. reflexivity.
  - unfold odd_body at 1. rewrite get_mid by (rewrite some_len; lia). cbn [bindR].
    rewrite get_mid by (rewrite some_len; lia). cbn [bindR]. unfold bind. destruct (j_add_ge_var dbg prev d_ge (Some f_default)) as [[nx z]|]; [|reflexivity]. cbn [ofo bindR].
    assert (E : forall v : option jac, map (@Some jac) pre ++ Some prev :: v :: u = map Some (pre ++ [prev]) ++ v :: u) by (intros v; rewrite map_app, <- app_assoc; reflexivity).
    rewrite E, set_mid by (rewrite some_len, app_length; cbn [length]; lia). cbn [bindR]. rewrite set_mid by (rewrite some_len; lia). cbn [bindR].
    injection L as L. set (zf := match z with Some f => f | None => f_default end).
    specialize (IH (pre ++ [prev]) nx u (zpre ++ [zf]) L). rewrite !app_length in IH. cbn [length] in IH. specialize (IH ltac:(lia)).
    rewrite Nat.add_1_r, (map_app Some zpre [zf]), <- !app_assoc in IH. cbn [map app] in IH. etransitivity; [exact IH|].
    destruct (odd_mult_loop dbg k nx d_ge) as [[pj zs]|]; [|reflexivity]. rewrite <- !app_assoc. reflexivity.
Qed.
Lemma scale_last_snoc dz : forall l a, scale_last dbg (l ++ [a]) dz = let* z := f_mul dbg (j_z a) dz in Some (l ++ [Ja (j_x a) (j_y a) z (j_inf a)]).
Proof.
  induction l as [|b l IH]; intros a; cbn [app scale_last]; [reflexivity|]. rewrite IH. destruct (f_mul dbg (j_z a) dz); destruct l; reflexivity.
Qed.
Lemma odd_mult_len d_ge : forall k prev pj zs, odd_mult_loop dbg k prev d_ge = Some (pj, zs) -> length pj = k /\ length zs = k.
Proof.
  induction k as [|k IH]; intros prev pj zs H; cbn [odd_mult_loop] in H; [injection H as <- <-; auto|].
  unfold bind in H. destruct (j_add_ge_var dbg prev d_ge (Some f_default)) as [[nx z]|]; [|discriminate H]. cbv zeta in H.
  destruct (odd_mult_loop dbg k nx d_ge) as [[pj' zs']|] eqn:E; [|discriminate H]. apply (f_equal (fun o => match o with Some (a, b) => (length a, length b) | None => (0%nat, 0%nat) end)) in H.
  destruct (IH _ _ _ E) as [<- L]. cbv beta iota in H. cbn [length] in H. injection H as H1 H2. lia.
Qed.
Lemma i_odd_ok n u a : length u = n -> (0 < n)%nat ->
  i_odd_multiples_table dbg u (vec n f_default) a =
  match odd_multiples_table dbg n a with Some (pj, zs) => Val (map Some pj, map Some zs) | None => Panic end.
Proof.
  intros L N. unfold i_odd_multiples_table, odd_multiples_table. unfold vec at 1. rewrite repeat_length, L, Nat.eqb_refl, chk_true. cbn [bindR].
  destruct n as [|n]; [lia|]. cbn [Nat.eqb negb]. rewrite chk_true. cbn [bindR].
  replace (dassert dbg true) with (Some tt) by (unfold dassert; destruct dbg; reflexivity). unfold chk. cbn [bind].
  destruct (dassert dbg (negb (j_inf a))) as [[]|]; [|reflexivity]. cbn [ofo bindR bind].
  destruct (j_double dbg a) as [d|]; [|reflexivity]. cbn [ofo bindR bind]. cbv zeta.
  destruct (af_set_gej_zinv dbg a (j_z d)) as [a_ge|]; [|reflexivity]. cbn [ofo bindR bind].
  destruct u as [|x u]; [discriminate L|]. injection L as L.
  rewrite set_head. cbn [bindR]. rewrite vec_some. cbn [repeat map]. rewrite set_head. cbn [bindR length].
  replace (S (length u) - 1)%nat with n by lia.
  set (p0 := Ja (af_x a_ge) (af_y a_ge) (j_z a) false). set (d_ge := Af (j_x d) (j_y d) false).
  pose proof (odd_loop d_ge n [] p0 u [j_z d] L eq_refl) as H. cbn [length app map] in H. rwR H. clear H.
  destruct (odd_mult_loop dbg n p0 d_ge) as [[pj zs]|] eqn:E; [|reflexivity]. cbn [bindR bind].
  destruct (odd_mult_len _ _ _ _ _ E) as [L1 L2].
  assert (LL : length (p0 :: pj) = S n) by (cbn [length]; rewrite L1; reflexivity).
  destruct (last_split (p0 :: pj) n LL) as (l' & q & EQ & LQ).
  change (Some p0 :: map Some pj) with (map Some (p0 :: pj)). rewrite EQ, scale_last_snoc, map_app, app_length, some_len. cbn [map length]. 
  replace (length l' + 1 - 1)%nat with (length l') by lia. rewrite get_mid by (rewrite some_len; reflexivity). cbn [bindR].
  destruct (f_mul dbg (j_z q) (j_z d)) as [z|]; [|reflexivity]. cbn [ofo bindR bind]. rewrite set_mid by (rewrite some_len; reflexivity). cbn [bindR map]. rewrite map_app. reflexivity.
Qed.

(** * set_table_gej_var *)
Lemma table_down : forall ra rzr zi acc front a' zr', length front = length ra -> length rzr = S (length ra) ->
  i_table_down dbg (length ra) (front ++ map Some acc) (map Some (rev ra) ++ a') (map Some (rev rzr) ++ zr') zi =
  match set_table_loop dbg ra rzr zi acc with Some t => Val (map Some t) | None => Panic end.
Proof.
  induction ra as [|a ra IH]; intros [|z rzr] zi acc front a' zr' LF LZ; try discriminate LZ; cbn [length i_table_down set_table_loop].
  - destruct front; [|discriminate LF]. reflexivity.
  - injection LZ as LZ. cbn [rev]. rewrite !map_app, <- !app_assoc. cbn [map app]. rewrite get_mid by (rewrite some_len, rev_length; lia). cbn [bindR].
    unfold bind. destruct (f_mul dbg zi z) as [zi'|]; [|reflexivity]. cbn [ofo bindR]. rewrite get_mid by (rewrite some_len, rev_length; lia). cbn [bindR].
    destruct (af_set_gej_zinv dbg a zi') as [q|]; [|reflexivity]. cbn [ofo bindR].
    destruct (last_split front (length ra) LF) as (f' & x & -> & LF'). rewrite <- app_assoc. cbn [app]. rewrite set_mid by (symmetry; exact LF'). cbn [bindR].
    exact (IH rzr zi' (q :: acc) f' (Some a :: a') (Some z :: zr') LF' LZ).
Qed.
Lemma i_set_table_ok n r a zr : length r = n -> length a = n -> length zr = n -> (0 < n)%nat ->
  i_set_table_gej_var dbg r (map Some a) (map Some zr) = match set_table_gej_var dbg a zr with Some t => Val (map Some t) | None => Panic end.
Proof.
  intros LR LA LZ N. unfold i_set_table_gej_var, set_table_gej_var. rewrite some_len, LR, LA, Nat.eqb_refl, chk_true. cbn [bindR].
  destruct n as [|n]; [lia|]. destruct (rev a) as [|al ra] eqn:RA; [apply (f_equal (@length jac)) in RA; rewrite rev_length, LA in RA; discriminate RA|].
  apply (f_equal (@rev jac)) in RA. rewrite rev_involutive in RA. cbn [rev] in RA. subst a.
  rewrite app_length, rev_length in LA. cbn [length] in LA. assert (LRA : length ra = n) by lia.
  rewrite map_app. cbn [map]. rewrite get_mid by (rewrite some_len, rev_length; lia). cbn [bindR]. unfold bind.
  destruct (f_inv dbg (j_z al)) as [zi|]; [|reflexivity]. cbn [ofo bindR]. destruct (af_set_gej_zinv dbg al zi) as [q|]; [|reflexivity]. cbn [ofo bindR].
  destruct (last_split r n LR) as (f' & x & -> & LF'). rewrite set_mid by (symmetry; exact LF'). cbn [bindR].
  pose proof (table_down ra (rev zr) zi [q] f' [Some al] [] ltac:(lia) ltac:(rewrite rev_length; lia)) as H. rewrite rev_involutive, app_nil_r, LRA in H. exact H.
Qed.

(** * globalz_set_table_gej *)
Lemma globalz_down n : forall ra rzr zi acc front a' zr', (length ra < n - 1)%nat -> length front = length ra -> length rzr = S (length ra) ->
  i_globalz_down dbg n (length ra) (front ++ map Some acc) (map Some (rev ra) ++ a') (map Some (rev rzr) ++ zr') zi =
  match set_table_loop dbg ra rzr zi acc with Some t => Val (map Some t) | None => Panic end.
Proof.
  induction ra as [|a ra IH]; intros [|z rzr] zi acc front a' zr' LN LF LZ; try discriminate LZ; cbn [length i_globalz_down set_table_loop].
  - destruct front; [|discriminate LF]. reflexivity.
  - cbn [length] in LN. rewrite (proj2 (Nat.eqb_neq _ _)) by lia. injection LZ as LZ. cbn [rev]. rewrite !map_app, <- !app_assoc. cbn [map app]. rewrite get_mid by (rewrite some_len, rev_length; lia). cbn [bindR].
    unfold bind. destruct (f_mul dbg zi z) as [zi'|]; [|reflexivity]. cbn [ofo bindR]. rewrite get_mid by (rewrite some_len, rev_length; lia). cbn [bindR].
    destruct (af_set_gej_zinv dbg a zi') as [q|]; [|reflexivity]. cbn [ofo bindR].
    destruct (last_split front (length ra) LF) as (f' & x & -> & LF'). rewrite <- app_assoc. cbn [app]. rewrite set_mid by (symmetry; exact LF'). cbn [bindR].
    apply (IH rzr zi' (q :: acc) f' (Some a :: a') (Some z :: zr')); [lia | exact LF' | exact LZ].
Qed.
Lemma i_globalz_ok n r gz a zr : length r = n -> length a = n -> length zr = n -> (0 < n)%nat ->
  i_globalz_set_table_gej dbg r gz (map Some a) (map Some zr) = match globalz_set_table_gej dbg a zr with Some (t, z) => Val (map Some t, z) | None => Panic end.
Proof.
  intros LR LA LZ N. unfold i_globalz_set_table_gej, globalz_set_table_gej. rewrite !some_len, LR, LA, LZ, Nat.eqb_refl. cbn [andb]. rewrite chk_true. cbn [bindR].
  replace (dassert dbg true) with (Some tt) by (unfold dassert; destruct dbg; reflexivity). cbn [bind].
  destruct n as [|n]; [lia|]. destruct (rev a) as [|al ra] eqn:RA; [apply (f_equal (@length jac)) in RA; rewrite rev_length, LA in RA; discriminate RA|].
  destruct (rev zr) as [|zl rzr] eqn:RZ; [apply (f_equal (@length field)) in RZ; rewrite rev_length, LZ in RZ; discriminate RZ|].
  apply (f_equal (@rev jac)) in RA. rewrite rev_involutive in RA. cbn [rev] in RA. subst a. apply (f_equal (@rev field)) in RZ. rewrite rev_involutive in RZ. cbn [rev] in RZ. subst zr.
  rewrite app_length, rev_length in LA, LZ. cbn [length] in LA, LZ. assert (LRA : length ra = n) by lia. assert (LRZ : length rzr = n) by lia.
  rewrite !map_app. cbn [map]. rewrite get_mid by (rewrite some_len, rev_length; lia). cbn [bindR].
  destruct (last_split r n LR) as (f' & x & -> & LF'). rewrite set_mid by (symmetry; exact LF'). cbn [bindR].
  rewrite get_mid by (rewrite some_len, rev_length; lia). cbn [bindR]. cbv zeta.
  destruct ra as [|a1 ra]; [cbn [length] in LRA; subst n; destruct f'; [|discriminate LF']; reflexivity|].
  cbn [length] in LRA. destruct n as [|n]; [discriminate LRA|]. injection LRA as LRA. cbn [i_globalz_down]. rewrite (proj2 (Nat.eqb_eq _ _)) by lia. cbn [bindR rev].
  rewrite map_app, <- app_assoc. cbn [map app]. rewrite get_mid by (rewrite some_len, rev_length; lia). cbn [bindR]. unfold bind.
  destruct (af_set_gej_zinv dbg a1 zl) as [q|]; [|reflexivity]. cbn [ofo bindR].
  destruct (last_split f' n LF') as (f2 & y & -> & LF2). rewrite <- app_assoc. cbn [app]. rewrite set_mid by (symmetry; exact LF2). cbn [bindR].
  pose proof (globalz_down (S (S n)) ra rzr zl [q; Af (j_x al) (j_y al) false] f2 [Some a1; Some al] [Some zl] ltac:(lia) ltac:(lia) ltac:(lia)) as H.
  rewrite LRA in H. cbn [map] in H. rwR H. destruct (set_table_loop dbg ra rzr zl [q; Af (j_x al) (j_y al) false]); reflexivity.
Qed.
Lemma scale_last_len dz : forall l l', scale_last dbg l dz = Some l' -> length l' = length l.
Proof.
  induction l as [|a [|b l] IH]; intros l' H; cbn [scale_last] in H; [discriminate H| |].
  - destruct (f_mul dbg (j_z a) dz); [|discriminate H]. cbn [bind] in H. injection H as <-. reflexivity.
  - change (scale_last dbg (b :: l) dz) with (scale_last dbg (b :: l) dz) in H. unfold bind in H.
    match type of H with match ?e with _ => _ end = _ => destruct e as [t|] eqn:E; [|discriminate H] end.
    assert (H' := f_equal (fun o => match o with Some x => length x | None => 0%nat end) H). cbv beta iota in H'. rewrite <- H'. cbn [length]. rewrite (IH t E). reflexivity.
Qed.
Lemma odd_table_len n a pj zs : odd_multiples_table dbg n a = Some (pj, zs) -> length pj = n /\ length zs = n.
Proof.
  unfold odd_multiples_table. unfold bind. intros H. destruct (dassert dbg _); [|discriminate H]. destruct (dassert dbg _); [|discriminate H]. destruct (j_double dbg a) as [d|]; [|discriminate H].
  cbv zeta in H. destruct (af_set_gej_zinv dbg a (j_z d)) as [g|]; [|discriminate H]. destruct n as [|k]; [discriminate H|].
  destruct (odd_mult_loop dbg k _ _) as [[p z]|] eqn:E; [|discriminate H]. destruct (scale_last dbg _ _) as [t|] eqn:S; [|discriminate H].
  apply odd_mult_len in E. destruct E as [E1 E2]. apply scale_last_len in S.
  assert (H' := f_equal (fun o => match o with Some (x, y) => (length x, length y) | None => (0%nat, 0%nat) end) H). cbv beta iota in H'. cbn [length] in *. injection H' as H1 H2. lia.
Qed.
Lemma i_windowa_ok pre gz a : length pre = ECMULT_TABLE_SIZE_A ->
  i_odd_multiples_table_globalz_windowa dbg pre gz a = match odd_multiples_table_globalz_windowa dbg a with Some (t, z) => Val (map Some t, z) | None => Panic end.
Proof.
  intros L. unfold i_odd_multiples_table_globalz_windowa, odd_multiples_table_globalz_windowa.
  assert (P : (0 < ECMULT_TABLE_SIZE_A)%nat) by (unfold ECMULT_TABLE_SIZE_A; lia).
  rewrite i_odd_ok by (unfold vec; rewrite ?repeat_length; auto). unfold bind. destruct (odd_multiples_table dbg ECMULT_TABLE_SIZE_A a) as [[pj zs]|] eqn:E; [|reflexivity]. cbn [bindR].
  destruct (odd_table_len _ _ _ _ E). apply (i_globalz_ok ECMULT_TABLE_SIZE_A); assumption.
Qed.

(** * odd_multiples_table_storage_var *)
Lemma store_ok prea : forall t l u s, prea = l ++ t -> length u = length t -> length s = length l ->
  for_up (length t) (length l) (fun i pre => let% q := get (map Some prea) i in let% st := ofo (af_to_storage dbg q) in set pre i st) (map Some s ++ u) =
  match mapo (af_to_storage dbg) t with Some r => Val (map Some (s ++ r)) | None => Panic end.
Proof.
  induction t as [|q t IH]; intros l [|x u] s E L LS; try discriminate L; cbn [length for_up mapo].
  - rewrite !app_nil_r. reflexivity.
  - rewrite E at 1. rewrite map_app. cbn [map]. rewrite get_mid by (rewrite some_len; reflexivity). cbn [bindR]. unfold bind.
    destruct (af_to_storage dbg q) as [st|]; [|reflexivity]. cbn [ofo bindR]. rewrite set_mid by (rewrite some_len; auto). cbn [bindR].
    injection L as L. specialize (IH (l ++ [q]) u (s ++ [st])). rewrite (app_length l), Nat.add_1_r, (map_app Some s), <- (app_assoc (map Some s)) in IH. cbn [length map app] in IH.
    rewrite IH; [|rewrite <- app_assoc; exact E | exact L | rewrite app_length; cbn [length]; lia]. destruct (mapo (af_to_storage dbg) t); [|reflexivity]. rewrite <- app_assoc. reflexivity.
Qed.
Lemma set_table_loop_len : forall ra rzr zi acc t, set_table_loop dbg ra rzr zi acc = Some t -> length t = (length ra + length acc)%nat.
Proof.
  induction ra as [|a ra IH]; intros rzr zi acc t H; cbn [set_table_loop] in H; [destruct rzr; injection H as <-; reflexivity|].
  destruct rzr as [|z rzr]; [discriminate H|]. unfold bind in H. destruct (f_mul dbg zi z) as [zi'|]; [|discriminate H]. destruct (af_set_gej_zinv dbg a zi'); [|discriminate H].
  apply IH in H. cbn [length] in *. lia.
Qed.
Lemma set_table_len a zr t : set_table_gej_var dbg a zr = Some t -> length t = length a.
Proof.
  unfold set_table_gej_var. rewrite <- (rev_length a). destruct (rev a) as [|al ra]; intros H; [injection H as <-; reflexivity|]. unfold bind in H.
  destruct (f_inv dbg (j_z al)); [|discriminate H]. destruct (af_set_gej_zinv dbg al _); [|discriminate H]. apply set_table_loop_len in H. cbn [length] in *. lia.
Qed.
Lemma i_storage_ok n pre a : length pre = n -> (0 < n)%nat ->
  i_odd_multiples_table_storage_var dbg (map Some pre) a = match odd_multiples_table_storage_var dbg n a with Some t => Val (map Some t) | None => Panic end.
Proof.
  intros L N. unfold i_odd_multiples_table_storage_var, odd_multiples_table_storage_var. rewrite freeze_some, some_len, L. cbn [bindR].
  rewrite i_odd_ok by (unfold vec; rewrite ?repeat_length; auto). unfold bind. destruct (odd_multiples_table dbg n a) as [[pj zs]|] eqn:E; [|reflexivity]. cbn [bindR].
  destruct (odd_table_len _ _ _ _ E) as [L1 L2]. rewrite (i_set_table_ok n) by (unfold vec; rewrite ?repeat_length; auto).
  destruct (set_table_gej_var dbg pj zs) as [prea|] eqn:ES; [|reflexivity]. cbn [bindR]. apply set_table_len in ES.
  pose proof (store_ok prea prea [] (map Some pre) [] eq_refl) as H. rewrite some_len, ES, L1, L in H. exact (H eq_refl eq_refl).
Qed.
Lemma h_context_ok : h_ecmult_context_new dbg false = ofo (ecmult_context_new dbg).
Proof.
  unfold h_ecmult_context_new, ecmult_context_new.
  pose proof (for_up_fill (fun _ => as_default) [] ECMULT_TABLE_SIZE_G [] (repeat None ECMULT_TABLE_SIZE_G) (repeat_length _ _)) as F.
  cbn [length map app] in F. rewrite !app_nil_r in F. rwR F. cbn [bindR]. clear F. unfold bind. destruct (j_set_ge dbg AFFINE_G) as [gj|]; [|reflexivity]. cbn [ofo bindR].
  rewrite (i_storage_ok ECMULT_TABLE_SIZE_G) by (rewrite ?map_length, ?seq_length; unfold ECMULT_TABLE_SIZE_G; lia).
  destruct (odd_multiples_table_storage_var dbg ECMULT_TABLE_SIZE_G gj) as [t|]; [|reflexivity]. cbn [bindR]. rewrite freeze_some. reflexivity.
Qed.

(** * inv_all_var *)
Lemma inv_up fields : forall l pre prev acc, fields = map Some (pre ++ l) -> length pre = S (length acc) ->
  for_up (length l) (length pre) (fun i ret =>
        let ret := ret ++ [Some f_default] in
        let% p := get ret (i - 1) in
        let% f := get fields i in
        let% v := ofo (f_mul dbg p f) in
        set ret i v) (map Some (rev (prev :: acc))) =
  match run_products dbg prev l (prev :: acc) with Some r => Val (map Some (rev r)) | None => Panic end.
Proof.
  induction l as [|f l IH]; intros pre prev acc E L; cbn [length for_up run_products]; [reflexivity|].
  cbn [rev]. rewrite map_app at 1. cbn [map]. rewrite <- app_assoc. cbn [app]. rewrite get_mid by (rewrite some_len, rev_length; lia). cbn [bindR].
  rewrite E at 1. rewrite map_app. cbn [map]. rewrite get_mid by (rewrite some_len; reflexivity). cbn [bindR]. unfold bind.
  destruct (f_mul dbg prev f) as [v|]; [|reflexivity]. cbn [ofo bindR]. rewrite map_app. cbn [map].
  rewrite set_mid by (rewrite app_length, some_len, rev_length; cbn [length]; lia). cbn [bindR].
  specialize (IH (pre ++ [f]) v (prev :: acc)). rewrite app_length, Nat.add_1_r, <- app_assoc in IH. cbn [length app] in IH. specialize (IH E ltac:(lia)).
  cbn [rev] in IH. rewrite !map_app in IH. cbn [map] in IH. exact IH.
Qed.
Lemma run_products_len : forall l prev acc r, run_products dbg prev l acc = Some r -> length r = (length l + length acc)%nat.
Proof.
  induction l as [|f l IH]; intros prev acc r H; cbn [run_products] in H; [injection H as <-; reflexivity|].
  unfold bind in H. destruct (f_mul dbg prev f); [|discriminate H]. apply IH in H. cbn [length] in *. lia.
Qed.
Lemma inv_down_ok : forall rp rf u acc x ftail, length rf = S (length rp) ->
  (let% '(ret, u) := i_inv_down dbg (length rp) (map Some (rev rf) ++ ftail) (map Some (rev rp) ++ x :: map Some acc) u in set ret 0 u) =
  match inv_down dbg rp rf u acc with Some r => Val (map Some r) | None => Panic end.
Proof.
  induction rp as [|p rp IH]; intros [|f rf] u acc x ftail L; try discriminate L; injection L as L.
  - destruct rf; [|discriminate L]. reflexivity.
  - destruct rf as [|f' rf]; [discriminate L|]. cbn [length i_inv_down inv_down]. cbn [rev]. rewrite (map_app Some (rev rp)), <- app_assoc. cbn [map app].
    rewrite get_mid by (rewrite some_len, rev_length; reflexivity). cbn [bindR]. unfold bind. destruct (f_mul dbg p u) as [r|]; [|reflexivity]. cbn [ofo bindR].
    change (map Some (rev rp) ++ Some p :: x :: map Some acc) with (map Some (rev rp) ++ [Some p] ++ x :: map Some acc). rewrite app_assoc.
    rewrite set_mid by (rewrite app_length, some_len, rev_length; cbn [length]; lia). cbn [bindR].
    change ((rev rf ++ [f']) ++ [f]) with (rev (f' :: rf) ++ [f]). rewrite map_app, <- app_assoc. cbn [map app]. rewrite get_mid by (rewrite some_len, rev_length; auto). cbn [bindR].
    destruct (f_mul dbg u f) as [u'|]; [|reflexivity]. cbn [ofo bindR]. rewrite <- app_assoc. cbn [app].
    exact (IH (f' :: rf) u' (r :: acc) (Some p) (Some f :: ftail) L).
Qed.
Lemma i_inv_all_ok fs : i_inv_all_var dbg (map Some fs) = match inv_all_var dbg fs with Some r => Val (map Some r) | None => Panic end.
Proof.
  unfold i_inv_all_var, inv_all_var. rewrite some_len. destruct fs as [|f0 t]; [reflexivity|]. cbn [length]. change (get (map Some (f0 :: t)) 0) with (Val f0). cbn [bindR].
  pose proof (inv_up (map Some (f0 :: t)) t [f0] f0 [] eq_refl eq_refl) as H. cbn [length rev app map] in H. cbn [map]. rwR H. clear H. unfold bind.
  destruct (run_products dbg f0 t [f0]) as [rp|] eqn:E; [|reflexivity]. cbn [bindR]. apply run_products_len in E. cbn [length] in E.
  destruct rp as [|last below]; [cbn [length] in E; lia|]. cbn [length] in E. assert (LB : length below = length t) by lia. cbn [rev]. rewrite map_app. cbn [map].
  rewrite get_mid by (rewrite some_len, rev_length; auto). cbn [bindR]. destruct (f_inv dbg last) as [u|]; [|reflexivity]. cbn [ofo bindR].
  pose proof (inv_down_ok below (rev (f0 :: t)) u [] (Some last) []) as H. rewrite rev_length, rev_involutive, app_nil_r, LB in H. exact (H eq_refl).
Qed.

(** * set_all_gej_var *)
Lemma az_loop a : forall t l az, a = map Some (l ++ t) ->
  for_up (length t) (length l) (fun i (az : cells field) => let% p := get a i in Val (if negb (j_inf p) then az ++ [Some (j_z p)] else az)) az =
  Val (az ++ map Some (map j_z (filter (fun p => negb (j_inf p)) t))).
Proof.
  induction t as [|p t IH]; intros l az E; cbn [length for_up filter map]; [rewrite app_nil_r; reflexivity|].
  rewrite E at 1. rewrite map_app. cbn [map]. rewrite get_mid by (rewrite some_len; reflexivity). cbn [bindR].
  specialize (IH (l ++ [p])). rewrite app_length, Nat.add_1_r, <- app_assoc in IH. cbn [length app] in IH. rewrite IH by exact E.
  destruct (negb (j_inf p)); cbn [map]; [rewrite <- app_assoc; reflexivity | reflexivity].
Qed.
Lemma set_all_ok a azi : forall t l s used rest, a = map Some (l ++ t) -> azi = map Some (used ++ rest) -> length s = length l ->
  (let% '(ret, count) := for_up (length t) (length l) (fun i s =>
    let '(ret, count) := s in
    let% p := get a i in
    let% old := get ret i in
    let% ret := set ret i (Af (af_x old) (af_y old) (j_inf p)) in
    if negb (j_inf p) then
      let% zi := get azi count in
      let% q := ofo (af_set_gej_zinv dbg p zi) in
      let% ret := set ret i q in
      Val (ret, S count)
    else Val (ret, count)) (map Some s ++ map Some (repeat af_default (length t)), length used) in Val ret) =
  match set_all_loop dbg t rest with Some r => Val (map Some (s ++ r)) | None => Panic end.
Proof.
  induction t as [|p t IH]; intros l s used rest E EA LS; cbn [length for_up set_all_loop repeat map].
  - cbn [bindR]. rewrite !app_nil_r. reflexivity.
  - rewrite E at 1. rewrite map_app. cbn [map]. rewrite get_mid by (rewrite some_len; reflexivity). cbn [bindR]. rewrite get_mid by (rewrite some_len; auto). cbn [bindR].
    rewrite set_mid by (rewrite some_len; auto). cbn [bindR].
    assert (IH' := fun q used rest H => IH (l ++ [p]) (s ++ [q]) used rest ltac:(rewrite <- app_assoc; exact E) H ltac:(rewrite !app_length, LS; reflexivity)).
    rewrite app_length, Nat.add_1_r in IH'. cbn [length] in IH'.
    destruct (j_inf p); cbn [negb].
    + cbn [bindR]. specialize (IH' (Af f_default f_default true) used rest EA). rewrite (map_app Some s), <- (app_assoc (map Some s)) in IH'. cbn [map app] in IH'.
      etransitivity; [exact IH'|]. unfold bind. destruct (set_all_loop dbg t rest); [|reflexivity]. rewrite <- app_assoc. reflexivity.
    + destruct rest as [|zi rest].
      { unfold get at 1. rewrite EA, app_nil_r. rewrite (proj2 (nth_error_None _ _)) by (rewrite some_len; lia). reflexivity. }
      rewrite EA at 1. rewrite map_app at 1. cbn [map]. rewrite get_mid by (rewrite some_len; reflexivity). cbn [bindR]. unfold bind.
      destruct (af_set_gej_zinv dbg p zi) as [q|]; [|reflexivity]. cbn [ofo bindR]. rewrite set_mid by (rewrite some_len; auto). cbn [bindR].
      specialize (IH' q (used ++ [zi]) rest ltac:(rewrite <- app_assoc; exact EA)). rewrite (map_app Some s), <- (app_assoc (map Some s)), app_length, Nat.add_1_r in IH'. cbn [map app length] in IH'.
      etransitivity; [exact IH'|]. destruct (set_all_loop dbg t rest); [|reflexivity]. rewrite <- app_assoc. reflexivity.
Qed.
Lemma i_set_all_ok a : i_set_all_gej_var dbg (map Some a) = match set_all_gej_var dbg a with Some r => Val (map Some r) | None => Panic end.
Proof.
  unfold i_set_all_gej_var, set_all_gej_var. rewrite some_len. pose proof (az_loop (map Some a) a [] [] eq_refl) as H. cbn [length app] in H. rwR H. clear H. cbn [bindR].
  rewrite i_inv_all_ok. cbv zeta. unfold bind. destruct (inv_all_var dbg _) as [azi|]; [|reflexivity]. cbn [bindR]. rewrite vec_some.
  exact (set_all_ok (map Some a) (map Some azi) a [] [] [] azi eq_refl eq_refl eq_refl).
Qed.

(** * the entries of the generator table *)
Lemma gen_row_ok j gbase pre u2 : length pre = (j * 16)%nat -> forall k row prev u, length u = k ->
  for_up k (S (length row)) (fun i precj =>
      let% p := get precj (j * 16 + i - 1) in
      let% nx := ofo (j_add dbg p gbase) in
      set precj (j * 16 + i) nx) (map Some (pre ++ row) ++ Some prev :: u ++ u2) =
  match gen_row dbg k prev gbase with Some r => Val (map Some (pre ++ row ++ prev :: r) ++ u2) | None => Panic end.
Proof.
  intros LP. induction k as [|k IH]; intros row prev [|x u] L; try discriminate L; cbn [for_up gen_row].
  - rewrite !map_app, <- !app_assoc. reflexivity.
  - rewrite get_mid by (rewrite some_len, app_length; lia). cbn [bindR]. unfold bind. destruct (j_add dbg prev gbase) as [nx|]; [|reflexivity]. cbn [ofo bindR].
    assert (E : forall w : cells jac, map Some (pre ++ row) ++ Some prev :: w = map Some (pre ++ row ++ [prev]) ++ w) by (intros w; rewrite !map_app, <- !app_assoc; reflexivity).
    rewrite E. cbn [app]. rewrite set_mid by (rewrite some_len, !app_length; cbn [length]; lia). cbn [bindR].
    injection L as L. specialize (IH (row ++ [prev]) nx u L). rewrite app_length, Nat.add_1_r in IH. rewrite IH.
    destruct (gen_row dbg k nx gbase); [|reflexivity]. rewrite <- !app_assoc. reflexivity.
Qed.
Lemma gen_row_len gbase : forall k prev r, gen_row dbg k prev gbase = Some r -> length r = k.
Proof.
  induction k as [|k IH]; intros prev r H; cbn [gen_row] in H; [injection H as <-; reflexivity|]. unfold bind in H. destruct (j_add dbg prev gbase) as [nx|]; [|discriminate H].
  destruct (gen_row dbg k nx gbase) as [r'|] eqn:E; [|discriminate H]. apply IH in E.
  assert (H' := f_equal (fun o => match o with Some x => length x | None => 0%nat end) H). cbv beta iota in H'. rewrite <- H'. cbn [length]. lia.
Qed.
Lemma eqb_62 j : (Z.of_nat j =? 62) = Nat.eqb j 62.
Proof. destruct (Nat.eqb_spec j 62) as [->|N]; [reflexivity|]. apply Z.eqb_neq. lia. Qed.
Definition gen_body nums_gej (j : nat) (s : cells jac * jac * jac) : res (cells jac * jac * jac) :=
    let '(precj, gbase, numsbase) := s in
    let% precj := set precj (j * 16) numsbase in
    let% precj := for_up 15 1 (fun i precj =>
      let% p := get precj (j * 16 + i - 1) in
      let% nx := ofo (j_add dbg p gbase) in
      set precj (j * 16 + i) nx) precj in
    let% gbase := for_up 4 0 (fun _ g => ofo (j_double dbg g)) gbase in
    let% numsbase := ofo (j_double dbg numsbase) in
    let% numsbase := (if Nat.eqb j 62 then let% m := ofo (j_neg dbg numsbase) in ofo (j_add dbg m nums_gej) else Val numsbase) in
    Val (precj, gbase, numsbase).
Lemma for_up_S {S} k lo (body : nat -> S -> res S) s : for_up (Datatypes.S k) lo body s = let% s := body lo s in for_up k (Datatypes.S lo) body s.
Proof. reflexivity. Qed.
Lemma gen_step nums_gej j pre u gbase numsbase : length pre = (j * 16)%nat -> (15 < length u)%nat ->
  gen_body nums_gej j (map Some pre ++ u, gbase, numsbase) =
  match (let* row := gen_row dbg 15 numsbase gbase in
      let* gbase := j_double dbg gbase in
      let* gbase := j_double dbg gbase in
      let* gbase := j_double dbg gbase in
      let* gbase := j_double dbg gbase in
      let* nb := j_double dbg numsbase in
      let* nb := (if Z.of_nat j =? 62 then let* m := j_neg dbg nb in j_add dbg m nums_gej else Some nb) in Some (row, gbase, nb)) with
  | Some (row, g, nb) => Val (map Some (pre ++ numsbase :: row) ++ skipn 16 u, g, nb)
  | None => Panic
  end.
Proof.
  intros LP LU. destruct u as [|x u]; [cbn [length] in LU; lia|]. unfold gen_body. rewrite set_mid by (rewrite some_len; auto). cbn [bindR]. cbn [skipn].
  pose proof (gen_row_ok j gbase pre (skipn 15 u) LP 15 [] numsbase (firstn 15 u)) as H. rewrite app_nil_r, firstn_skipn in H. cbn [length] in H, LU. rewrite firstn_length in H. specialize (H ltac:(lia)).
  rewrite H. clear H. cbn [app]. unfold bind. destruct (gen_row dbg 15 numsbase gbase) as [row|] eqn:ER; [|reflexivity]. cbn [bindR for_up].
  destruct (j_double dbg gbase) as [g1|]; [|reflexivity]. cbn [ofo bindR]. destruct (j_double dbg g1) as [g2|]; [|reflexivity]. cbn [ofo bindR].
  destruct (j_double dbg g2) as [g3|]; [|reflexivity]. cbn [ofo bindR]. destruct (j_double dbg g3) as [g4|]; [|reflexivity]. cbn [ofo bindR].
  destruct (j_double dbg numsbase) as [nb|]; [|reflexivity]. cbn [ofo bindR]. rewrite eqb_62. destruct (Nat.eqb j 62); [|reflexivity].
  destruct (j_neg dbg nb) as [m'|]; [|reflexivity]. cbn [ofo bindR]. destruct (j_add dbg m' nums_gej) as [nb'|]; reflexivity.
Qed.
Lemma gen_rows_ok nums_gej : forall k j pre u gbase numsbase, length pre = (j * 16)%nat -> length u = (k * 16)%nat ->
  (let% '(precj, _, _) := for_up k j (gen_body nums_gej) (map Some pre ++ u, gbase, numsbase) in Val precj) =
  match gen_rows dbg k (Z.of_nat j) gbase numsbase nums_gej with Some rows => Val (map Some (pre ++ concat rows)) | None => Panic end.
Proof.
  induction k as [|k IH]; intros j pre u gbase numsbase LP LU.
  - destruct u; [|discriminate LU]. cbn [for_up gen_rows bindR concat]. rewrite !app_nil_r. reflexivity.
  - rewrite for_up_S, gen_step by lia.
    change (gen_rows dbg (S k) (Z.of_nat j) gbase numsbase nums_gej) with (let* row := gen_row dbg 15 numsbase gbase in
      let* gbase := j_double dbg gbase in
      let* gbase := j_double dbg gbase in
      let* gbase := j_double dbg gbase in
      let* gbase := j_double dbg gbase in
      let* nb := j_double dbg numsbase in
      let* nb := (if Z.of_nat j =? 62 then let* m := j_neg dbg nb in j_add dbg m nums_gej else Some nb) in
      let* rest := gen_rows dbg k (Z.of_nat j + 1) gbase nb nums_gej in Some ((numsbase :: row) :: rest)).
    unfold bind. destruct (gen_row dbg 15 numsbase gbase) as [row|] eqn:ER; [|reflexivity]. apply gen_row_len in ER.
    destruct (j_double dbg gbase) as [g1|]; [|reflexivity]. destruct (j_double dbg g1) as [g2|]; [|reflexivity].
    destruct (j_double dbg g2) as [g3|]; [|reflexivity]. destruct (j_double dbg g3) as [g4|]; [|reflexivity].
    destruct (j_double dbg numsbase) as [nb|]; [|reflexivity].
    destruct (if Z.of_nat j =? 62 then _ else _) as [nb'|]; [|reflexivity]. cbn [bindR].
    specialize (IH (S j) (pre ++ numsbase :: row) (skipn 16 u) g4 nb'). rewrite app_length, skipn_length in IH. cbn [length] in IH. rewrite ER, LP, LU in IH.
    specialize (IH ltac:(lia) ltac:(lia)). rewrite Nat2Z.inj_succ in IH. unfold Z.succ in IH. rewrite IH.
    destruct (gen_rows dbg k (Z.of_nat j + 1) g4 nb' nums_gej); [|reflexivity]. cbn [concat]. rewrite <- app_assoc. reflexivity.
Qed.
Lemma i_gen_prec_ok gj nums_gej : i_gen_prec dbg gj nums_gej = match gen_rows dbg 64 0 gj nums_gej nums_gej with Some rows => Val (map Some (concat rows)) | None => Panic end.
Proof.
  exact (gen_rows_ok nums_gej 64 0 [] (vec 1024 j_default) gj nums_gej eq_refl (repeat_length _ _)).
Qed.

(** * filling rows *)
Section Rows.
Context {A : Type}.
Variable v : nat -> nat -> res A.
Fixpoint vals (j i k : nat) : res (list A) :=
  match k with O => Val [] | S k' => let% x := v j i in let% r := vals j (S i) k' in Val (x :: r) end.
Fixpoint rows (j k w : nat) : res (list (list A)) :=
  match k with O => Val [] | S k' => let% x := vals j 0 w in let% r := rows (S j) k' w in Val (x :: r) end.
Lemma row_fill R1 R2 : forall k u s, length u = k ->
  for_up k (length s) (fun i l => let% x := v (length R1) i in set2 l (length R1) i x) (R1 ++ (map Some s ++ u) :: R2) =
  let% xs := vals (length R1) (length s) k in Val (R1 ++ map Some (s ++ xs) :: R2).
Proof.
  induction k as [|k IH]; intros [|x u] s L; try discriminate L; cbn [for_up vals bindR]; [rewrite !app_nil_r; reflexivity|].
  destruct (v (length R1) (length s)) as [y| |]; cbn [bindR]; [|reflexivity..]. rewrite set2_mid by (rewrite ?some_len; reflexivity). cbn [bindR].
  injection L as L. specialize (IH u (s ++ [y]) L). rewrite app_length, Nat.add_1_r, map_app, <- app_assoc in IH. cbn [length map app] in IH. rewrite IH.
  destruct (vals (length R1) (S (length s)) k); cbn [bindR]; [|reflexivity..]. rewrite <- app_assoc. reflexivity.
Qed.
Lemma rows_fill w : forall k R1 R2, length R2 = k -> Forall (fun c => length c = w) R2 ->
  for_up k (length R1) (fun j l => for_up w 0 (fun i l => let% x := v j i in set2 l j i x) l) (map (map Some) R1 ++ R2) =
  let% r := rows (length R1) k w in Val (map (map Some) (R1 ++ r)).
Proof.
  induction k as [|k IH]; intros R1 [|c R2] L F; try discriminate L; cbn [for_up rows bindR]; [rewrite !app_nil_r; reflexivity|].
  injection L as L. apply Forall_cons_iff in F. destruct F as [F1 F2].
  pose proof (row_fill (map (map Some) R1) R2 w c [] F1) as H. rewrite map_length in H. cbn [length map app] in H. rewrite H. clear H.
  destruct (vals (length R1) 0 w) as [x| |]; cbn [bindR]; [|reflexivity..].
  specialize (IH (R1 ++ [x]) R2 L F2). rewrite app_length, Nat.add_1_r, map_app, <- app_assoc in IH. cbn [length map app] in IH. rewrite IH.
  destruct (rows (S (length R1)) k w); cbn [bindR]; [|reflexivity..]. rewrite <- app_assoc. reflexivity.
Qed.
End Rows.
Lemma mapo_app {X Y} (f : X -> option Y) a : forall b, mapo f (a ++ b) = let* x := mapo f a in let* y := mapo f b in Some (x ++ y).
Proof.
  induction a as [|p a IH]; intros b; cbn [app mapo]; [destruct (mapo f b); reflexivity|]. destruct (f p); [|reflexivity]. cbn [bind]. rewrite IH.
  destruct (mapo f a); [|reflexivity]. cbn [bind]. destruct (mapo f b); reflexivity.
Qed.
Lemma mapo_len {X Y} (f : X -> option Y) a : forall b, mapo f a = Some b -> length b = length a.
Proof.
  induction a as [|p a IH]; intros b H; cbn [mapo] in H; [injection H as <-; reflexivity|]. unfold bind in H. destruct (f p); [|discriminate H].
  destruct (mapo f a) as [r|] eqn:E; [|discriminate H]. assert (H' := f_equal (fun o => match o with Some x => length x | None => 0%nat end) H). cbv beta iota in H'. rewrite <- H'. cbn [length]. rewrite (IH r eq_refl). reflexivity.
Qed.
Definition store_val (prec : cells affine) (j i : nat) : res astorage := let% q := get prec (j * 16 + i) in ofo (af_to_storage dbg q).
Lemma store_vals prec j : forall t l s i, prec = map Some (l ++ t ++ s) -> length l = (j * 16 + i)%nat -> vals (store_val prec) j i (length t) = ofo (mapo (af_to_storage dbg) t).
Proof.
  induction t as [|q t IH]; intros l s i E L; cbn [length vals mapo]; [reflexivity|]. unfold store_val at 1. rewrite E at 1. rewrite map_app. cbn [app map]. rewrite get_mid by (rewrite some_len; auto).
  cbn [bindR]. unfold bind. destruct (af_to_storage dbg q) as [x|]; [|reflexivity]. cbn [ofo bindR]. rewrite (IH (l ++ [q]) s (S i)).
  - destruct (mapo (af_to_storage dbg) t); reflexivity.
  - rewrite <- app_assoc. exact E.
  - rewrite app_length. cbn [length]. lia.
Qed.
Lemma store_rows prec : forall k j l t, prec = map Some (l ++ t) -> length l = (j * 16)%nat -> length t = (k * 16)%nat ->
  rows (store_val prec) j k 16 = ofo (let* st := mapo (af_to_storage dbg) t in Some (rows16 k st)).
Proof.
  induction k as [|k IH]; intros j l t E L LT.
  - destruct t; [|discriminate LT]. reflexivity.
  - cbn [rows rows16]. rewrite <- (firstn_skipn 16 t) in E |- *. assert (L1 : length (firstn 16 t) = 16%nat) by (rewrite firstn_length; lia). assert (L2 : length (skipn 16 t) = (k * 16)%nat) by (rewrite skipn_length; lia).
    revert E L1 L2. generalize (firstn 16 t) (skipn 16 t). clear t LT. intros a b E L1 L2.
    pose proof (store_vals prec j a l b 0%nat) as H. rewrite L1 in H. rewrite H by (auto; lia). clear H. rewrite mapo_app. unfold bind.
    destruct (mapo (af_to_storage dbg) a) as [x|] eqn:EX; [|reflexivity]. cbn [ofo bindR]. apply mapo_len in EX.
    rewrite (IH (S j) (l ++ a) b) by (rewrite ?app_length, <- ?app_assoc; auto; lia). unfold bind. destruct (mapo (af_to_storage dbg) b) as [y|]; [|reflexivity]. cbn [ofo bindR].
    rewrite <- L1, <- EX, firstn_app, firstn_all, Nat.sub_diag, skipn_app, skipn_all, Nat.sub_diag. cbn [firstn skipn app]. rewrite app_nil_r. reflexivity.
Qed.
Lemma default_rows : forall k j w, exists r : list (list astorage), rows (fun _ _ => Val as_default) j k w = Val r /\ length r = k /\ Forall (fun c => length c = w) (map (map Some) r).
Proof.
  assert (V : forall j w i, vals (fun _ _ => Val as_default) j i w = Val (repeat as_default w)).
  { intros j. induction w as [|w IH]; intros i; cbn [vals bindR repeat]; [reflexivity|]. rewrite IH. reflexivity. }
  induction k as [|k IH]; intros j w; cbn [rows]; [exists []; repeat split; constructor|]. rewrite V. cbn [bindR]. destruct (IH (S j) w) as (r & -> & L & F). cbn [bindR].
  exists (repeat as_default w :: r). cbn [length map]. rewrite L. repeat split. constructor; [|exact F]. rewrite map_length. apply repeat_length.
Qed.
Lemma freeze_rows_some {A} (l : list (list A)) : freeze_rows (map (map Some) l) = Val l.
Proof. induction l as [|c l IH]; cbn [map freeze_rows]; [reflexivity|]. rewrite freeze_some. cbn [bindR]. rewrite IH. reflexivity. Qed.
Lemma gen_rows_len nums_gej : forall k j g b r, gen_rows dbg k j g b nums_gej = Some r -> length (concat r) = (k * 16)%nat.
Proof.
  induction k as [|k IH]; intros j g b r H.
  - injection H as <-. reflexivity.
  - change (gen_rows dbg (S k) j g b nums_gej) with (let* row := gen_row dbg 15 b g in
      let* gbase := j_double dbg g in
      let* gbase := j_double dbg gbase in
      let* gbase := j_double dbg gbase in
      let* gbase := j_double dbg gbase in
      let* nb := j_double dbg b in
      let* nb := (if j =? 62 then let* m := j_neg dbg nb in j_add dbg m nums_gej else Some nb) in
      let* rest := gen_rows dbg k (j + 1) gbase nb nums_gej in Some ((b :: row) :: rest)) in H.
    unfold bind in H. destruct (gen_row dbg 15 b g) as [row|] eqn:ER; [|discriminate H]. apply gen_row_len in ER.
    destruct (j_double dbg g) as [g1|]; [|discriminate H]. destruct (j_double dbg g1) as [g2|]; [|discriminate H]. destruct (j_double dbg g2) as [g3|]; [|discriminate H]. destruct (j_double dbg g3) as [g4|]; [|discriminate H].
    destruct (j_double dbg b) as [nb|]; [|discriminate H]. destruct (if j =? 62 then _ else _) as [nb'|]; [|discriminate H]. destruct (gen_rows dbg k (j + 1) g4 nb' nums_gej) as [rest|] eqn:E; [|discriminate H].
    apply IH in E. assert (H' := f_equal (fun o => match o with Some x => length (concat x) | None => 0%nat end) H). cbv beta iota in H'. rewrite <- H'. cbn [concat length app]. rewrite app_length, E, ER. lia.
Qed.
Lemma set_all_loop_len : forall a azi r, set_all_loop dbg a azi = Some r -> length r = length a.
Proof.
  induction a as [|p a IH]; intros azi r H; cbn [set_all_loop] in H; [injection H as <-; reflexivity|]. unfold bind in H.
  assert (G : forall z q, match set_all_loop dbg a z with Some x => Some (q :: x) | None => None end = Some r -> length r = length (p :: a)).
  { intros z q G. destruct (set_all_loop dbg a z) as [x|] eqn:E; [|discriminate G]. apply IH in E. assert (H' := f_equal (fun o => match o with Some x => length x | None => 0%nat end) G). cbv beta iota in H'. rewrite <- H'. cbn [length]. lia. }
  destruct (j_inf p); [exact (G _ _ H)|]. destruct azi as [|z azi]; [discriminate H|]. destruct (af_set_gej_zinv dbg p z); [exact (G _ _ H) | discriminate H].
Qed.
Lemma set_all_len a r : set_all_gej_var dbg a = Some r -> length r = length a.
Proof. unfold set_all_gej_var. cbv zeta. unfold bind. destruct (inv_all_var dbg _) as [azi|]; [|discriminate]. apply set_all_loop_len. Qed.
Lemma h_gen_context_ok : h_ecmult_gen_context_new dbg false = ofo (ecmult_gen_context_new dbg).
Proof.
  unfold h_ecmult_gen_context_new, ecmult_gen_context_new. cbv zeta. cbn [gb_prec gb_blind gb_initial].
  assert (F0 : Forall (fun c : cells astorage => length c = 16%nat) (repeat (repeat None 16) 64)) by (apply Forall_forall; intros c I; apply repeat_spec in I; subst c; apply repeat_length).
  pose proof (rows_fill (fun _ _ => Val as_default) 16 64 [] (repeat (repeat None 16) 64) (repeat_length _ _) F0) as H.
  destruct (default_rows 64 (length (@nil (list astorage))) 16) as (r & ER & LR & FR). rewrite ER in H. cbn [bindR length map app] in H.
  rwR H. clear H. cbn [bindR]. unfold bind. destruct (j_set_ge dbg AFFINE_G) as [gj|]; [|reflexivity]. cbn [ofo bindR].
  destruct (f_set_b32 dbg f_default NUMS_32) as [[nx ok]|]; [|reflexivity]. cbn [ofo bindR]. destruct (hassert ok); [|reflexivity]. cbn [ofo bindR].
  destruct (af_set_xo_var dbg nx false) as [[ng ok']|]; [|reflexivity]. cbn [ofo bindR]. destruct (hassert ok'); [|reflexivity]. cbn [ofo bindR].
  destruct (j_set_ge dbg ng) as [n0|]; [|reflexivity]. cbn [ofo bindR]. destruct (j_add_ge_v dbg n0 AFFINE_G) as [n1|]; [|reflexivity]. cbn [ofo bindR].
  rewrite i_gen_prec_ok. destruct (gen_rows dbg 64 0 gj n1 n1) as [rs|] eqn:EG; [|reflexivity]. cbn [bindR]. apply gen_rows_len in EG.
  rewrite i_set_all_ok. destruct (set_all_gej_var dbg (concat rs)) as [prec|] eqn:EP; [|reflexivity]. cbn [bindR]. apply set_all_len in EP. rewrite EG in EP.
  pose proof (rows_fill (store_val (map Some prec)) 16 64 [] (map (map Some) r)) as H. rewrite map_length in H. specialize (H LR FR). cbn [length map app] in H.
  rewrite (store_rows (map Some prec) 64 0 [] prec eq_refl eq_refl EP) in H. unfold bind in H.
  etransitivity; [apply f_equal2; [|reflexivity]|].
  { etransitivity; [|exact H]. apply for_up_ext. intros j s. apply for_up_ext. intros i s'. unfold store_val. destruct (get (map Some prec) (j * 16 + i)) as [q| |]; cbn [bindR]; reflexivity. }
  destruct (mapo (af_to_storage dbg) prec) as [st|]; [|reflexivity]. cbn [ofo bindR]. unfold freeze_gen. cbn [gb_prec gb_blind gb_initial]. rewrite freeze_rows_some. reflexivity.
Qed.
End B.
