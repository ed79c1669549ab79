(** The functions that count their work (MCost.v) compute what the functions of the model compute, and how much they count. *)
From Verif Require Import Word MField MScalar MGroup MEcmult MEcdsa MApi MCost.

(** The result, without the cost. *)
Definition cres {A} (o : option (A * cost)) : option A := option_map fst o.
Definition cores {A} (o : outcome (A * cost)) : outcome A := match o with Done (a, _) => Done a | Panic => Panic | Running => Running end.

Lemma cres_bind {A B} (m : option (A * cost)) (f : A -> option (B * cost)) : cres (bindc m f) = bind (cres m) (fun a => cres (f a)).
Proof. destruct m as [[a c]|]; [|reflexivity]. cbn [bindc bind cres option_map fst]. destruct (f a) as [[b c']|]; reflexivity. Qed.
Lemma cres_call {A} c (o : option A) : cres (call c o) = o. Proof. destruct o; reflexivity. Qed.
Lemma cres_ret {A} (a : A) : cres (ret a) = Some a. Proof. reflexivity. Qed.
Lemma bind_ext {A B} (m : option A) (f g : A -> option B) : (forall a, f a = g a) -> bind m f = bind m g.
Proof. intros H. destruct m; [apply H | reflexivity]. Qed.
Lemma bind_some {A B} (a : A) (f : A -> option B) : bind (Some a) f = f a. Proof. reflexivity. Qed.

Ltac er := repeat first
  [ rewrite cres_bind | rewrite cres_ret
  | progress unfold free, adbl, anadd, aninv, asqrt, asinv, af_set_gej_c | rewrite cres_call | rewrite bind_some
  | match goal with
    | |- bind ?m _ = bind ?m _ => apply bind_ext; let x := fresh "x" in intros x; try (is_var x; destruct x as [? ?])
    | |- cres (let (_, _) := ?q in _) = _ => destruct q
    | |- cres (if ?b then _ else _) = (if ?b then _ else _) => destruct b
    end
  | reflexivity ].

Section E.
Variable dbg : bool.
Lemma odd_loop_erase k : forall prev d, cres (odd_mult_loop_c dbg k prev d) = odd_mult_loop dbg k prev d.
Proof.
  induction k as [|k IH]; intros prev d; cbn [odd_mult_loop_c odd_mult_loop]; [reflexivity|]. rewrite cres_bind. unfold anadd. rewrite cres_call. apply bind_ext. intros [nx z]. rewrite bind_some, cres_bind, IH.
  apply bind_ext. intros [pj zr]. reflexivity.
Qed.
Lemma table_erase m a : cres (odd_multiples_table_c dbg m a) = odd_multiples_table dbg m a.
Proof.
  unfold odd_multiples_table_c, odd_multiples_table. er. destruct m as [|k]; [reflexivity|]. rewrite bind_some, cres_bind, odd_loop_erase. er.
Qed.
Lemma windowa_erase a : cres (odd_multiples_table_globalz_windowa_c dbg a) = odd_multiples_table_globalz_windowa dbg a.
Proof. unfold odd_multiples_table_globalz_windowa_c, odd_multiples_table_globalz_windowa. rewrite cres_bind, table_erase. er. Qed.
Lemma ecmult_loop_erase k : forall pg pa z wa wg ba bg r, cres (ecmult_loop_c dbg k pg pa z wa wg ba bg r) = ecmult_loop dbg k pg pa z wa wg ba bg r.
Proof.
  induction k as [|k IH]; intros; cbn [ecmult_loop_c ecmult_loop]; [reflexivity|]. rewrite bind_some. cbv zeta. rewrite cres_bind. unfold adbl. rewrite cres_call. apply bind_ext. intros r1.
  rewrite cres_bind. unfold free at 1. rewrite cres_call. apply bind_ext. intros d1. rewrite cres_bind.
  assert (E1 : cres (if (Z.of_nat k <? ba) && negb (d1 =? 0) then let+ t := free (table_get_ge dbg pa d1 WINDOW_A) in anadd (j_add_ge_v dbg r1 t) else ret r1) =
    if (Z.of_nat k <? ba) && negb (d1 =? 0) then let* t := table_get_ge dbg pa d1 WINDOW_A in j_add_ge_v dbg r1 t else Some r1) by (destruct ((Z.of_nat k <? ba) && negb (d1 =? 0)); er).
  rewrite E1. apply bind_ext. intros r2. rewrite cres_bind. unfold free at 1. rewrite cres_call. apply bind_ext. intros d2. rewrite cres_bind.
  assert (E2 : cres (if (Z.of_nat k <? bg) && negb (d2 =? 0) then let+ t := free (table_get_ge_storage dbg pg d2 WINDOW_G) in anadd (j_add_zinv_var dbg r2 t z) else ret r2) =
    if (Z.of_nat k <? bg) && negb (d2 =? 0) then let* t := table_get_ge_storage dbg pg d2 WINDOW_G in j_add_zinv_var dbg r2 t z else Some r2) by (destruct ((Z.of_nat k <? bg) && negb (d2 =? 0)); er).
  rewrite E2. apply bind_ext. intros r3. apply IH.
Qed.
Lemma ecmult_erase ctx a na ng : cres (ecmult_c dbg ctx a na ng) = ecmult dbg ctx a na ng.
Proof.
  destruct ctx as [pg]. unfold ecmult_c, ecmult. rewrite cres_bind. unfold free at 1. rewrite cres_call. apply bind_ext. intros [wa ba]. rewrite cres_bind, windowa_erase. apply bind_ext. intros [pa z].
  rewrite cres_bind. unfold free at 1. rewrite cres_call. apply bind_ext. intros [wg bg]. rewrite bind_some. cbv zeta. rewrite cres_bind, ecmult_loop_erase. apply bind_ext. intros r. destruct (j_inf r); er.
Qed.
Lemma double_n_erase k : forall r, cres (double_nonzero_n_c dbg k r) = double_nonzero_n dbg k r.
Proof. induction k as [|k IH]; intros r; cbn [double_nonzero_n_c double_nonzero_n]; [reflexivity|]. rewrite cres_bind. unfold adbl. rewrite cres_call. apply bind_ext. intros r1. apply IH. Qed.
Lemma const_loop_erase k : forall pa w t r, cres (ecmult_const_loop_c dbg k pa w t r) = ecmult_const_loop dbg k pa w t r.
Proof.
  induction k as [|k IH]; intros pa w t r; [reflexivity|]. change (ecmult_const_loop_c dbg (S k) pa w t r) with
    (let+ r := double_nonzero_n_c dbg 4 r in let+ n := free (idx w (Z.of_nat k)) in let+ tmpa := free (table_get_ge_const dbg t pa n WINDOW_A) in
     let+ _ := free (dassert dbg (negb (n =? 0))) in let+ r := anadd (j_add_ge dbg r tmpa) in ecmult_const_loop_c dbg k pa w tmpa r).
  change (ecmult_const_loop dbg (S k) pa w t r) with
    (let* r := double_nonzero_n dbg 4 r in let* n := idx w (Z.of_nat k) in let* tmpa := table_get_ge_const dbg t pa n WINDOW_A in
     dassert dbg (negb (n =? 0)) ;; let* r := j_add_ge dbg r tmpa in ecmult_const_loop dbg k pa w tmpa r).
  rewrite cres_bind, double_n_erase. apply bind_ext. intros r1. rewrite cres_bind. unfold free at 1. rewrite cres_call. apply bind_ext. intros d. rewrite cres_bind. unfold free at 1. rewrite cres_call. apply bind_ext. intros ta.
  rewrite cres_bind. unfold free at 1. rewrite cres_call. apply bind_ext. intros _. rewrite cres_bind. unfold anadd. rewrite cres_call. apply bind_ext. intros r2. apply IH.
Qed.
Ltac e1 := rewrite cres_bind; unfold free at 1; rewrite cres_call; apply bind_ext; intros ?; repeat rewrite bind_some; cbv beta iota zeta.
Lemma ecmult_const_erase a s : cres (ecmult_const_c dbg a s) = ecmult_const dbg a s.
Proof.
  unfold ecmult_const_c, ecmult_const. rewrite cres_bind. unfold free at 1. rewrite cres_call. apply bind_ext. intros [w sk]. e1. rewrite cres_bind, windowa_erase. apply bind_ext. intros [pa z]. do 5 e1.
  rewrite cres_bind, const_loop_erase. apply bind_ext. intros r. do 2 e1. rewrite cres_bind. unfold adbl. rewrite cres_call. apply bind_ext. intros tj. rewrite cres_bind. unfold af_set_gej_c, aninv. rewrite cres_call. apply bind_ext. intros co.
  do 3 e1. apply cres_call.
Qed.
Lemma gen_loop_erase_c prec : forall j g adds r, cres (ecmult_gen_loop_c dbg prec j g adds r) = ecmult_gen_loop dbg prec j g adds r.
Proof.
  induction prec as [|row prec IH]; intros; cbn [ecmult_gen_loop_c ecmult_gen_loop]; [reflexivity|]. e1. rewrite cres_bind. unfold anadd. rewrite cres_call. apply bind_ext. intros r1. apply IH.
Qed.
Lemma gen_erase_c ctx k : cres (ecmult_gen_c dbg ctx k) = ecmult_gen dbg ctx k.
Proof. destruct ctx as [prec b i]. cbn [ecmult_gen_c ecmult_gen]. e1. apply gen_loop_erase_c. Qed.
Lemma verify_erase ctx r s k m : cres (verify_raw_c dbg ctx r s k m) = verify_raw dbg ctx r s k m.
Proof.
  unfold verify_raw_c, verify_raw. destruct (s_is_zero r || s_is_zero s); [reflexivity|]. rewrite cres_bind. unfold asinv. rewrite cres_call. apply bind_ext. intros sn. do 3 e1. rewrite cres_bind, ecmult_erase. apply bind_ext. intros pr.
  destruct (j_inf pr); [reflexivity|]. rewrite bind_some. rewrite cres_bind. unfold free at 1. rewrite cres_call. apply bind_ext. intros [xr ok]. e1. match goal with |- context [if ?e then _ else _] => destruct e end; [reflexivity|]. e1.
  match goal with |- context [if ?e then _ else _] => destruct e end; [reflexivity|]. do 2 e1. match goal with |- context [if ?e then _ else _] => destruct e end; reflexivity.
Qed.
Lemma set_gej_var_erase a j : cres (af_set_gej_var_c dbg a j) = af_set_gej_var dbg a j.
Proof. unfold af_set_gej_var_c. destruct (j_inf j); apply cres_call. Qed.
Lemma recover_erase ctx r s id m : cres (recover_raw_c dbg ctx r s id m) = recover_raw dbg ctx r s id m.
Proof.
  unfold recover_raw_c, recover_raw. e1. destruct (s_is_zero r || s_is_zero s); [reflexivity|]. rewrite cres_bind. unfold free at 1. rewrite cres_call. apply bind_ext. intros [fx ov]. e1. e1.
  match goal with |- context [match ?o with Some _ => _ | None => _ end] => destruct o as [f|] end; [|reflexivity]. rewrite cres_bind. unfold asqrt. rewrite cres_call. apply bind_ext. intros [x ok]. destruct (negb ok); [reflexivity|]. e1.
  rewrite cres_bind. unfold asinv. rewrite cres_call. apply bind_ext. intros rn. do 3 e1. rewrite cres_bind, ecmult_erase. apply bind_ext. intros qj. rewrite cres_bind, set_gej_var_erase. apply bind_ext. intros pk. destruct (af_inf pk); reflexivity.
Qed.
Lemma sign_raw_erase_c ctx d m k : cres (sign_raw_c dbg ctx d m k) = sign_raw dbg ctx d m k.
Proof.
  unfold sign_raw_c, sign_raw. rewrite cres_bind, gen_erase_c. apply bind_ext. intros rp. rewrite cres_bind. unfold af_set_gej_c, aninv. rewrite cres_call. apply bind_ext. intros r. do 3 e1. rewrite cres_bind. unfold free at 1. rewrite cres_call. apply bind_ext. intros [sr ov].
  do 5 e1. rewrite cres_bind. unfold asinv. rewrite cres_call. apply bind_ext. intros si. e1. match goal with |- context [s_is_zero ?x] => destruct (s_is_zero x); [reflexivity|]; destruct (s_is_high x); [|reflexivity] end. e1. reflexivity.
Qed.
Lemma sign_loop_erase_c gen ctx sk m : forall fuel i c, cores (sign_loop_c dbg fuel gen i ctx sk m c) = sign_loop dbg fuel gen i ctx sk m.
Proof.
  induction fuel as [|f IH]; intros i c; [reflexivity|]. cbn [sign_loop_c sign_loop]. destruct (s_set_b32 dbg (gen i)) as [[nc ov]|]; [|reflexivity]. destruct (negb ov && negb (s_is_zero nc)); [|apply IH].
  rewrite <- (sign_raw_erase_c ctx sk m nc). destruct (sign_raw_c dbg ctx sk m nc) as [[[[[r s] id]|e] c']|]; cbn [cres option_map fst]; [reflexivity | apply IH | reflexivity].
Qed.
Lemma sign_erase_c drbg fuel ctx m sk : cores (sign_c dbg drbg fuel ctx m sk) = sign dbg drbg fuel ctx m sk.
Proof. unfold sign_c, sign. apply sign_loop_erase_c. Qed.
Lemma ecdh_erase_c D P s : cres (ecdh_raw_c dbg D P s) = ecdh_raw dbg D P s.
Proof.
  unfold ecdh_raw_c, ecdh_raw. destruct (s_is_zero s); [reflexivity|]. rewrite cres_bind, ecmult_const_erase. apply bind_ext. intros r. rewrite cres_bind. unfold af_set_gej_c, aninv. rewrite cres_call. apply bind_ext. intros pt. do 4 e1. reflexivity.
Qed.
Lemma from_secret_erase ctx sk : cres (pk_from_secret_key_c dbg ctx sk) = pk_from_secret_key dbg ctx sk.
Proof. unfold pk_from_secret_key_c, pk_from_secret_key. rewrite cres_bind, gen_erase_c. apply bind_ext. intros j. apply cres_call. Qed.
Lemma tweak_add_erase ctx k t : cres (pk_tweak_add_assign_c dbg ctx k t) = pk_tweak_add_assign dbg ctx k t.
Proof. unfold pk_tweak_add_assign_c, pk_tweak_add_assign. e1. rewrite cres_bind, ecmult_erase. apply bind_ext. intros r. destruct (j_inf r); [reflexivity|]. rewrite cres_bind. unfold af_set_gej_c, aninv. rewrite cres_call. reflexivity. Qed.
Lemma tweak_mul_erase ctx k t : cres (pk_tweak_mul_assign_c dbg ctx k t) = pk_tweak_mul_assign dbg ctx k t.
Proof.
  unfold pk_tweak_mul_assign_c, pk_tweak_mul_assign. destruct (s_is_zero t); [reflexivity|]. cbv zeta. rewrite bind_some. e1. rewrite cres_bind, ecmult_erase. apply bind_ext. intros r. rewrite cres_bind. unfold af_set_gej_c, aninv. rewrite cres_call. reflexivity.
Qed.
Lemma combine_loop_erase keys : forall q, cres (combine_loop_c dbg q keys) = combine_loop dbg q keys.
Proof. induction keys as [|k keys IH]; intros q; cbn [combine_loop_c combine_loop]; [reflexivity|]. rewrite cres_bind. unfold anadd. rewrite cres_call. apply bind_ext. intros q1. apply IH. Qed.
Lemma combine_erase keys : cres (pk_combine_c dbg keys) = pk_combine dbg keys.
Proof. unfold pk_combine_c, pk_combine. rewrite cres_bind, combine_loop_erase. apply bind_ext. intros q. destruct (j_inf q); [reflexivity|]. rewrite cres_bind. unfold af_set_gej_c, aninv. rewrite cres_call. reflexivity. Qed.
End E.
