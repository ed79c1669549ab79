(** The functions that also return their locals (MResidue.v) compute what the functions of the model compute. *)
From Verif Require Import Word MField MScalar MGroup MEcmult MEcdsa MCore MApi MResidue.

(** The results, without the locals. *)
Definition res {A B} (o : option (A * B)) : option A := option_map fst o.
Definition ores {A B} (o : outcome (A * B)) : outcome A := match o with Done (a, _) => Done a | Panic => Panic | Running => Running end.

Lemma gen_loop_erase dbg keep prec : forall j gnb adds add b r,
  option_map (fun q => fst (fst (fst q))) (ecmult_gen_loop_r dbg keep prec j gnb adds add b r) = ecmult_gen_loop dbg prec j gnb adds r.
Proof.
  induction prec as [|row prec IH]; intros j gnb adds add b r; cbn [ecmult_gen_loop_r ecmult_gen_loop]; [reflexivity|].
  destruct (s_bits dbg gnb (j * 4) 4) as [bits|]; [|reflexivity]. cbv beta iota delta [bind].
  destruct (j_add_ge dbg r (af_from_storage (gen_select row 0 bits adds))) as [r1|]; [|reflexivity]. cbv beta iota delta [bind]. apply IH.
Qed.
Lemma gen_erase dbg keep ctx k : res (ecmult_gen_r dbg keep ctx k) = ecmult_gen dbg ctx k.
Proof.
  destruct ctx as [prec blind ini]. cbn [ecmult_gen_r ecmult_gen]. destruct (s_add dbg k blind) as [gnb|]; [|reflexivity]. cbv beta iota delta [bind].
  rewrite <- (gen_loop_erase dbg keep prec 0 gnb as_default (Af f_default f_default false) 0 ini).
  destruct (ecmult_gen_loop_r dbg keep prec 0 gnb as_default (Af f_default f_default false) 0 ini) as [[[[r adds] add] bits]|]; reflexivity.
Qed.
Ltac obind := match goal with |- context [bind (Some ?x) ?f] => change (bind (Some x) f) with (f x); cbv beta iota end.
Ltac bstep := repeat obind; match goal with |- res (bind ?o _) = bind ?o _ => destruct o; [|reflexivity] end; repeat obind.
Lemma sign_raw_erase dbg keep ctx d m k : res (sign_raw_r dbg keep ctx d m k) = sign_raw dbg ctx d m k.
Proof.
  unfold sign_raw_r, sign_raw. rewrite <- (gen_erase dbg keep ctx k). destruct (ecmult_gen_r dbg keep ctx k) as [[rp g]|]; [|reflexivity]. cbn [res option_map fst].
  repeat obind. do 5 bstep. match goal with q : scalar * bool |- _ => destruct q as [sigr overflow] end. repeat obind. unfold dassert.
  destruct dbg; [destruct (negb (s_is_zero sigr)); [|reflexivity]; destruct (negb overflow); [|reflexivity]|];
  (do 5 bstep; match goal with |- context [s_is_zero ?x] => destruct (s_is_zero x); [reflexivity|]; destruct (s_is_high x); [|reflexivity] end; bstep; reflexivity).
Qed.
Lemma sign_loop_erase dbg keep gen ctx sk m : forall fuel i,
  match sign_loop_r dbg keep fuel gen i ctx sk m with Done (_, _, _, (r, s, id), _) => Done (Sig r s, id) | Panic => Panic | Running => Running end = sign_loop dbg fuel gen i ctx sk m.
Proof.
  induction fuel as [|f IH]; intros i; [reflexivity|]. cbn [sign_loop_r sign_loop]. destruct (s_set_b32 dbg (gen i)) as [[nonce overflow]|]; [|reflexivity].
  destruct (negb overflow && negb (s_is_zero nonce)); [|apply IH]. rewrite <- (sign_raw_erase dbg keep ctx sk m nonce).
  destruct (sign_raw_r dbg keep ctx sk m nonce) as [[[[[r s] id]|e] l]|]; cbn [res option_map fst]; [reflexivity | apply IH | reflexivity].
Qed.
Lemma sign_erase dbg keep drbg fuel ctx m sk : ores (sign_r dbg keep drbg fuel ctx m sk) = sign dbg drbg fuel ctx m sk.
Proof.
  unfold sign_r, sign. rewrite <- (sign_loop_erase dbg keep). destruct (sign_loop_r dbg keep fuel (drbg (s_b32 sk) (s_b32 m)) 0 ctx sk m) as [[[[[nonce ov] gn] [[r s] id]] l]| |]; reflexivity.
Qed.
Lemma ecdh_erase dbg D P s : res (ecdh_raw_r dbg D P s) = ecdh_raw dbg D P s.
Proof. unfold ecdh_raw_r, ecdh_raw. cbv zeta. destruct (s_is_zero s); [reflexivity|]. do 6 bstep. reflexivity. Qed.
Lemma random_erase dbg rng : forall fuel i, ores (sk_random_r dbg fuel rng i) = sk_random dbg fuel rng i.
Proof.
  induction fuel as [|f IH]; intros i; [reflexivity|]. cbn [sk_random_r sk_random]. cbv zeta. destruct (sk_parse dbg (rng i)) as [[k|e]|]; [reflexivity | apply IH | reflexivity].
Qed.
