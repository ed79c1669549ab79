(** Messages and signatures that verify although nobody who knows the secret key signed them, and how accepted signatures change with the key. *)
From Coq Require Import Znumtheory Zdiv.
From Verif Require Import Word MField MScalar MGroup MEcmult MEcdsa MDer MApi WP FieldMul FieldNorm FieldZero Spec Fp Bits FieldOps FieldCodec FieldStore ScalarMul ScalarOps ScalarMore ScalarBits Denote Unred Curve Group Chain Order Jac JacOps Table Ecmult Lift Gen Key Ctx ApiScalar ApiDer ApiPub ApiGroup Ecdsa ApiEcdsa ApiKeys ApiArith ApiMore ApiUnred ApiNonce ApiBij ApiUniform.

Lemma verdict dbg ctx k d z r s : verify_ctx ctx -> 1 <= d < n -> key_at k (smul d G) -> 0 <= z < n -> 0 <= r < n -> 0 <= s < n ->
  exists b, verify dbg ctx (scalar_of z) (Sig (scalar_of r) (scalar_of s)) k = Some b /\
    (b = true <-> 1 <= r < n /\ 1 <= s < n /\ exists j, 1 <= j < n /\ xmod (emul j eG) r /\ eqn (j * s) (z + r * d)).
Proof.
  intros HC D K Z R S. destruct (C22_verify_pf dbg ctx k _ z r s HC K (smulG_nz d D) R S Z) as (b & E & H). exists b. split; [exact E|]. rewrite H, smulG by lia. apply valid_log.
Qed.
Lemma bool_same (a b : bool) : (a = true <-> b = true) -> Some a = Some b.
Proof. destruct a, b; intros [A B]; try reflexivity; [discriminate (A eq_refl) | discriminate (B eq_refl)]. Qed.

(** * Signatures made from the public key alone *)
(** Any u and v give a message and a signature that verifies, by operations on the public key only. *)
Lemma C92_forgery_pf : forall dbg ctx k Q u v x y, verify_ctx ctx -> key_at k Q -> Q <> Inf -> 0 <= u < n -> 1 <= v < n ->
  padd (smul u G) (smul v Q) = Aff x y -> x mod n <> 0 ->
  let r := x mod n in let s := (r * inv_mod n v) mod n in let z := (u * s) mod n in
  verify dbg ctx (scalar_of z) (Sig (scalar_of r) (scalar_of s)) k = Some true.
Proof.
  intros dbg ctx k Q u v x y HC K N U V E NZ r s z. pose proof n_pos as NP. destruct (key_pos k Q K N) as (d & D & EQ). subst Q.
  assert (R : 1 <= r < n) by (pose proof (modn_range x); unfold r; lia). assert (S : 1 <= s < n) by (apply mul_mod_n_nz; [exact R | exact (inv_n_range v V)]).
  assert (Z0 : 0 <= z < n) by apply modn_range. destruct (verdict dbg ctx k d z r s HC D K Z0 ltac:(lia) ltac:(lia)) as (b & -> & H). f_equal. apply H. split; [exact R|]. split; [exact S|].
  rewrite smulG_mul, smulG_add, <- smulG_mod in E by nia. set (j := (u + v * d) mod n) in *. assert (J : 1 <= j < n). { pose proof (modn_range (u + v * d)) as MR. fold j in MR. assert (j <> 0); [|lia]. intros J0. rewrite J0 in E. discriminate E. }
  exists j. split; [exact J|]. split; [apply (xmod_smul j r J); exists x, y; auto|].
  pose proof (eqn_inv v V) as I. assert (SV : eqn (v * s) r). { unfold s. rewrite eqn_mod. replace (v * (r * inv_mod n v)) with (r * (inv_mod n v * v)) by ring. rewrite I, Z.mul_1_r. reflexivity. }
  unfold j, z. rewrite !eqn_mod. replace ((u + v * d) * s) with (u * s + v * s * d) by ring. rewrite SV. reflexivity.
Qed.
Lemma C92_forgery_example_pf : exists ctx, verify_ctx ctx /\ key_at AFFINE_G G /\ G <> Inf /\ padd (smul 0 G) (smul 1 G) = Aff gx gy /\ gx mod n <> 0 /\ (exists x y, padd (smul 1 G) (smul 1 G) = Aff x y /\ x mod n <> 0).
Proof.
  destruct C34_public_tweak_add_example_pf as ((c & HC) & K & N & _). exists c. split; [exact HC|]. split; [exact K|]. split; [exact N|]. split; [rewrite smul_1 by exact G_on; reflexivity|]. split; [vm_compute; discriminate|].
  eexists; eexists. split; [vm_compute; reflexivity|]. vm_compute. discriminate.
Qed.
(** Every accepted message and signature is of this form, for exactly one u and v. *)
Lemma C92_all_forgeries_pf : forall dbg ctx k Q z r s, verify_ctx ctx -> key_at k Q -> Q <> Inf -> 0 <= z < n -> 0 <= r < n -> 0 <= s < n ->
  verify dbg ctx (scalar_of z) (Sig (scalar_of r) (scalar_of s)) k = Some true ->
  exists u v, 0 <= u < n /\ 1 <= v < n /\ (exists x y, padd (smul u G) (smul v Q) = Aff x y /\ r = x mod n) /\ r <> 0 /\ s = (r * inv_mod n v) mod n /\ z = (u * s) mod n /\
    forall u' v', 0 <= u' < n -> 1 <= v' < n -> s = (r * inv_mod n v') mod n -> z = (u' * s) mod n -> u' = u /\ v' = v.
Proof.
  intros dbg ctx k Q z r s HC K N Z R S H. pose proof n_pos as NP. destruct (key_pos k Q K N) as (d & D & EQ). subst Q.
  destruct (verdict dbg ctx k d z r s HC D K Z R S) as (b & E & HB). rewrite H in E. apply some_inv in E. destruct (proj1 HB (eq_sym E)) as (R1 & S1 & j & J & X & C). clear HB E b.
  pose proof (eqn_inv s S1) as I. set (w := inv_mod n s) in *. set (u := (z * w) mod n). set (v := (r * w) mod n).
  assert (U : 0 <= u < n) by apply modn_range. assert (V : 1 <= v < n) by (apply mul_mod_n_nz; [exact R1 | exact (inv_n_range s S1)]).
  assert (VS : eqn (v * s) r). { unfold v. rewrite eqn_mod. replace (r * w * s) with (r * (w * s)) by ring. rewrite I, Z.mul_1_r. reflexivity. }
  assert (US : eqn (u * s) z). { unfold u. rewrite eqn_mod. replace (z * w * s) with (z * (w * s)) by ring. rewrite I, Z.mul_1_r. reflexivity. }
  assert (SV : forall v', 1 <= v' < n -> (s = (r * inv_mod n v') mod n <-> eqn (v' * s) r)).
  { intros v' V'. rewrite (eqn_div v' s r V' S), (Z.mul_comm r). reflexivity. }
  assert (ZU : forall u', z = (u' * s) mod n <-> eqn (u' * s) z). { intros u'. split; [intros ->; rewrite eqn_mod; reflexivity | intros Q; apply eqn_smallr; [exact Z | symmetry; exact Q]]. }
  exists u, v. split; [exact U|]. split; [exact V|]. split; [|split; [lia|split; [apply SV; assumption | split; [apply ZU, US|]]]].
  - assert (EJ : eqn (u + v * d) j). { apply (eqn_cancel s _ _ S1). rewrite (Z.mul_comm s j), C. replace (s * (u + v * d)) with (u * s + v * s * d) by ring. rewrite US, VS. reflexivity. }
    unfold eqn, eqm in EJ. rewrite (Z.mod_small j) in EJ by lia. rewrite smulG_mul, smulG_add, <- smulG_mod, EJ by nia. apply (xmod_smul j r J), X.
  - intros u' v' U' V' E1 E2. apply SV in E1; [|exact V']. apply ZU in E2. split; apply eqn_small; try lia; apply (eqn_cancel s _ _ S1); rewrite !(Z.mul_comm s).
    + rewrite E2, US. reflexivity.
    + rewrite E1, VS. reflexivity.
Qed.
Lemma C92_all_forgeries_example_pf : exists ctx, verify_ctx ctx /\ key_at AFFINE_G G /\ verify true ctx (scalar_of 0) (Sig (scalar_of gx) (scalar_of gx)) AFFINE_G = Some true.
Proof.
  destruct C34_public_tweak_add_example_pf as ((c & HC) & K & N & _). exists c. split; [exact HC|]. split; [exact K|]. destruct C22_verify_example_pf as (_ & _ & _ & V & _).
  destruct (C22_verify_pf true c AFFINE_G G 0 gx gx HC K N ltac:(vmr) ltac:(vmr) ltac:(vmr)) as (b & -> & H). f_equal. apply H, V.
Qed.
(** "Whoever made an accepted signature knew the secret key" is false: the x coordinate of the key, twice, is a signature of the message 0. *)
Lemma C92_signer_needed_refuted_pf : exists forge : Z -> Z -> Z * Z * Z, forall dbg ctx k x y, verify_ctx ctx -> key_at k (Aff x y) -> x mod n <> 0 ->
  let '(z, r, s) := forge x y in 0 <= z < n /\ 1 <= r < n /\ 1 <= s < n /\ verify dbg ctx (scalar_of z) (Sig (scalar_of r) (scalar_of s)) k = Some true.
Proof.
  exists (fun x _ => (0, x mod n, x mod n)). intros dbg ctx k x y HC K NZ. pose proof n_pos as NP. pose proof (modn_range x) as MR. split; [lia|]. split; [lia|]. split; [lia|].
  pose proof (C92_forgery_pf dbg ctx k (Aff x y) 0 1 x y HC K ltac:(discriminate) ltac:(lia) ltac:(vmr)) as F. cbv zeta in F.
  assert (I1 : inv_mod n 1 = 1) by (vm_compute; reflexivity). rewrite I1, Z.mul_1_r, Z.mod_mod, Z.mul_0_l, Z.mod_0_l in F by lia. apply F; [|exact NZ]. rewrite smul_1 by exact (key_on _ _ K). reflexivity.
Qed.
(** The same with calls of the API: 32 zero bytes as message, and the 32 bytes after the tag of the compressed key twice as signature. *)
Lemma C92_zero_message_pf : forall dbg ctx k x y, verify_ctx ctx -> key_at k (Aff x y) -> x mod n <> 0 ->
  exists c m g, pk_serialize_compressed dbg k = Some c /\ msg_parse dbg (repeat 0 32) = Some m /\ sig_parse_overflowing dbg (tl c ++ tl c) = Some g /\ verify dbg ctx m g k = Some true.
Proof.
  intros dbg ctx k x y HC K NZ. pose proof n_pos as NP. destruct (on_range _ _ (key_on _ _ K)) as [RX RY]. pose proof p_lt256 as PL. destruct (C06_serialize_pf dbg k x y K) as [_ E].
  exists (sec1_compressed x y), (scalar_of 0), (Sig (scalar_of (x mod n)) (scalar_of (x mod n))). split; [exact E|]. split; [destruct dbg; vmr|]. cbn [tl sec1_compressed].
  split.
  - destruct (be32_bytes x) as [L B]. rewrite (C09_sig_parse_overflowing_pf dbg _ _ L L B B), be32_val by lia. reflexivity.
  - pose proof (C92_forgery_pf dbg ctx k (Aff x y) 0 1 x y HC K ltac:(discriminate) ltac:(lia) ltac:(vmr)) as F. cbv zeta in F.
    assert (I1 : inv_mod n 1 = 1) by (vm_compute; reflexivity). rewrite I1, Z.mul_1_r, Z.mod_mod, Z.mul_0_l, Z.mod_0_l in F by lia. apply F; [|exact NZ]. rewrite smul_1 by exact (key_on _ _ K). reflexivity.
Qed.
Lemma C92_zero_message_example_pf : (exists ctx, verify_ctx ctx) /\ key_at AFFINE_G (Aff gx gy) /\ gx mod n <> 0.
Proof. split; [exact (proj1 C34_public_tweak_add_example_pf)|]. split; [exact G_key|]. vm_compute. discriminate. Qed.

(** * Related keys *)
(** A signature is accepted under the key with t added exactly when it is accepted, for the message moved by r*t, under the key itself. *)
Lemma C92_added_tweak_pf : forall dbg dbg' ctx k Q t k1, verify_ctx ctx -> key_at k Q -> Q <> Inf -> 1 <= t < n -> pk_tweak_add_assign dbg' ctx k (scalar_of t) = Some (k1, Ok tt) ->
  forall z r s, 0 <= z < n -> 0 <= r < n -> 0 <= s < n ->
  verify dbg ctx (scalar_of z) (Sig (scalar_of r) (scalar_of s)) k1 = verify dbg ctx (scalar_of ((z + r * t) mod n)) (Sig (scalar_of r) (scalar_of s)) k.
Proof.
  intros dbg dbg' ctx k Q t k1 HC K N T H z r s Z R S. pose proof n_pos as NP. destruct (key_pos k Q K N) as (d & D & EQ). subst Q. destruct (C34_public_tweak_add_pf dbg' ctx k _ t HC K N ltac:(lia)) as [HI HN].
  assert (NI : padd (smul d G) (smul t G) <> Inf). { intros I. rewrite (HI I) in H. apply some_inv in H. discriminate H. }
  destruct (HN NI) as (k2 & H2 & K2). rewrite H in H2. assert (k1 = k2) as -> by congruence. rewrite smulG_add, <- smulG_mod in K2, NI by lia. apply key_mono in K2.
  assert (D1 : 1 <= (d + t) mod n < n). { pose proof (modn_range (d + t)). assert ((d + t) mod n <> 0); [|lia]. intros E. rewrite E in NI. apply NI. reflexivity. }
  destruct (verdict dbg ctx k2 _ z r s HC D1 K2 Z R S) as (b & -> & HB). destruct (verdict dbg ctx k d _ r s HC D K (modn_range (z + r * t)) R S) as (b' & -> & HB'). apply bool_same. rewrite HB, HB'.
  assert (Q : forall j, eqn (j * s) (z + r * ((d + t) mod n)) <-> eqn (j * s) ((z + r * t) mod n + r * d)) by (intros j; rewrite !eqn_mod; replace (z + r * (d + t)) with (z + r * t + r * d) by ring; reflexivity).
  split; intros (A & B & j & J & X & C); (split; [exact A|]; split; [exact B|]; exists j; split; [exact J|]; split; [exact X|]; apply Q, C).
Qed.
Lemma C92_added_tweak_example_pf : exists ctx k1, verify_ctx ctx /\ key_at AFFINE_G G /\ 1 <= 1 < n /\ pk_tweak_add_assign true ctx AFFINE_G (scalar_of 1) = Some (k1, Ok tt).
Proof.
  destruct C34_public_tweak_add_example_pf as ((c & HC) & K & N & _ & NI). destruct (proj2 (C34_public_tweak_add_pf true c AFFINE_G G 1 HC K N ltac:(vmr)) NI) as (k1 & H & _). exists c, k1. split; [exact HC|]. split; [exact K|]. split; [vmr | exact H].
Qed.
(** Multiplying the key, the message and s by the same number keeps the verdict. *)
Lemma C92_multiplied_tweak_pf : forall dbg dbg' ctx k Q t k1, verify_ctx ctx -> key_at k Q -> Q <> Inf -> 1 <= t < n -> pk_tweak_mul_assign dbg' ctx k (scalar_of t) = Some (k1, Ok tt) ->
  forall z r s, 0 <= z < n -> 0 <= r < n -> 0 <= s < n ->
  verify dbg ctx (scalar_of ((z * t) mod n)) (Sig (scalar_of r) (scalar_of ((s * t) mod n))) k1 = verify dbg ctx (scalar_of z) (Sig (scalar_of r) (scalar_of s)) k.
Proof.
  intros dbg dbg' ctx k Q t k1 HC K N T H z r s Z R S. pose proof n_pos as NP. destruct (key_pos k Q K N) as (d & D & EQ). subst Q.
  destruct (proj2 (C35_public_tweak_mul_pf dbg' ctx k _ t HC K N ltac:(lia)) ltac:(lia)) as (k2 & H2 & K2 & NI). rewrite H in H2. assert (k1 = k2) as -> by congruence. rewrite smulG_mul, <- smulG_mod in K2 by nia. apply key_mono in K2.
  pose proof (mul_mod_n_nz t d T D) as D1.
  destruct (verdict dbg ctx k2 _ _ r _ HC D1 K2 (modn_range (z * t)) R (modn_range (s * t))) as (b & -> & HB). destruct (verdict dbg ctx k d z r s HC D K Z R S) as (b' & -> & HB'). apply bool_same. rewrite HB, HB'.
  assert (SS : 1 <= (s * t) mod n < n <-> 1 <= s < n). { split; [|intros S1; apply mul_mod_n_nz; assumption]. intros X. assert (s <> 0); [|lia]. intros ->. rewrite Z.mul_0_l, Z.mod_0_l in X by lia. lia. }
  assert (Q : forall j, eqn (j * ((s * t) mod n)) ((z * t) mod n + r * ((t * d) mod n)) <-> eqn (j * s) (z + r * d)).
  { intros j. rewrite !eqn_mod. replace (j * (s * t)) with (t * (j * s)) by ring. replace (z * t + r * (t * d)) with (t * (z + r * d)) by ring. split; [apply eqn_cancel, T | intros ->; reflexivity]. }
  rewrite SS. split; intros (A & B & j & J & X & C); (split; [exact A|]; split; [exact B|]; exists j; split; [exact J|]; split; [exact X|]; apply Q, C).
Qed.
Lemma C92_multiplied_tweak_example_pf : exists ctx k1, verify_ctx ctx /\ key_at AFFINE_G G /\ 1 <= 2 < n /\ pk_tweak_mul_assign true ctx AFFINE_G (scalar_of 2) = Some (k1, Ok tt) /\
  verify true ctx (scalar_of 0) (Sig (scalar_of gx) (scalar_of ((gx * 2) mod n))) k1 = Some true.
Proof.
  destruct C92_all_forgeries_example_pf as (c & HC & K & V). assert (N : G <> Inf) by discriminate. assert (T : 1 <= 2 < n) by vmr.
  destruct (proj2 (C35_public_tweak_mul_pf true c AFFINE_G G 2 HC K N ltac:(lia)) ltac:(lia)) as (k1 & H & _). exists c, k1. split; [exact HC|]. split; [exact K|]. split; [exact T|]. split; [exact H|].
  pose proof (C92_multiplied_tweak_pf true true c AFFINE_G G 2 k1 HC K N T H 0 gx gx ltac:(vmr) ltac:(vmr) ltac:(vmr)) as E. rewrite V in E. exact E.
Qed.
