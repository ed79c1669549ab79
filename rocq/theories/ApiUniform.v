(** Uniform randomness in, uniform keys, nonces and secrets out: rearranging the 2^256 possible random blocks exchanges any two results. *)
From Coq Require Import Znumtheory Zdiv.
From Verif Require Import Word MField MScalar MGroup MEcmult MEcdsa MDer MApi WP FieldMul FieldNorm FieldZero Spec Fp Bits FieldOps FieldCodec FieldStore ScalarMul ScalarOps ScalarMore ScalarBits Denote Unred Curve Group Chain Order Jac JacOps Table Ecmult Lift Gen Key Ctx ApiScalar ApiDer ApiPub ApiGroup Ecdsa ApiEcdsa ApiKeys ApiArith ApiMore ApiUnred ApiNonce.

(** A 32-byte block, and a rearrangement of the 32-byte blocks that is its own inverse. *)
Definition block (b : list Z) : Prop := length b = 32%nat /\ bytes b.
Definition rearranges (f : list Z -> list Z) : Prop := forall b, block b -> block (f b) /\ f (f b) = b.

Definition on_val (g : Z -> Z) (b : list Z) : list Z := be_bytes 32 (g (be_val b)).
Lemma block_val b : block b -> 0 <= be_val b < 2 ^ 256.
Proof. intros [L B]. exact (be_val_32 b L B). Qed.
Lemma block_eq a b : block a -> block b -> be_val a = be_val b -> a = b.
Proof. intros [La Ba] [Lb Bb] E. apply be_val_inj; [congruence | exact Ba | exact Bb | exact E]. Qed.
Lemma on_val_val g b : (forall v, 0 <= v < 2 ^ 256 -> 0 <= g v < 2 ^ 256) -> block b -> be_val (on_val g b) = g (be_val b).
Proof. intros R B. unfold on_val. apply be32_val. apply R, block_val, B. Qed.
Lemma on_val_rearranges g : (forall v, 0 <= v < 2 ^ 256 -> 0 <= g v < 2 ^ 256) -> (forall v, 0 <= v < 2 ^ 256 -> g (g v) = v) -> rearranges (on_val g).
Proof.
  intros R I b B. pose proof (block_val b B) as V. split; [apply be32_bytes|]. apply block_eq; [apply be32_bytes | exact B|].
  rewrite on_val_val; [|exact R | apply be32_bytes]. rewrite on_val_val by assumption. apply I, V.
Qed.
Definition swap (a b v : Z) : Z := if v =? a then b else if v =? b then a else v.
Ltac swp := unfold swap; repeat match goal with |- context [?x =? ?y] => destruct (Z.eqb_spec x y) as [?E|?E] end; try lia; try congruence.
Lemma swap_range a b v : 1 <= a < n -> 1 <= b < n -> 0 <= v < 2 ^ 256 -> 0 <= swap a b v < 2 ^ 256.
Proof. intros A B V. pose proof n_lt as NL. swp. Qed.
Lemma swap_in a b v : 1 <= a < n -> 1 <= b < n -> (1 <= swap a b v < n <-> 1 <= v < n).
Proof. intros A B. swp. Qed.
Lemma swap_inv a b v : swap a b (swap a b v) = v.
Proof. unfold swap. destruct (Z.eqb_spec v a); [subst; destruct (Z.eqb_spec b a); [congruence|]; rewrite Z.eqb_refl; reflexivity|]. destruct (Z.eqb_spec v b); [subst; rewrite Z.eqb_refl; reflexivity|]. destruct (Z.eqb_spec v a), (Z.eqb_spec v b); congruence. Qed.
Lemma swap_a a b v : swap a b v = b <-> v = a.
Proof. swp. Qed.

(** * Random keys *)
Lemma C91_random_pf : forall d d', 1 <= d < n -> 1 <= d' < n ->
  exists f, rearranges f /\ forall dbg fuel rng i, stream rng ->
    (sk_random dbg fuel rng i = Done (scalar_of d) <-> sk_random dbg fuel (fun j => f (rng j)) i = Done (scalar_of d')) /\
    (sk_random dbg fuel rng i = Running <-> sk_random dbg fuel (fun j => f (rng j)) i = Running).
Proof.
  intros d d' D D'. pose proof n_lt as NL. exists (on_val (swap d d')).
  split; [apply on_val_rearranges; [intros v V; apply swap_range; assumption | intros v _; apply swap_inv]|].
  intros dbg fuel rng i ST. revert i. induction fuel as [|fl IH]; intros i; [cbn [sk_random]; split; split; (discriminate || reflexivity)|].
  cbn [sk_random]. assert (B : block (rng i)) by exact (ST i).
  assert (B' : block (on_val (swap d d') (rng i))) by apply be32_bytes.
  rewrite (C01_seckey_parse_pf dbg _ (proj1 B) (proj2 B)), (C01_seckey_parse_pf dbg _ (proj1 B') (proj2 B')).
  rewrite (on_val_val (swap d d')) by (try exact B; intros v V; apply swap_range; assumption).
  generalize (be_val (rng i)). intros v. pose proof (swap_in d d' v D D') as SI. pose proof (swap_a d d' v) as SA.
  destruct (Z.leb_spec 1 v), (Z.ltb_spec v n), (Z.leb_spec 1 (swap d d' v)), (Z.ltb_spec (swap d d' v) n); cbn [andb]; try lia; try apply IH.
  split; [|split; discriminate]. split; intros E.
  - assert (E' : scalar_of v = scalar_of d) by congruence. apply scalar_of_inj in E'; [|lia|lia]. rewrite (proj2 SA E'). reflexivity.
  - assert (E' : scalar_of (swap d d' v) = scalar_of d') by congruence. apply scalar_of_inj in E'; [|lia|lia]. rewrite (proj1 SA E'). reflexivity.
Qed.
Lemma C91_random_example_pf : 1 <= 1 < n /\ 1 <= n - 1 < n /\ stream one_stream /\ sk_random true 2 one_stream 0 = Done (scalar_of 1) /\
  exists f, rearranges f /\ sk_random true 2 (fun j => f (one_stream j)) 0 = Done (scalar_of (n - 1)).
Proof.
  assert (A : 1 <= 1 < n) by vmr. assert (B : 1 <= n - 1 < n) by (split; [vmr | lia]). split; [exact A|]. split; [exact B|]. split; [exact one_stream_ok|].
  assert (E : sk_random true 2 one_stream 0 = Done (scalar_of 1)) by (vm_compute; reflexivity). split; [exact E|].
  destruct (C91_random_pf 1 (n - 1) A B) as (f & F & H). exists f. split; [exact F|]. apply (proj1 (H true 2%nat one_stream 0%nat one_stream_ok)), E.
Qed.

(** * Nonces *)
(** exchanges k with k' and n-k with n-k' *)
Definition swap2 (k k' v : Z) : Z := if v =? k then k' else if v =? k' then k else if v =? n - k then n - k' else if v =? n - k' then n - k else v.
Lemma n_odd k : k <> n - k.
Proof. pose proof (proj1 half_n). lia. Qed.
Ltac swp2 := unfold swap2; repeat match goal with |- context [?x =? ?y] => destruct (Z.eqb_spec x y) as [?E|?E] end; try lia.
Lemma swap2_range k k' v : 1 <= k < n -> 1 <= k' < n -> 0 <= v < 2 ^ 256 -> 0 <= swap2 k k' v < 2 ^ 256.
Proof. intros K K' V. pose proof n_lt as NL. swp2. Qed.
Lemma swap2_inv k k' v : swap2 k k' (swap2 k k' v) = v.
Proof.
  pose proof (n_odd k). pose proof (n_odd k'). unfold swap2.
  destruct (Z.eqb_spec v k) as [E1|E1]; [|destruct (Z.eqb_spec v k') as [E2|E2]; [|destruct (Z.eqb_spec v (n - k)) as [E3|E3]; [|destruct (Z.eqb_spec v (n - k')) as [E4|E4]]]];
    repeat match goal with |- context [if ?x =? ?y then _ else _] => destruct (Z.eqb_spec x y) as [?E|?E] end; lia.
Qed.
Lemma swap2_at k k' v : (swap2 k k' v = k' \/ swap2 k k' v = n - k') <-> (v = k \/ v = n - k).
Proof. swp2. Qed.
Lemma swap2_P (P : Z -> Prop) k k' v : P k -> P (n - k) -> P k' -> P (n - k') -> (P (swap2 k k' v) <-> P v).
Proof. intros. unfold swap2. repeat match goal with |- context [?x =? ?y] => destruct (Z.eqb_spec x y) as [?E|?E] end; subst; tauto. Qed.

Lemma neg_point k x y : 1 <= k < n -> smul k G = Aff x y -> exists y', smul (n - k) G = Aff x y'.
Proof.
  intros K E. destruct (nonce_pt k K) as (X & Y & PT & PV). rewrite E in PV. injection PV as -> ->. destruct (neg_nonce_pt k X Y K PT) as [PT' _].
  exists (val (- Y)%F). rewrite smulG by lia. unfold sp. rewrite PT'. reflexivity.
Qed.
Lemma usable_neg d z k : usable d z k -> usable d z (n - k).
Proof. intros (K & x & y & E & H). split; [lia|]. destruct (neg_point k x y K E) as [y' E']. exists x, y'. auto. Qed.
Lemma wraps_neg k : wraps (n - k) <-> wraps k.
Proof.
  assert (Q : forall j, wraps j -> wraps (n - j)). { intros j (K & x & y & E & H). split; [lia|]. destruct (neg_point j x y K E) as [y' E']. exists x, y'. auto. }
  split; intros W; [|exact (Q _ W)]. apply Q in W. replace (n - (n - k)) with k in W by ring. exact W.
Qed.
(** the signature is one whose s is not next to n/2 *)
Definition regular (s : Z) : Prop := s <> (n - 1) / 2 /\ s <> (n + 1) / 2.
Lemma sig_fun d z k r s id r' s' id' : signature_for d z k r s id -> signature_for d z k r' s' id' -> r = r' /\ s = s' /\ id = id'.
Proof.
  intros (x & y & E & -> & _ & H) (x' & y' & E' & -> & _ & H'). rewrite E in E'. injection E' as <- <-. split; [reflexivity|]. lia.
Qed.
Lemma sig_inj r s (id : Z) r' s' id' : 0 <= r < 2 ^ 256 -> 0 <= s < 2 ^ 256 -> 0 <= r' < 2 ^ 256 -> 0 <= s' < 2 ^ 256 ->
  Done (Sig (scalar_of r) (scalar_of s), id) = Done (Sig (scalar_of r') (scalar_of s'), id') -> r = r' /\ s = s' /\ id = id'.
Proof.
  intros R S R' S' E. assert (E1 : scalar_of r = scalar_of r') by (revert E; generalize (scalar_of r), (scalar_of s), (scalar_of r'), (scalar_of s'); intros; congruence).
  assert (E2 : scalar_of s = scalar_of s') by (revert E; generalize (scalar_of r), (scalar_of s), (scalar_of r'), (scalar_of s'); intros; congruence).
  assert (E3 : id = id') by (revert E; generalize (scalar_of r), (scalar_of s), (scalar_of r'), (scalar_of s'); intros; congruence).
  apply scalar_of_inj in E1; [|lia|lia]. apply scalar_of_inj in E2; [|lia|lia]. auto.
Qed.
Lemma signature_neg d z k r s id : 0 <= d < n -> 0 <= z < n -> 1 <= k < n -> regular s -> signature_for d z k r s id -> signature_for d z (n - k) r s id.
Proof.
  intros D Z K [R1 R2] SF. destruct C53_ecmult_gen_example_pf as (c & _ & HC). pose proof n_lt as NL.
  destruct (signature_for_ok d z k r s id D Z K SF) as (RR & S1 & S2 & _).
  assert (U : usable d z k). { destruct SF as (x & y & E & -> & NE & _). split; [exact K|]. exists x, y. split; [exact E|]. intros W. apply NE. rewrite Z.mul_mod, W, Z.mul_0_r by lia. reflexivity. }
  destruct (sign_raw_cases false c d z k HC D Z K) as [(H & _)|[(_ & _ & r1 & s1 & i1 & SF1 & E1)|(_ & NU & _)]]; [discriminate H | | elim (NU U)].
  destruct (sig_fun _ _ _ _ _ _ _ _ _ SF1 SF) as (-> & -> & ->). destruct (C82_negated_nonce_pf false c d z k HC D Z K) as (_ & _ & H3). specialize (H3 r s id ltac:(lia) E1).
  rewrite (proj2 (Z.eqb_neq _ _) R1), (proj2 (Z.eqb_neq _ _) R2) in H3. cbn [orb] in H3.
  destruct (sign_raw_cases false c d z (n - k) HC D Z ltac:(lia)) as [(H & _)|[(_ & _ & r2 & s2 & i2 & SF2 & E2)|(_ & NU & _)]]; [discriminate H | | elim (NU (usable_neg _ _ _ U))].
  rewrite H3 in E2. destruct (signature_for_ok d z (n - k) r2 s2 i2 D Z ltac:(lia) SF2) as (RR2 & S12 & S22 & _).
  destruct (sig_inj r s id r2 s2 i2) as (-> & -> & ->); [lia|lia|lia|lia| |exact SF2].
  revert E2. generalize (scalar_of r), (scalar_of s), (scalar_of r2), (scalar_of s2). intros. congruence.
Qed.
(** the nonces of a regular signature *)
Lemma signature_nonces d z k r s id v : 0 <= d < n -> 0 <= z < n -> 1 <= k < n -> 1 <= v < n -> regular s -> signature_for d z k r s id -> (signature_for d z v r s id <-> v = k \/ v = n - k).
Proof.
  intros D Z K V R SF. split.
  - intros SF'. apply (same_r d z k r s id d z v r s id K V SF SF'). auto.
  - intros [->| ->]; [exact SF | apply signature_neg; assumption].
Qed.
Lemma signature_usable d z k r s id : 1 <= k < n -> signature_for d z k r s id -> usable d z k.
Proof.
  intros K (x & y & E & -> & NE & _). pose proof n_pos as NP. split; [exact K|]. exists x, y. split; [exact E|]. intros W. apply NE. rewrite Z.mul_mod, W, Z.mul_0_r by lia. reflexivity.
Qed.
Lemma C91_nonce_pf : forall dbg ctx d z k r s id k' r' s' id', gen_ctx ctx -> 0 <= d < n -> 0 <= z < n -> 1 <= k < n -> 1 <= k' < n ->
  signature_for d z k r s id -> signature_for d z k' r' s' id' -> regular s -> regular s' -> (dbg = false \/ ~ wraps k /\ ~ wraps k') ->
  exists f, rearranges f /\ forall drbg fuel, stream (drbg (be_bytes 32 d) (be_bytes 32 z)) ->
    let o := sign dbg drbg fuel ctx (scalar_of z) (scalar_of d) in let o' := sign dbg (fun a b i => f (drbg a b i)) fuel ctx (scalar_of z) (scalar_of d) in
    (o = Done (Sig (scalar_of r) (scalar_of s), id) <-> o' = Done (Sig (scalar_of r') (scalar_of s'), id')) /\ (o = Running <-> o' = Running) /\ (o = Panic <-> o' = Panic).
Proof.
  intros dbg ctx d z k r s id k' r' s' id' HC D Z K K' SF SF' R R' NW. pose proof n_lt as NL. exists (on_val (swap2 k k')).
  assert (RG : forall v, 0 <= v < 2 ^ 256 -> 0 <= swap2 k k' v < 2 ^ 256) by (intros v V; apply swap2_range; assumption).
  split; [apply on_val_rearranges; [exact RG | intros v _; apply swap2_inv]|].
  intros drbg fuel. unfold sign. rewrite !s_b32_eq by lia. generalize (drbg (be_bytes 32 d) (be_bytes 32 z)). clear drbg. intros gen ST. cbv zeta.
  assert (ST' : stream (fun i => on_val (swap2 k k') (gen i))) by (intros i; apply be32_bytes).
  assert (NV : forall i, nonce (fun i => on_val (swap2 k k') (gen i)) i = swap2 k k' (nonce gen i)) by (intros i; apply (on_val_val (swap2 k k')); [exact RG | exact (ST i)]).
  assert (U : usable d z k) by exact (signature_usable _ _ _ _ _ _ K SF). assert (U' : usable d z k') by exact (signature_usable _ _ _ _ _ _ K' SF').
  assert (UU : forall v, usable d z (swap2 k k' v) <-> usable d z v) by (intros v; apply (swap2_P (usable d z)); auto using usable_neg).
  assert (WW : dbg = true -> forall v, wraps (swap2 k k' v) <-> wraps v).
  { intros Hd v. destruct NW as [NW|[W W']]; [congruence|]. pose proof (wraps_neg k) as WK. pose proof (wraps_neg k') as WK'. pose proof (swap2_P (fun j => ~ wraps j) k k' v W) as Q. cbv beta in Q.
    unfold swap2. repeat match goal with |- context [?x =? ?y] => destruct (Z.eqb_spec x y) as [?E|?E] end; subst; tauto. }
  generalize 0%nat. induction fuel as [|fl IH]; intros i; [cbn [sign_loop]; split; [split; discriminate | split; split; (discriminate || reflexivity)]|].
  pose proof (sign_loop_step dbg fl gen i ctx d z HC ST D Z) as S1. pose proof (sign_loop_step dbg fl _ i ctx d z HC ST' D Z) as S2. rewrite NV in S2. specialize (IH (Datatypes.S i)).
  set (v := nonce gen i) in *. clearbody v. set (o1 := sign_loop dbg (Datatypes.S fl) gen i ctx (scalar_of d) (scalar_of z)) in *. clearbody o1.
  set (o2 := sign_loop dbg (Datatypes.S fl) (fun i => on_val (swap2 k k') (gen i)) i ctx (scalar_of d) (scalar_of z)) in *. clearbody o2.
  destruct S1 as [(Hd & W & ->)|[(W & U1 & r1 & s1 & i1 & SF1 & ->)|(W & U1 & ->)]], S2 as [(Hd2 & W2 & ->)|[(W2 & U2 & r2 & s2 & i2 & SF2 & ->)|(W2 & U2 & ->)]].
  - split; [split; discriminate | split; split; (discriminate || reflexivity)].
  - exfalso. destruct W2 as [W2|W2]; [congruence|]. apply W2, WW; assumption.
  - exfalso. destruct W2 as [W2|W2]; [congruence|]. apply W2, WW; assumption.
  - exfalso. destruct W as [W|W]; [congruence|]. apply W, WW; assumption.
  - split; [|split; split; discriminate]. pose proof (proj1 U1) as V1. pose proof (proj1 U2) as V2.
    destruct (signature_for_ok _ _ _ _ _ _ D Z K SF) as (A1 & A2 & A3 & _). destruct (signature_for_ok _ _ _ _ _ _ D Z K' SF') as (B1 & B2 & B3 & _).
    destruct (signature_for_ok _ _ _ _ _ _ D Z V1 SF1) as (C1 & C2 & C3 & _). destruct (signature_for_ok _ _ _ _ _ _ D Z V2 SF2) as (D1 & D2 & D3 & _).
    pose proof (signature_nonces d z k r s id v D Z K V1 R SF) as N1. pose proof (signature_nonces d z k' r' s' id' _ D Z K' V2 R' SF') as N2. pose proof (swap2_at k k' v) as SA.
    split; intros E.
    + apply sig_inj in E; [|lia|lia|lia|lia]. destruct E as (-> & -> & ->). destruct (sig_fun _ _ _ _ _ _ _ _ _ SF2 (proj2 N2 (proj2 SA (proj1 N1 SF1)))) as (-> & -> & ->). reflexivity.
    + apply sig_inj in E; [|lia|lia|lia|lia]. destruct E as (-> & -> & ->). destruct (sig_fun _ _ _ _ _ _ _ _ _ SF1 (proj2 N1 (proj1 SA (proj1 N2 SF2)))) as (-> & -> & ->). reflexivity.
  - exfalso. apply U2, UU, U1.
  - exfalso. destruct W as [W|W]; [congruence|]. apply W, WW; assumption.
  - exfalso. apply U1, UU, U2.
  - exact IH.
Qed.
Lemma C91_nonce_example_pf : exists ctx r s id r' s' id', gen_ctx ctx /\ signature_for 1 1 1 r s id /\ signature_for 1 1 2 r' s' id' /\ regular s /\ regular s' /\ ~ wraps 1 /\ ~ wraps 2 /\ (r, s) <> (r', s').
Proof.
  destruct C53_ecmult_gen_example_pf as (c & _ & HC). exists c.
  pose (r := gx mod n). pose (s0 := (inv_mod n 1 * (1 + r * 1)) mod n).
  assert (X : exists x y, smul 2 G = Aff x y /\ x < n /\ x <> gx /\ let q := (inv_mod n 2 * (1 + x mod n * 1)) mod n in q <> 0 /\ q <> (n - 1) / 2 /\ q <> (n + 1) / 2 /\ n - q <> (n - 1) / 2 /\ n - q <> (n + 1) / 2 /\ 0 <= x).
  { eexists; eexists; split; [vm_compute; reflexivity|]. repeat split; vm_compute; try discriminate; reflexivity. }
  assert (Y : exists x y, smul 1 G = Aff x y /\ x = gx /\ let q := (inv_mod n 1 * (1 + x mod n * 1)) mod n in q <> 0 /\ q <> (n - 1) / 2 /\ q <> (n + 1) / 2 /\ n - q <> (n - 1) / 2 /\ n - q <> (n + 1) / 2).
  { exists gx, gy. split; [apply smul_1; exact G_on|]. repeat split; vm_compute; discriminate. }
  destruct X as (x & y & E & XN & XG & Q). destruct Y as (x1 & y1 & E1 & -> & Q1). cbv zeta in Q, Q1.
  assert (SIG : forall k x y, smul k G = Aff x y -> let q := (inv_mod n k * (1 + x mod n * 1)) mod n in q <> 0 /\ q <> (n - 1) / 2 /\ q <> (n + 1) / 2 /\ n - q <> (n - 1) / 2 /\ n - q <> (n + 1) / 2 ->
    exists s id, signature_for 1 1 k (x mod n) s id /\ regular s).
  { intros k x0 y0 E0 q (NZ & H1 & H2 & H3 & H4). destruct (Z.lt_ge_cases q ((n - 1) / 2)) as [H|H].
    - exists q, (2 * (x0 / n) + y0 mod 2). split; [|split; assumption]. exists x0, y0. split; [exact E0|]. split; [reflexivity|]. cbv zeta. fold q. split; [exact NZ|]. left. auto.
    - exists (n - q), (2 * (x0 / n) + (1 - y0 mod 2)). split; [|split; assumption]. exists x0, y0. split; [exact E0|]. split; [reflexivity|]. cbv zeta. fold q. split; [exact NZ|]. right. auto. }
  destruct (SIG 1 gx y1 E1 Q1) as (s & id & SF & R). destruct (SIG 2 x y E) as (s' & id' & SF' & R'); [tauto|].
  exists (gx mod n), s, id, (x mod n), s', id'. split; [exact HC|]. split; [exact SF|]. split; [exact SF'|]. split; [exact R|]. split; [exact R'|]. split; [exact wraps_1|].
  split. { intros (_ & x2 & y2 & E2 & W). rewrite E in E2. injection E2 as <- <-. lia. }
  intros EQ. assert (EM : gx mod n = x mod n) by congruence. rewrite (Z.mod_small x) in EM by lia. assert (GM : gx mod n = gx) by (vm_compute; reflexivity). congruence.
Qed.

(** what [sign] gives when every block is the nonce k *)
Lemma sign_const ctx d z k r s id : gen_ctx ctx -> 0 <= d < n -> 0 <= z < n -> 1 <= k < n -> signature_for d z k r s id -> forall drbg, (forall i, drbg (be_bytes 32 d) (be_bytes 32 z) i = be_bytes 32 k) ->
  sign false drbg 1 ctx (scalar_of z) (scalar_of d) = Done (Sig (scalar_of r) (scalar_of s), id).
Proof.
  intros HC D Z K SF drbg H. pose proof n_lt as NL. assert (ST : stream (drbg (be_bytes 32 d) (be_bytes 32 z))) by (intros i; rewrite H; apply be32_bytes).
  assert (NV : nonce (drbg (be_bytes 32 d) (be_bytes 32 z)) 0 = k) by (unfold nonce; rewrite H; apply be32_val; lia).
  pose proof (signature_usable _ _ _ _ _ _ K SF) as U.
  assert (P1 : (0 < 1)%nat) by lia. assert (P2 : forall l, (l < 0)%nat -> ~ usable d z (nonce (drbg (be_bytes 32 d) (be_bytes 32 z)) l)) by (intros l L; lia).
  assert (P3 : usable d z (nonce (drbg (be_bytes 32 d) (be_bytes 32 z)) 0)) by (rewrite NV; exact U).
  destruct (C29_first_usable_pf false drbg 1 ctx d z 0 HC D Z ST P1 P2 P3 (or_introl eq_refl)) as (r1 & s1 & i1 & SF1 & E). rewrite NV in SF1. destruct (sig_fun _ _ _ _ _ _ _ _ _ SF1 SF) as (-> & -> & ->). exact E.
Qed.
(** The signatures with s next to n/2 have one nonce instead of two, so they are half as likely. *)
Lemma C91_all_signatures_refuted_pf : exists ctx d z k r s id k' r' s' id', gen_ctx ctx /\ 1 <= d < n /\ 0 <= z < n /\ 1 <= k < n /\ 1 <= k' < n /\
  signature_for d z k r s id /\ signature_for d z k' r' s' id' /\ ~ wraps k /\ ~ wraps k' /\
  ~ exists f, rearranges f /\ forall drbg fuel, stream (drbg (be_bytes 32 d) (be_bytes 32 z)) ->
    (sign false drbg fuel ctx (scalar_of z) (scalar_of d) = Done (Sig (scalar_of r) (scalar_of s), id) <->
     sign false (fun a b i => f (drbg a b i)) fuel ctx (scalar_of z) (scalar_of d) = Done (Sig (scalar_of r') (scalar_of s'), id')).
Proof.
  destruct mid_nonce_ex as (c & r1 & HC & HM). destruct (HM false) as (i1 & EM). clear HM. pose proof n_pos as NP. pose proof n_lt as NL. set (z := ((n - 1) / 2 - gx) mod n) in *.
  assert (K1 : 1 <= 1 < n) by vmr. assert (K2 : 1 <= 2 < n) by vmr. assert (D : 0 <= 1 < n) by lia. assert (Z0 : 0 <= z < n) by (apply Z.mod_pos_bound; lia).
  assert (SR : 0 <= (n + 1) / 2 < n) by vmr. destruct half_n as [HN1 HN2].
  assert (X : exists x y, smul 2 G = Aff x y /\ x < n /\ let q := (inv_mod n 2 * (z + x mod n * 1)) mod n in q <> 0 /\ q <> (n - 1) / 2 /\ q <> (n + 1) / 2).
  { eexists; eexists; split; [vm_compute; reflexivity|]. unfold z. repeat split; vm_compute; try discriminate; reflexivity. }
  destruct X as (x & y & E & XN & NZ & Q1 & Q2). cbv zeta in NZ, Q1, Q2.
  assert (SF : exists s id, signature_for 1 z 2 (x mod n) s id /\ regular s).
  { set (q := (inv_mod n 2 * (z + x mod n * 1)) mod n) in *. destruct (Z.lt_ge_cases q ((n - 1) / 2)) as [H|H].
    - exists q, (2 * (x / n) + y mod 2). split; [|split; assumption]. exists x, y. split; [exact E|]. split; [reflexivity|]. cbv zeta. fold q. split; [exact NZ|]. left. auto.
    - exists (n - q), (2 * (x / n) + (1 - y mod 2)). split; [|split; lia]. exists x, y. split; [exact E|]. split; [reflexivity|]. cbv zeta. fold q. split; [exact NZ|]. right. auto. }
  destruct SF as (s & id & SF & R).
  assert (SF' : exists r' id', signature_for 1 z 1 r' ((n + 1) / 2) id').
  { destruct (sign_raw_cases false c 1 z 1 HC D Z0 K1) as [(H & _)|[(_ & _ & r2 & s2 & i2 & SF2 & E2)|(_ & _ & E2)]]; [discriminate H | | rewrite EM in E2; apply some_inv in E2; discriminate E2].
    rewrite EM in E2. destruct (signature_for_ok _ _ _ _ _ _ D Z0 K1 SF2) as (_ & _ & S2 & _ & _ & _ & _ & _ & _). destruct (signature_for_ok _ _ _ _ _ _ D Z0 K1 SF2) as (_ & S1 & _).
    assert (ES : scalar_of ((n + 1) / 2) = scalar_of s2) by (revert E2; generalize (scalar_of ((n + 1) / 2)), (scalar_of s2), (scalar_of r1), (scalar_of r2); intros; congruence).
    apply scalar_of_inj in ES; [|lia|lia]. rewrite ES. eauto. }
  destruct SF' as (r' & id' & SF').
  assert (ONE : forall v, 1 <= v < n -> signature_for 1 z v r' ((n + 1) / 2) id' -> v = 1).
  { intros v V SV. destruct (proj1 (same_r _ _ _ _ _ _ _ _ _ _ _ _ K1 V SF' SV) (conj eq_refl eq_refl)) as [->| ->]; [reflexivity|]. exfalso.
    destruct SF' as (a & b & EA & EB & NA & CA). destruct SV as (a' & b' & EA' & EB' & NA' & CA'). cbv zeta in NA, CA, NA', CA'.
    assert (I : (inv_mod n (n - 1) * (z + r' * 1)) mod n = n - (inv_mod n 1 * (z + r' * 1)) mod n).
    { assert (I1 : inv_mod n 1 = 1) by (vm_compute; reflexivity). assert (I2 : inv_mod n (n - 1) = n - 1) by (vm_compute; reflexivity). rewrite I1, I2, Z.mul_1_l in *. set (w := z + r' * 1) in *. pose proof (Z.mod_pos_bound w n ltac:(lia)).
      replace ((n - 1) * w) with (- w + w * n) by ring. rewrite Z.mod_add by lia. apply Z.mod_opp_l_nz; lia. }
    rewrite I in CA'. lia. }
  exists c, 1, z, 2, (x mod n), s, id, 1, r', ((n + 1) / 2), id'. split; [exact HC|]. split; [exact K1|]. split; [exact Z0|]. split; [exact K2|]. split; [exact K1|]. split; [exact SF|]. split; [exact SF'|].
  split; [intros (_ & x2 & y2 & E2 & W); rewrite E in E2; injection E2 as <- <-; lia|]. split; [exact wraps_1|].
  intros (f & F & H).
  assert (ALL : forall v, 1 <= v < n -> signature_for 1 z v (x mod n) s id -> f (be_bytes 32 v) = be_bytes 32 1).
  { intros v V SV. assert (FB : block (f (be_bytes 32 v))) by (apply F, be32_bytes). pose proof (block_val _ FB) as FV.
    assert (ST : stream (fun _ : nat => be_bytes 32 v)) by (intros i; apply be32_bytes). specialize (H (fun _ _ _ => be_bytes 32 v) 1%nat ST).
    assert (DN : sign false (fun _ _ _ => be_bytes 32 v) 1 c (scalar_of z) (scalar_of 1) = Done (Sig (scalar_of (x mod n)) (scalar_of s), id)) by (apply (sign_const c 1 z v); [exact HC | exact D | exact Z0 | exact V | exact SV | reflexivity]).
    apply H in DN. clear H. assert (ST2 : stream (fun _ : nat => f (be_bytes 32 v))) by (intros i; exact FB).
    destruct (C29_only_first_usable_pf false (fun _ _ _ => f (be_bytes 32 v)) 1 c 1 z _ _ HC D Z0 ST2 DN) as (j & r2 & s2 & _ & _ & U2 & SF2 & EG & _). unfold nonce in U2, SF2. pose proof (proj1 U2) as V2.
    destruct (signature_for_ok _ _ _ _ _ _ D Z0 V2 SF2) as (A1 & A2 & A3 & _). destruct (signature_for_ok _ _ _ _ _ _ D Z0 K1 SF') as (B1 & _).
    destruct (sig_inj r' ((n + 1) / 2) id' r2 s2 id') as (-> & <- & _); [lia|lia|lia|lia| rewrite EG; reflexivity|].
    apply ONE in SF2; [|exact V2]. apply block_eq; [exact FB | apply be32_bytes | rewrite be32_val by lia; exact SF2]. }
  pose proof (ALL 2 K2 SF) as A1. assert (KN : 1 <= n - 2 < n) by lia. pose proof (ALL (n - 2) KN (signature_neg 1 z 2 _ _ _ D Z0 K2 R SF)) as A2.
  assert (EQ : be_bytes 32 2 = be_bytes 32 (n - 2)). { rewrite <- (proj2 (F (be_bytes 32 2) (be32_bytes 2))), <- (proj2 (F (be_bytes 32 (n - 2)) (be32_bytes (n - 2)))), A1, A2. reflexivity. }
  apply be32_inj in EQ; lia.
Qed.

(** * Messages *)
(** A message value has one 32-byte representative, or two when z + n still fits into 32 bytes. *)
Lemma C91_message_pf : forall dbg z b, 0 <= z < n -> block b ->
  (msg_parse dbg b = Some (scalar_of z) <-> b = be_bytes 32 z \/ (z + n < 2 ^ 256 /\ b = be_bytes 32 (z + n))) /\ (z + n < 2 ^ 256 -> be_bytes 32 z <> be_bytes 32 (z + n)).
Proof.
  intros dbg z b Z B. pose proof n_lt as NL. pose proof n_pos as NP. pose proof (block_val b B) as V. pose proof (modn_range (be_val b)) as MR. destruct (C10_message_parse_pf dbg b (proj1 B) (proj2 B)) as [-> _].
  assert (N2 : 2 ^ 256 < 2 * n) by vmr. split.
  - split.
    + intros E. apply some_inv in E. apply scalar_of_inj in E; [|lia|lia]. destruct (Z.lt_ge_cases (be_val b) n) as [LT|GE].
      * left. rewrite Z.mod_small in E by lia. apply block_eq; [exact B | apply be32_bytes | rewrite be32_val by lia; exact E].
      * right. assert (be_val b = z + n). { rewrite <- (Z.mod_unique (be_val b) n 1 (be_val b - n)) in E; lia. } split; [lia|]. apply block_eq; [exact B | apply be32_bytes | rewrite be32_val by lia; lia].
    + intros [->|[L ->]]; rewrite be32_val by lia; [rewrite Z.mod_small by lia; reflexivity|]. do 2 f_equal. rewrite <- (Z.mod_unique (z + n) n 1 z); lia.
  - intros L E. apply be32_inj in E; lia.
Qed.
Lemma C91_message_example_pf : 0 <= 0 < n /\ 0 + n < 2 ^ 256 /\ block (be_bytes 32 n) /\ msg_parse true (be_bytes 32 n) = Some (scalar_of 0) /\ 2 ^ 256 <= (n - 1) + n.
Proof. split; [vmr|]. split; [vmr|]. split; [apply be32_bytes|]. split; [vmr | vmr]. Qed.

(** * Tweaks of secret keys *)
Lemma mul_solve d e : 1 <= d < n -> 1 <= e < n -> exists t, 1 <= t < n /\ (d * t) mod n = e /\ forall u, 1 <= u < n -> (d * u) mod n = e -> u = t.
Proof.
  intros D E. pose proof n_pos as NP. pose proof (inv_n_range d D) as IR. pose proof (inv_n d D) as I. exists ((inv_mod n d * e) mod n). pose proof (mul_mod_n_nz _ _ IR E) as T.
  split; [exact T|]. split.
  - rewrite Zmult_mod_idemp_r. replace (d * (inv_mod n d * e)) with (inv_mod n d * d * e) by ring. rewrite Z.mul_mod, I by lia. rewrite Z.mul_1_l, Z.mod_mod by lia. apply Z.mod_small. lia.
  - intros u U <-. rewrite Zmult_mod_idemp_r. replace (inv_mod n d * (d * u)) with (inv_mod n d * d * u) by ring. rewrite Z.mul_mod, I by lia. rewrite Z.mul_1_l, Z.mod_mod by lia. symmetry. apply Z.mod_small. lia.
Qed.
Lemma pair_ok (a b : seckey) : Some (a, Ok tt) = Some (b, @Ok unit tt) -> a = b. Proof. congruence. Qed.
Lemma C91_secret_tweaks_pf : forall dbg d e, 1 <= d < n -> 1 <= e < n ->
  (exists t, 1 <= t < n /\ forall u, 1 <= u < n -> (sk_tweak_mul_assign dbg (scalar_of d) (scalar_of u) = Some (scalar_of e, Ok tt) <-> u = t)) /\
  (exists t, 1 <= t < n /\ forall u, 1 <= u < n -> (sk_tweak_mul_assign dbg (scalar_of u) (scalar_of d) = Some (scalar_of e, Ok tt) <-> u = t)) /\
  (e <> d -> exists t, 1 <= t < n /\ forall u, 1 <= u < n -> (sk_tweak_add_assign dbg (scalar_of d) (scalar_of u) = Some (scalar_of e, Ok tt) <-> u = t)) /\
  (e <> d -> exists t, 1 <= t < n /\ forall u, 1 <= u < n -> (sk_tweak_add_assign dbg (scalar_of u) (scalar_of d) = Some (scalar_of e, Ok tt) <-> u = t)) /\
  (forall u, 1 <= u < n -> sk_tweak_add_assign dbg (scalar_of d) (scalar_of u) <> Some (scalar_of d, Ok tt) /\ sk_tweak_add_assign dbg (scalar_of u) (scalar_of d) <> Some (scalar_of d, Ok tt)) /\
  (exists t, 1 <= t < n /\ forall u, 1 <= u < n -> (sk_inv dbg (scalar_of u) = Some (scalar_of e) <-> u = t)).
Proof.
  intros dbg d e D E. pose proof n_lt as NL. pose proof n_pos as NP. destruct (mul_solve d e D E) as (t & T & M & UQ).
  assert (ADD : forall u, 1 <= u < n -> d + u <> n -> (d + u) mod n = if d + u <? n then d + u else d + u - n).
  { intros u U NE. destruct (Z.ltb_spec (d + u) n); [apply Z.mod_small; lia | rewrite <- (Z.mod_unique (d + u) n 1 (d + u - n)); lia]. }
  assert (SOL : e <> d -> exists t, 1 <= t < n /\ forall u, 1 <= u < n -> ((d + u <> n /\ (d + u) mod n = e) <-> u = t)).
  { intros NE. exists (if d <? e then e - d else e - d + n). split; [destruct (Z.ltb_spec d e); lia|]. intros u U. split.
    - intros [H1 H2]. rewrite ADD in H2 by assumption. destruct (Z.ltb_spec d e), (Z.ltb_spec (d + u) n); lia.
    - intros EU. assert (UV : d < e /\ u = e - d \/ e <= d /\ u = e - d + n) by (destruct (Z.ltb_spec d e); lia). clear EU. assert (NN : d + u <> n) by lia. split; [exact NN|].
      rewrite ADD by assumption. destruct (Z.ltb_spec (d + u) n); lia. }
  assert (OUT : forall u a f, 1 <= u < n -> 1 <= f < n -> (Some (if d + u =? n then (a, Err TweakOutOfRange) else (scalar_of ((d + u) mod n), Ok tt)) = Some (scalar_of f, Ok tt) <-> (d + u <> n /\ (d + u) mod n = f))).
  { intros u a f U F. pose proof (modn_range (d + u)) as MR. destruct (Z.eqb_spec (d + u) n) as [EQ|NE]; split.
    - intros H. apply some_inv in H. discriminate H.
    - intros [H _]. contradiction.
    - intros H. apply pair_ok in H. apply scalar_of_inj in H; [|lia|lia]. auto.
    - intros [_ ->]. reflexivity. }
  assert (ADD1 : forall u f, 1 <= u < n -> 1 <= f < n -> (sk_tweak_add_assign dbg (scalar_of d) (scalar_of u) = Some (scalar_of f, Ok tt) <-> (d + u <> n /\ (d + u) mod n = f))).
  { intros u f U F. rewrite (proj1 (C32_secret_tweak_add_pf dbg d u D U)). apply OUT; assumption. }
  assert (ADD2 : forall u f, 1 <= u < n -> 1 <= f < n -> (sk_tweak_add_assign dbg (scalar_of u) (scalar_of d) = Some (scalar_of f, Ok tt) <-> (d + u <> n /\ (d + u) mod n = f))).
  { intros u f U F. rewrite (proj1 (C32_secret_tweak_add_pf dbg u d U D)). rewrite (Z.add_comm u d). apply OUT; assumption. }
  split; [|split; [|split; [|split; [|split]]]].
  - exists t. split; [exact T|]. intros u U. destruct (C33_secret_tweak_mul_pf dbg d u D U) as [-> R]. split.
    + intros H. apply pair_ok in H. apply scalar_of_inj in H; [|lia|lia]. apply UQ; assumption.
    + intros ->. rewrite M. reflexivity.
  - exists t. split; [exact T|]. intros u U. destruct (C33_secret_tweak_mul_pf dbg u d U D) as [-> R]. rewrite (Z.mul_comm u d) in *. split.
    + intros H. apply pair_ok in H. apply scalar_of_inj in H; [|lia|lia]. apply UQ; assumption.
    + intros ->. rewrite M. reflexivity.
  - intros NE. destruct (SOL NE) as (a & A & H). exists a. split; [exact A|]. intros u U. rewrite ADD1 by assumption. apply H, U.
  - intros NE. destruct (SOL NE) as (a & A & H). exists a. split; [exact A|]. intros u U. rewrite ADD2 by assumption. apply H, U.
  - intros u U. rewrite ADD1, ADD2 by assumption. assert (K : ~ (d + u <> n /\ (d + u) mod n = d)); [|tauto]. intros [H1 H2]. rewrite ADD in H2 by assumption. destruct (Z.ltb_spec (d + u) n); lia.
  - destruct (C33_secret_inv_pf dbg e E) as (a & EA & A & MA & EB). exists a. split; [exact A|]. intros u U. split; [|intros ->; exact EB].
    intros H. destruct (C33_secret_inv_pf dbg u U) as (b & EB' & RB & MB & EU). rewrite H in EB'. apply some_inv in EB'. apply scalar_of_inj in EB'; [|lia|lia]. subst b.
    rewrite EA in EU. apply some_inv in EU. apply scalar_of_inj in EU; [|lia|lia]. congruence.
Qed.
Lemma C91_secret_tweaks_example_pf : 1 <= 2 < n /\ 1 <= n - 1 < n /\ n - 1 <> 2.
Proof. split; [vmr|]. split; [vmr|]. vm_compute. discriminate. Qed.

(** * Tweaks of public keys and key agreement *)
Lemma key_pos k P : key_at k P -> P <> Inf -> exists d, 1 <= d < n /\ P = smul d G.
Proof. intros K N. destruct (key_log k P K N) as (e & E0 & -> & _). exists e. split; [exact E0 | symmetry; apply smulG; lia]. Qed.
Lemma pt_pos Q : on_curve Q -> Q <> Inf -> exists d, 1 <= d < n /\ Q = smul d G.
Proof. intros O N. destruct (proj1 C56_cyclic_pf Q O) as (d & D & -> & _). exists d. split; [|reflexivity]. assert (d <> 0) by (intros ->; apply N; reflexivity). lia. Qed.
Lemma log_uniq a b : 0 <= a < n -> 0 <= b < n -> smul a G = smul b G -> a = b.
Proof. intros A B E. destruct (proj1 C56_cyclic_pf (smul a G) (proj1 (proj2 C56_cyclic_pf) a (proj1 A))) as (k & _ & _ & U). rewrite (U a A eq_refl), (U b B E). reflexivity. Qed.
Lemma aff_at_uniq m m' k P Q : aff_at m k P -> aff_at m' k Q -> P = Q.
Proof.
  intros (_ & _ & _ & A) (_ & _ & _ & B). destruct P as [|x y], Q as [|u v]; [reflexivity | destruct B; congruence | destruct A; congruence|].
  destruct A as (_ & <- & <-), B as (_ & <- & <-). reflexivity.
Qed.
Lemma C91_public_tweaks_pf : forall dbg ctx k P Q, verify_ctx ctx -> key_at k P -> P <> Inf -> on_curve Q -> Q <> Inf ->
  (exists t, 1 <= t < n /\ forall u, 1 <= u < n -> ((exists k', pk_tweak_mul_assign dbg ctx k (scalar_of u) = Some (k', Ok tt) /\ key_at k' Q) <-> u = t)) /\
  (Q <> P -> exists t, 1 <= t < n /\ forall u, 1 <= u < n -> ((exists k', pk_tweak_add_assign dbg ctx k (scalar_of u) = Some (k', Ok tt) /\ key_at k' Q) <-> u = t)) /\
  (forall u k', 1 <= u < n -> pk_tweak_add_assign dbg ctx k (scalar_of u) = Some (k', Ok tt) -> ~ key_at k' P).
Proof.
  intros dbg ctx k P Q HC HK NP OQ NQ. pose proof n_pos as NPOS. destruct (key_pos k P HK NP) as (d & D & EP). destruct (pt_pos Q OQ NQ) as (e & E & EQ).
  assert (ADD : forall u, 1 <= u < n -> forall R, on_curve R -> R <> Inf -> ((exists k', pk_tweak_add_assign dbg ctx k (scalar_of u) = Some (k', Ok tt) /\ key_at k' R) <-> padd P (smul u G) = R)).
  { intros u U R OR NR. destruct (C34_public_tweak_add_pf dbg ctx k P u HC HK NP ltac:(lia)) as [HI HN]. split.
    - intros (k' & H & KR). assert (NI : padd P (smul u G) <> Inf). { intros I. rewrite (HI I) in H. apply some_inv in H. discriminate H. }
      destruct (HN NI) as (k2 & H2 & K2). rewrite H in H2. assert (k' = k2) as -> by congruence. exact (aff_at_uniq _ _ _ _ _ K2 KR).
    - intros ER. destruct (HN ltac:(congruence)) as (k2 & H2 & K2). exists k2. split; [exact H2|]. rewrite ER in K2. exact (key_mono _ _ K2). }
  assert (SUM : forall u f, 1 <= u < n -> 1 <= f < n -> (padd P (smul u G) = smul f G <-> (d + u) mod n = f)).
  { intros u f U F. rewrite EP, smulG_add, <- smulG_mod by lia. split; [intros H; apply log_uniq in H; [exact H | apply modn_range | lia] | intros ->; reflexivity]. }
  assert (ADDM : forall u, 1 <= u < n -> (d + u) mod n = if d + u <? n then d + u else d + u - n).
  { intros u U. destruct (Z.ltb_spec (d + u) n); [apply Z.mod_small; lia | rewrite <- (Z.mod_unique (d + u) n 1 (d + u - n)); lia]. }
  split; [|split].
  - destruct (mul_solve d e D E) as (t & T & M & UQ). exists t. split; [exact T|]. intros u U. destruct (proj2 (C35_public_tweak_mul_pf dbg ctx k P u HC HK NP ltac:(lia)) ltac:(lia)) as (k2 & H2 & K2 & N2).
    assert (EM : smul u P = smul ((d * u) mod n) G) by (rewrite EP, smulG_mul, smulG_mod by nia; f_equal; ring). pose proof (mul_mod_n_nz d u D U) as MR. split.
    + intros (k' & H & KQ). rewrite H in H2. assert (k' = k2) as -> by congruence. pose proof (aff_at_uniq _ _ _ _ _ K2 KQ) as EE. rewrite EM, EQ in EE. apply log_uniq in EE; [|lia|lia]. apply UQ; assumption.
    + intros ->. exists k2. split; [exact H2|]. rewrite EM, M, <- EQ in K2. exact (key_mono _ _ K2).
  - intros NE. assert (DE : e <> d) by congruence. exists (if d <? e then e - d else e - d + n). split; [destruct (Z.ltb_spec d e); lia|]. intros u U. rewrite (ADD u U Q OQ NQ), EQ, SUM, ADDM by assumption.
    destruct (Z.ltb_spec (d + u) n), (Z.ltb_spec d e); lia.
  - intros u k' U H KP. assert (X : padd P (smul u G) = P) by (apply (ADD u U P (key_on _ _ HK) NP); exists k'; auto). rewrite EP in X at 2. rewrite SUM, ADDM in X by assumption. destruct (Z.ltb_spec (d + u) n); lia.
Qed.
Lemma C91_public_tweaks_example_pf : (exists ctx, verify_ctx ctx) /\ key_at AFFINE_G G /\ G <> Inf /\ on_curve (pneg G) /\ pneg G <> Inf /\ pneg G <> G.
Proof.
  split; [exact (proj1 C34_public_tweak_add_example_pf)|]. split; [exact G_key|]. split; [discriminate|]. destruct neg_G_key as [k K]. split; [exact (key_on _ _ K)|]. split; [discriminate|]. vm_compute. discriminate.
Qed.

(** For a fixed own key, the point that is hashed takes each finite value for exactly one peer key. *)
Lemma C91_shared_pf : forall dbg d x y, 1 <= d < n -> on_curve (Aff x y) ->
  exists P, on_curve P /\ P <> Inf /\ (forall k D, key_at k P -> shared_secret_new dbg D k (scalar_of d) = Some (Ok (D (sec1_compressed x y)))) /\
    (exists k, key_at k P) /\
    forall k P', key_at k P' -> P' <> Inf -> shared_secret_new dbg (fun b => b) k (scalar_of d) = Some (Ok (sec1_compressed x y)) -> P' = P.
Proof.
  intros dbg d x y D O. pose proof n_pos as NP. destruct (pt_pos _ O ltac:(discriminate)) as (e & E & EQ). destruct (mul_solve d e D E) as (t & T & M & UQ).
  assert (OT : on_curve (smul t G)) by (apply C56_cyclic_pf; lia). assert (NT : smul t G <> Inf) by exact (smulG_nz t T).
  assert (MUL : forall u, 1 <= u < n -> smul d (smul u G) = smul ((d * u) mod n) G) by (intros u U; rewrite smulG_mul, smulG_mod by nia; reflexivity).
  exists (smul t G). split; [exact OT|]. split; [exact NT|]. split; [|split].
  - intros k D0 K. destruct (proj2 (C37_ecdh_pf dbg D0 k (smul t G) d K NT ltac:(lia)) ltac:(lia)) as (u & v & EU & ->). rewrite MUL, M, <- EQ in EU by exact T. injection EU as <- <-. reflexivity.
  - destruct C53_ecmult_gen_example_pf as (c & _ & HC). destruct (C21_from_secret_key_pf dbg c t HC T) as (k & _ & _ & K & _). exists k. exact K.
  - intros k P' K N H. destruct (key_pos k P' K N) as (u & U & EP). destruct (proj2 (C37_ecdh_pf dbg (fun b => b) k P' d K N ltac:(lia)) ltac:(lia)) as (a & b & EA & ES). rewrite ES in H. apply some_inv in H.
    assert (HH : sec1_compressed a b = sec1_compressed x y) by (revert H; generalize (sec1_compressed a b), (sec1_compressed x y); intros; congruence).
    assert (OA : on_curve (Aff a b)). { rewrite <- EA, EP, MUL by exact U. apply C56_cyclic_pf, modn_range. }
    apply sec1_compressed_inj in HH; [|exact OA | exact O]. rewrite HH, EQ, EP, MUL in EA by exact U. pose proof (mul_mod_n_nz d u D U) as MR. apply log_uniq in EA; [|lia|lia]. rewrite EP. f_equal. apply UQ; [exact U | exact EA].
Qed.
Lemma C91_shared_example_pf : 1 <= 2 < n /\ on_curve (Aff gx gy).
Proof. split; [vmr | exact G_on]. Qed.
