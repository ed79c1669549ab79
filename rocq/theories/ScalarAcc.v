(** The multi-word accumulator macros of scalar.rs add exactly. *)
From Verif Require Import Word MScalar WP.

Definition B32 : Z := 4294967296.
Definition av (c : acc) : Z := let '(c0, c1, c2) := c in c0 + 4294967296 * c1 + 18446744073709551616 * c2.
(** limbs in range, value at most [N] *)
Definition aok (c : acc) (N : Z) : Prop :=
  let '(c0, c1, c2) := c in u32 c0 /\ u32 c1 /\ u32 c2 /\ av c <= N.

(** wrapping addition with its carry *)
Lemma wadd32_carry x y : u32 x -> u32 y -> exists k, (k = 0 \/ k = 1) /\
  wadd32 x y = x + y - 4294967296 * k /\ u32 (x + y - 4294967296 * k) /\
  b2z (x + y - 4294967296 * k <? y) = k.
Proof.
  unfold u32, wadd32. intros Hx Hy. change (2 ^ 32) with 4294967296.
  destruct (Z.lt_ge_cases (x + y) 4294967296) as [L|L].
  - exists 0. rewrite Z.mod_small by lia. repeat split; try lia.
    rewrite (proj2 (Z.ltb_ge _ _)) by lia. reflexivity.
  - exists 1. rewrite <- (Z.mod_add (x + y) (-1)) by discriminate. rewrite Z.mod_small by lia.
    repeat split; try lia. rewrite (proj2 (Z.ltb_lt _ _)) by lia. reflexivity.
Qed.
Lemma wadd32_nc x y : 0 <= x -> 0 <= y -> x + y <= 4294967295 -> wadd32 x y = x + y.
Proof. intros. unfold wadd32. apply Z.mod_small. change (2 ^ 32) with 4294967296. lia. Qed.
Lemma b2z_01 b : b2z b = 0 \/ b2z b = 1. Proof. destruct b; auto. Qed.
Lemma b2z_1 b : b2z b = 1 -> b = true. Proof. destruct b; [auto | discriminate]. Qed.
Lemma b2z_0 b : b2z b = 0 -> b = false. Proof. destruct b; [discriminate | auto]. Qed.

Lemma prod_split a b : u32 a -> u32 b -> exists h l, as_u32 (Z.shiftr (a * b) 32) = h /\ as_u32 (a * b) = l /\
  a * b = 4294967296 * h + l /\ 0 <= h <= 4294967294 /\ u32 l.
Proof.
  unfold u32. intros Ha Hb. exists (a * b / 4294967296), (a * b mod 4294967296).
  assert (0 <= a * b <= 4294967295 * 4294967295) by nia.
  pose proof (Z.div_mod (a * b) 4294967296 ltac:(discriminate)).
  pose proof (Z.mod_pos_bound (a * b) 4294967296 eq_refl).
  unfold as_u32. rewrite Z.shiftr_div_pow2 by lia. change (2 ^ 32) with 4294967296.
  assert (0 <= a * b / 4294967296 <= 4294967294).
  { split; [apply Z.div_pos; lia|]. apply Z.lt_succ_r. apply Z.div_lt_upper_bound; lia. }
  rewrite Z.mod_small by lia. repeat split; lia.
Qed.

Ltac letq := refine (wp_let_any _ _ _ _); cbv beta.
Ltac carry H1 H2 := 
  let k := fresh "k" in let K := fresh "K" in let E := fresh in let U := fresh "U" in let F := fresh "F" in
  destruct (wadd32_carry _ _ H1 H2) as (k & K & E & U & F); rewrite E; clear E.

Section B.
Variable dbg : bool.

Lemma u32_b2z b : u32 (b2z b). Proof. destruct b; unfold u32; cbn; lia. Qed.

Lemma a_muladd_ok a b c N M : u32 a -> u32 b -> aok c N -> a * b <= M -> (N + M <? 79228162514264337593543950336) = true ->
  wp (a_muladd dbg a b c) (fun c' => aok c' (N + M) /\ av c' = av c + a * b).
Proof.
  destruct c as [[c0 c1] c2]. unfold aok, av. intros Ha Hb (U0 & U1 & U2 & HN) HM HNM; apply Z.ltb_lt in HNM. unfold a_muladd.
  destruct (prod_split a b Ha Hb) as (h & l & E1 & E2 & P & Hh & Hl).
  letq. letq. letq. rewrite E1, E2. clear E1 E2.
  assert (0 <= a * b) by (unfold u32 in *; lia).
  rewrite P in *. clear P Ha Hb a b.
  letq. carry U0 Hl. letq. rewrite F. 
  assert (0 <= k <= 1) by lia.
  rewrite (wadd32_nc h k) by lia.
  letq. assert (Uh : u32 (h + k)) by (unfold u32; lia).
  carry U1 Uh. letq. rewrite F0. assert (0 <= k0 <= 1) by lia.
  unfold u32 in *.
  rewrite (wadd32_nc c2 k0) by lia.
  apply wp_dassert.
  - destruct (Z.leb_spec (h + k) (c1 + (h + k) - 4294967296 * k0)); [reflexivity|].
    assert (k0 = 1) as -> by lia. cbn [orb]. apply negb_true_iff, Z.eqb_neq. lia.
  - apply wp_some. unfold av. repeat split; lia.
Qed.
Lemma a_muladd_fast_ok a b c N M : u32 a -> u32 b -> aok c N -> a * b <= M -> (N + M <? 18446744073709551616) = true ->
  wp (a_muladd_fast dbg a b c) (fun c' => aok c' (N + M) /\ av c' = av c + a * b).
Proof.
  destruct c as [[c0 c1] c2]. unfold aok, av. intros Ha Hb (U0 & U1 & U2 & HN) HM HNM; apply Z.ltb_lt in HNM. unfold a_muladd_fast.
  destruct (prod_split a b Ha Hb) as (h & l & E1 & E2 & P & Hh & Hl).
  letq. letq. letq. rewrite E1, E2. clear E1 E2.
  assert (0 <= a * b) by (unfold u32 in *; lia).
  rewrite P in *. clear P Ha Hb a b.
  letq. carry U0 Hl. letq. rewrite F. 
  assert (0 <= k <= 1) by lia.
  rewrite (wadd32_nc h k) by lia.
  letq. assert (Uh : u32 (h + k)) by (unfold u32; lia).
  carry U1 Uh. 
  unfold u32 in *. assert (k0 = 0) as -> by lia.
  apply wp_dassert.
  - apply Z.leb_le. lia.
  - apply wp_some. unfold av. repeat split; lia.
Qed.
Lemma a_sumadd_ok a c N M : u32 a -> aok c N -> a <= M -> (N + M <? 79228162514264337593543950336) = true ->
  wp (a_sumadd a c) (fun c' => aok c' (N + M) /\ av c' = av c + a).
Proof.
  destruct c as [[c0 c1] c2]. unfold aok, av. intros Ha (U0 & U1 & U2 & HN) HM HNM; apply Z.ltb_lt in HNM. unfold a_sumadd.
  letq. carry U0 Ha. letq. rewrite F. letq.
  assert (Uk : u32 k) by (unfold u32; lia). carry U1 Uk. letq. rewrite F0.
  unfold u32 in *. rewrite (wadd32_nc c2 k0) by lia.
  apply wp_some. unfold av. repeat split; lia.
Qed.
Lemma a_sumadd_fast_ok a c N M : u32 a -> aok c N -> a <= M -> (N + M <? 18446744073709551616) = true ->
  wp (a_sumadd_fast dbg a c) (fun c' => aok c' (N + M) /\ av c' = av c + a).
Proof.
  destruct c as [[c0 c1] c2]. unfold aok, av. intros Ha (U0 & U1 & U2 & HN) HM HNM; apply Z.ltb_lt in HNM. unfold a_sumadd_fast.
  letq. carry U0 Ha. letq. rewrite F.
  unfold u32 in *. rewrite (wadd32_nc c1 k) by lia.
  apply wp_dassert.
  { destruct (Z.leb_spec a (c0 + a - 4294967296 * k)); [apply orb_true_r|].
    rewrite orb_false_r. apply negb_true_iff, Z.eqb_neq. lia. }
  apply wp_dassert; [apply Z.eqb_eq; lia|].
  apply wp_some. unfold av. repeat split; lia.
Qed.
Lemma a_muladd2_ok a b c N M : u32 a -> u32 b -> aok c N -> 2 * (a * b) <= M -> (N + M <? 79228162514264337593543950336) = true ->
  wp (a_muladd2 dbg a b c) (fun c' => aok c' (N + M) /\ av c' = av c + 2 * (a * b)).
Proof.
  destruct c as [[c0 c1] c2]. unfold aok, av. intros Ha Hb (U0 & U1 & U2 & HN) HM HNM; apply Z.ltb_lt in HNM. unfold a_muladd2.
  destruct (prod_split a b Ha Hb) as (h & l & E1 & E2 & P & Hh & Hl).
  letq. letq. letq. rewrite E1, E2. clear E1 E2.
  assert (0 <= a * b) by (unfold u32 in *; lia).
  rewrite P in *. clear P Ha Hb a b.
  assert (Uh : u32 h) by (unfold u32; lia).
  letq. carry Uh Uh. letq. rewrite F.
  assert (0 <= k <= 1) by lia.
  rewrite (wadd32_nc c2 k) by (unfold u32 in *; lia).
  apply wp_dassert.
  { unfold u32 in *. destruct (Z.leb_spec h (h + h - 4294967296 * k)); [reflexivity|].
    cbn [orb]. apply negb_true_iff, Z.eqb_neq. lia. }
  letq. carry Hl Hl. letq. rewrite F0. assert (0 <= k0 <= 1) by lia.
  (* th2 after doubling is even and at most 2^32-2 *)
  rewrite (wadd32_nc (h + h - 4294967296 * k) k0) by (unfold u32 in *; lia).
  assert (Ut : u32 (h + h - 4294967296 * k + k0)) by (unfold u32 in *; lia).
  letq. carry U0 U3. letq.
  assert (Hc : b2z (c0 + (l + l - 4294967296 * k0) - 4294967296 * k1 <? l + l - 4294967296 * k0) = k1) by exact F1.
  rewrite Hc. assert (0 <= k1 <= 1) by lia.
  assert (Uk1 : u32 k1) by (unfold u32; lia).
  carry Ut Uk1. letq.
  assert (Hb : b2z ((c0 + (l + l - 4294967296 * k0) - 4294967296 * k1 <? l + l - 4294967296 * k0) &&
                    (h + h - 4294967296 * k + k0 + k1 - 4294967296 * k2 =? 0)) = k2).
  { unfold u32 in *. destruct K2 as [-> | ->].
    - destruct K1 as [-> | ->].
      + apply b2z_0 in Hc. rewrite Hc. reflexivity.
      + rewrite (proj2 (Z.eqb_neq _ 0)) by lia. rewrite andb_false_r. reflexivity.
    - assert (k1 = 1) as -> by lia. apply b2z_1 in Hc. rewrite Hc.
      rewrite (proj2 (Z.eqb_eq _ 0)) by lia. reflexivity. }
  rewrite Hb. assert (0 <= k2 <= 1) by lia.
  assert (V2 : u32 (c2 + k + k2)) by (unfold u32 in *; lia).
  rewrite (wadd32_nc (c2 + k) k2) by (unfold u32 in *; lia).
  apply wp_dassert.
  { unfold u32 in *.
    destruct (Z.leb_spec (l + l - 4294967296 * k0) (c0 + (l + l - 4294967296 * k0) - 4294967296 * k1)); [reflexivity|].
    assert (k1 = 1) as -> by lia. cbn [orb].
    destruct (Z.eqb_spec (h + h - 4294967296 * k + k0 + 1 - 4294967296 * k2) 0) as [E|E]; [|reflexivity].
    cbn [negb orb]. apply negb_true_iff, Z.eqb_neq. lia. }
  letq. carry U1 U5. letq. rewrite F3. assert (0 <= k3 <= 1) by lia.
  rewrite (wadd32_nc (c2 + k + k2) k3) by (unfold u32 in *; lia).
  apply wp_dassert.
  { unfold u32 in *. match goal with |- (?x <=? ?y) || _ = true => destruct (Z.leb_spec x y); [reflexivity|] end.
    cbn [orb]. apply negb_true_iff, Z.eqb_neq. lia. }
  apply wp_some. unfold av, u32 in *. repeat split; lia.
Qed.
Lemma a_extract_ok c N : aok c N -> (0 <=? N) = true ->
  wp (a_extract c) (fun '(l, c') => u32 l /\ aok c' (N / 4294967296) /\ av c = l + 4294967296 * av c').
Proof.
  destruct c as [[c0 c1] c2]. unfold aok, av. intros (U0 & U1 & U2 & HN) P; apply Z.leb_le in P. unfold a_extract. apply wp_some.
  unfold u32 in *. repeat split; try lia. apply Z.div_le_lower_bound; unfold av; lia.
Qed.
Lemma a_extract_fast_ok c N : aok c N -> (0 <=? N) = true -> (N <? 18446744073709551616) = true ->
  wp (a_extract_fast dbg c) (fun '(l, c') => u32 l /\ aok c' (N / 4294967296) /\ av c = l + 4294967296 * av c').
Proof.
  destruct c as [[c0 c1] c2]. unfold aok, av. intros (U0 & U1 & U2 & HN) P L; apply Z.leb_le in P; apply Z.ltb_lt in L. unfold a_extract_fast.
  unfold u32 in *. assert (c2 = 0) as -> by lia. 
  apply wp_dassert; [reflexivity|]. apply wp_some.
  repeat split; try lia. apply Z.div_le_lower_bound; unfold av; lia.
Qed.
End B.
