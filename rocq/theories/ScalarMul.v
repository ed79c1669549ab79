(** 256x256-bit products and the reduction modulo the group order. *)
From Verif Require Import Word MScalar WP ScalarAcc.

(** one step of the accumulator programs: bounds are computed, equations collected *)
Ltac ubound x :=
  lazymatch x with
  | Zpos _ => x
  | Z0 => x
  | _ => lazymatch goal with H : 0 <= x <= ?K |- _ => K end
  end.
Ltac ubp x := first [ assumption | split; discriminate ].
Lemma u32_of x K : 0 <= x <= K -> (K <=? 4294967295) = true -> u32 x.
Proof. unfold u32. rewrite Z.leb_le. lia. Qed.
Lemma mul_bound a b A B : 0 <= a <= A -> 0 <= b <= B -> a * b <= A * B.
Proof. nia. Qed.
Lemma refl_bound x : (0 <=? x) = true -> 0 <= x <= x.
Proof. rewrite Z.leb_le. lia. Qed.
Ltac bpf x :=
  lazymatch x with
  | Zpos _ => constr:(refl_bound x eq_refl)
  | _ => lazymatch goal with H : 0 <= x <= ?K |- _ => H end
  end.
Lemma lt_num a b : (a <? b) = true -> a < b. Proof. apply Z.ltb_lt. Qed.
Lemma mul2_bound a b A B : 0 <= a <= A -> 0 <= b <= B -> 2 * (a * b) <= 2 * (A * B).
Proof. nia. Qed.

Ltac norm_aok H := lazymatch type of H with aok ?c ?N => let N' := eval vm_compute in N in change (aok c N') in H end.
Ltac fin_acc := let c := fresh "c" in let A := fresh "A" in let E := fresh "E" in intros c [A E]; norm_aok A.
Ltac fin_ext := let l := fresh "l" in let c := fresh "c" in let U := fresh "U" in let A := fresh "A" in let E := fresh "E" in
  intros [l c] (U & A & E); norm_aok A; unfold u32 in U.
Ltac acc_step :=
  lazymatch goal with
  | |- wp (bind (Some ?e) _) _ => refine (wp_let_any _ _ _ _)
  | |- wp (bind (a_muladd ?d ?a ?b ?c) _) _ =>
      lazymatch goal with H : aok c ?N |- _ =>
      let pa := bpf a in let pb := bpf b in
      refine (wp_bind _ _ _ _ (a_muladd_ok d a b c N _ (u32_of _ _ pa eq_refl) (u32_of _ _ pb eq_refl) H (mul_bound _ _ _ _ pa pb) eq_refl) _); fin_acc end
  | |- wp (bind (a_muladd_fast ?d ?a ?b ?c) _) _ =>
      lazymatch goal with H : aok c ?N |- _ =>
      let pa := bpf a in let pb := bpf b in
      refine (wp_bind _ _ _ _ (a_muladd_fast_ok d a b c N _ (u32_of _ _ pa eq_refl) (u32_of _ _ pb eq_refl) H (mul_bound _ _ _ _ pa pb) eq_refl) _); fin_acc end
  | |- wp (bind (a_muladd2 ?d ?a ?b ?c) _) _ =>
      lazymatch goal with H : aok c ?N |- _ =>
      let pa := bpf a in let pb := bpf b in
      refine (wp_bind _ _ _ _ (a_muladd2_ok d a b c N _ (u32_of _ _ pa eq_refl) (u32_of _ _ pb eq_refl) H (mul2_bound _ _ _ _ pa pb) eq_refl) _); fin_acc end
  | |- wp (bind (a_sumadd ?a ?c) _) _ =>
      lazymatch goal with H : aok c ?N |- _ =>
      let pa := bpf a in
      refine (wp_bind _ _ _ _ (a_sumadd_ok a c N _ (u32_of _ _ pa eq_refl) H (proj2 pa) eq_refl) _); fin_acc end
  | |- wp (bind (a_sumadd_fast ?d ?a ?c) _) _ =>
      lazymatch goal with H : aok c ?N |- _ =>
      let pa := bpf a in
      refine (wp_bind _ _ _ _ (a_sumadd_fast_ok d a c N _ (u32_of _ _ pa eq_refl) H (proj2 pa) eq_refl) _); fin_acc end
  | |- wp (bind (a_extract ?c) _) _ =>
      lazymatch goal with H : aok c ?N |- _ =>
      refine (wp_bind _ _ _ _ (a_extract_ok c N H eq_refl) _); fin_ext end
  | |- wp (bind (a_extract_fast ?d ?c) _) _ =>
      lazymatch goal with H : aok c ?N |- _ =>
      refine (wp_bind _ _ _ _ (a_extract_fast_ok d c N H eq_refl eq_refl) _); fin_ext end
  end; cbv beta iota.

(** little-endian value of a list of 32-bit words *)
Fixpoint val_l (l : list Z) : Z := match l with [] => 0 | d :: t => d + 4294967296 * val_l t end.
Definition sv (s : scalar) : Z := match s with Sc d0 d1 d2 d3 d4 d5 d6 d7 => val8 d0 d1 d2 d3 d4 d5 d6 d7 end.
Definition s_u (s : scalar) : Prop := match s with Sc d0 d1 d2 d3 d4 d5 d6 d7 => u32x8 d0 d1 d2 d3 d4 d5 d6 d7 end.

Lemma eq_sub x y z : x = y + z -> y = x - z. Proof. lia. Qed.
(** eliminate the accumulators: replace [av c] by variables and substitute forwards *)
Ltac elim_acc :=
  repeat match goal with
  | H : aok _ _ |- _ => clear H
  | H : 0 <= _ <= _ |- _ => clear H
  end;
  repeat match goal with E : context [av ?c] |- _ => is_var c; let v := fresh "v" in set (v := av c) in *; clearbody v; clear c end;
  repeat match goal with
  | E : _ = ?l + 4294967296 * _ |- _ => is_var l; apply eq_sub in E; subst l
  | E : ?v = _ |- _ => is_var v; subst v
  end.

Section B.
Variable dbg : bool.

Lemma aok_mk c0 c1 c2 N : 0 <= c0 <= 4294967295 -> 0 <= c1 <= 4294967295 -> 0 <= c2 <= 4294967295 ->
  av (c0, c1, c2) <= N -> aok (c0, c1, c2) N.
Proof. unfold aok, u32. tauto. Qed.

Lemma s_mul_512_ok a b : s_u a -> s_u b ->
  wp (s_mul_512 dbg a b) (fun l => length l = 16%nat /\ Forall u32 l /\ val_l l = sv a * sv b).
Proof.
  destruct a as [a0 a1 a2 a3 a4 a5 a6 a7], b as [b0 b1 b2 b3 b4 b5 b6 b7].
  cbn [s_u sv]. unfold u32x8, u32. intros (?&?&?&?&?&?&?&?) (?&?&?&?&?&?&?&?).
  unfold s_mul_512.
  assert (A : aok (0, 0, 0) 0) by (apply aok_mk; unfold av; lia).
  repeat acc_step.
  match goal with |- wp (let '(_, _) := ?c in _) _ => destruct c as [[y0 y1] y2] end.
  match goal with H : aok (y0, y1, y2) _ |- _ => unfold aok, av in H; destruct H as (Y0 & Y1 & Y2 & Y) end.
  unfold u32 in Y0, Y1, Y2.
  assert (y1 = 0 /\ y2 = 0) as [-> ->] by lia.
  apply wp_dassert; [reflexivity|]. acc_step. apply wp_some.
  split; [reflexivity|]. split; [repeat (apply Forall_cons; [unfold u32; assumption|]); apply Forall_nil|].
  cbn [val_l]. unfold val8.
  change (av (y0, 0, 0)) with (y0 + 4294967296 * 0 + 18446744073709551616 * 0) in *.
  change (av (0, 0, 0)) with 0 in *.
  clear Y0 Y1 Y2 Y.
  elim_acc.
  ring.
Qed.

Lemma s_sqr_512_ok a : s_u a ->
  wp (s_sqr_512 dbg a) (fun l => length l = 16%nat /\ Forall u32 l /\ val_l l = sv a * sv a).
Proof.
  destruct a as [a0 a1 a2 a3 a4 a5 a6 a7].
  cbn [s_u sv]. unfold u32x8, u32. intros (?&?&?&?&?&?&?&?).
  unfold s_sqr_512.
  assert (A : aok (0, 0, 0) 0) by (apply aok_mk; unfold av; lia).
  repeat acc_step.
  match goal with |- wp (let '(_, _) := ?c in _) _ => destruct c as [[y0 y1] y2] end.
  match goal with H : aok (y0, y1, y2) _ |- _ => unfold aok, av in H; destruct H as (Y0 & Y1 & Y2 & Y) end.
  unfold u32 in Y0, Y1, Y2.
  assert (y1 = 0 /\ y2 = 0) as [-> ->] by lia.
  apply wp_dassert; [reflexivity|]. acc_step. apply wp_some.
  split; [reflexivity|]. split; [repeat (apply Forall_cons; [unfold u32; assumption|]); apply Forall_nil|].
  cbn [val_l]. unfold val8.
  change (av (y0, 0, 0)) with (y0 + 4294967296 * 0 + 18446744073709551616 * 0) in *.
  change (av (0, 0, 0)) with 0 in *.
  clear Y0 Y1 Y2 Y.
  elim_acc.
  ring.
Qed.

(** 2^256 - n *)
Definition NC : Z := 432420386565659656852420866394968145599.

Ltac ncs := change N_C_0 with 801750719 in *; change N_C_1 with 1076732275 in *;
  change N_C_2 with 1354194884 in *; change N_C_3 with 1162945305 in *; change N_C_4 with 1 in *.

Lemma s_red_a_ok lo hi : length lo = 8%nat -> length hi = 8%nat -> Forall u32 lo -> Forall u32 hi ->
  wp (s_red_a dbg (lo ++ hi)) (fun m => length m = 13%nat /\ Forall u32 m /\ val_l m = val_l lo + val_l hi * NC).
Proof.
  intros L1 L2 F1 F2.
  do 8 (destruct lo as [|? lo]; [discriminate L1|]). destruct lo; [|discriminate L1].
  do 8 (destruct hi as [|? hi]; [discriminate L2|]). destruct hi; [|discriminate L2].
  unfold u32 in F1, F2.
  repeat match goal with F : Forall _ (_ :: _) |- _ => inversion_clear F | F : Forall _ [] |- _ => clear F end.
  cbn [app]. unfold s_red_a. ncs. clear L1 L2.
  refine (wp_let_any _ _ _ _); cbv beta.
  assert (A : aok (z, 0, 0) 4294967295) by (apply aok_mk; unfold av; lia).
  repeat acc_step.
  match goal with |- wp (let '(_, _) := ?c in _) _ => destruct c as [[y0 y1] y2] end.
  match goal with H : aok (y0, y1, y2) _ |- _ => unfold aok, av in H; destruct H as (Y0 & Y1 & Y2 & Y) end.
  unfold u32 in Y0, Y1, Y2.
  assert (y1 = 0 /\ y2 = 0) as [-> ->] by lia. assert (y0 <= 1) by lia.
  apply wp_dassert; [apply Z.leb_le; assumption|]. acc_step. apply wp_some.
  split; [reflexivity|]. split; [repeat (apply Forall_cons; [unfold u32; assumption|]); apply Forall_nil|].
  cbn [val_l].
  change (av (y0, 0, 0)) with (y0 + 4294967296 * 0 + 18446744073709551616 * 0) in *.
  change (av (z, 0, 0)) with (z + 4294967296 * 0 + 18446744073709551616 * 0) in *.
  match goal with H : y0 <= 1 |- _ => clear H end.
  clear Y0 Y1 Y2 Y.
  elim_acc.
  unfold NC. ring.
Qed.

Lemma s_red_b_ok lo hi : length lo = 8%nat -> length hi = 5%nat -> Forall u32 lo -> Forall u32 hi ->
  val_l hi <= NC -> 0 <= val_l lo < 2 ^ 256 ->
  wp (s_red_b dbg (lo ++ hi)) (fun m => length m = 9%nat /\ Forall u32 m /\ val_l m = val_l lo + val_l hi * NC /\
     nth 8 m 0 <= 2).
Proof.
  intros L1 L2 F1 F2 HB LB.
  do 8 (destruct lo as [|? lo]; [discriminate L1|]). destruct lo; [|discriminate L1].
  do 5 (destruct hi as [|? hi]; [discriminate L2|]). destruct hi; [|discriminate L2].
  unfold u32 in F1, F2.
  repeat match goal with F : Forall _ (_ :: _) |- _ => inversion_clear F | F : Forall _ [] |- _ => clear F end.
  cbn [app]. unfold s_red_b. ncs. clear L1 L2.
  assert (0 <= z11 <= 1).
  { split; [lia|]. clear LB. unfold NC in HB. cbn [val_l] in HB. lia. }
  match goal with H : 0 <= z11 <= 4294967295 |- _ => clear H end.
  refine (wp_let_any _ _ _ _); cbv beta.
  assert (A : aok (z, 0, 0) 4294967295) by (apply aok_mk; unfold av; lia).
  repeat acc_step.
  match goal with |- wp (let '(_, _) := ?c in _) _ => destruct c as [[y0 y1] y2] end.
  match goal with H : aok (y0, y1, y2) _ |- _ => unfold aok, av in H; destruct H as (Y0 & Y1 & Y2 & Y) end.
  unfold u32 in Y0, Y1, Y2.
  assert (y1 = 0 /\ y2 = 0) as [-> ->] by lia.
  unfold add32. rewrite uchk_ok by (change (2 ^ 32) with 4294967296; lia). cbn [bind].
  assert (V : val_l [l; l0; l1; l2; l3; l4; l5; l6; y0 + z11] = val_l [z; z0; z1; z2; z3; z4; z5; z6] + val_l [z7; z8; z9; z10; z11] * NC).
  { cbn [val_l]. clear HB LB.
    change (av (y0, 0, 0)) with (y0 + 4294967296 * 0 + 18446744073709551616 * 0) in *.
    change (av (z, 0, 0)) with (z + 4294967296 * 0 + 18446744073709551616 * 0) in *.
    clear Y0 Y1 Y2 Y.
    elim_acc.
    unfold NC. ring. }
  assert (P8 : y0 + z11 <= 2).
  { clear - V HB LB U U0 U1 U2 U3 U4 U5 U6. set (H := val_l [z7; _; _; _; _]) in *. set (Lo := val_l (z :: _)) in *.
    clearbody H Lo. cbn [val_l] in V. change (2 ^ 256) with 115792089237316195423570985008687907853269984665640564039457584007913129639936 in LB.
    unfold NC in *. lia. }
  apply wp_dassert; [apply Z.leb_le; exact P8|]. apply wp_some.
  split; [reflexivity|].
  split; [repeat (apply Forall_cons; [unfold u32; first [assumption | lia]|]); apply Forall_nil|].
  split; [exact V | exact P8].
Qed.
End B.
