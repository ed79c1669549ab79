(** Secret keys, messages, fixed-size signatures, recovery ids. *)
From Coq Require Import Znumtheory.
From Verif Require Import Word MScalar MApi WP ScalarAcc ScalarMul Spec Fp Bits ScalarOps ScalarRed ScalarMore ScalarBits Denote.

Lemma be_val_32 l : length l = 32%nat -> bytes l -> 0 <= be_val l < 2 ^ 256.
Proof. intros L B. pose proof (be_val_range l B) as R. rewrite L in R. exact R. Qed.
Lemma be_bytes_32 l : length l = 32%nat -> bytes l -> be_bytes 32 (be_val l) = l.
Proof. intros L B. rewrite <- L. apply be_bytes_be_val; assumption. Qed.
Lemma val_be_bytes_32 v : 0 <= v < 2 ^ 256 -> be_val (be_bytes 32 v) = v.
Proof. intros H. apply be_val_bytes_id. exact H. Qed.
Ltac vmr := first [vm_compute; reflexivity | vm_compute; split; congruence | vm_compute; congruence].
Ltac nlt := pose proof n_lt; pose proof n_pos.

Lemma sub_array_l (l m : list Z) : length l = 32%nat -> sub_array (l ++ m) 0 32 = l.
Proof. intros L. unfold sub_array. cbn [skipn]. rewrite <- L, firstn_app, Nat.sub_diag, firstn_all. cbn [firstn]. apply app_nil_r. Qed.
Lemma sub_array_r (l m : list Z) : length l = 32%nat -> length m = 32%nat -> sub_array (l ++ m) 32 32 = m.
Proof.
  intros L M. unfold sub_array. replace (skipn 32 (l ++ m)) with m.
  - rewrite <- M. apply firstn_all.
  - rewrite <- L, skipn_app, skipn_all, Nat.sub_diag. reflexivity.
Qed.
Lemma split_64 (l : list Z) : length l = 64%nat -> bytes l -> exists a b, l = a ++ b /\ length a = 32%nat /\ length b = 32%nat /\ bytes a /\ bytes b.
Proof.
  intros L B. exists (firstn 32 l), (skipn 32 l).
  assert (E : firstn 32 l ++ skipn 32 l = l) by apply firstn_skipn.
  unfold bytes in *. rewrite <- E in B. apply Forall_app in B. destruct B as [B1 B2].
  split; [symmetry; exact E|]. rewrite firstn_length, skipn_length, L. auto.
Qed.

(** * C01, C02 *)
(** [SecretKey::parse] accepts exactly the integers 1 .. n-1, and the key is that integer. *)
Lemma C01_seckey_parse_pf : forall dbg b, length b = 32%nat -> bytes b ->
  sk_parse dbg b = Some (if (1 <=? be_val b) && (be_val b <? n) then Ok (scalar_of (be_val b)) else Err InvalidSecretKey).
Proof.
  intros dbg b L B. pose proof (be_val_32 b L B) as R. nlt. unfold sk_parse. rewrite s_set_b32_eq by assumption. cbn [bind].
  destruct (Z.leb_spec n (be_val b)); cbn [negb].
  - rewrite (proj2 (Z.ltb_ge _ _)), andb_false_r by lia. reflexivity.
  - rewrite (proj2 (Z.ltb_lt _ _)), andb_true_r by lia. rewrite Z.mod_small by lia. unfold sk_try_from.
    rewrite s_is_zero_eq by lia. destruct (Z.eqb_spec (be_val b) 0) as [E|E], (Z.leb_spec 1 (be_val b)); try lia; reflexivity.
Qed.
Lemma C01_seckey_parse_example_pf :
  length (repeat 255 32) = 32%nat /\ bytes (repeat 255 32) /\ sk_parse true (repeat 255 32) = Some (Err InvalidSecretKey) /\
  sk_parse true (repeat 0 31 ++ [7]) = Some (Ok (scalar_of 7)) /\ sk_parse false (be_bytes 32 n) = Some (Err InvalidSecretKey) /\
  sk_parse false (be_bytes 32 (n - 1)) = Some (Ok (scalar_of (n - 1))).
Proof. split; [vmr|]. split; [|split; [vmr | split; [vmr | split; vmr]]]. unfold bytes. cbn [repeat]. repeat (apply Forall_cons; [split; [discriminate | reflexivity]|]). apply Forall_nil. Qed.

(** [parse_slice] rejects exactly the lengths other than 32 and otherwise is [parse]. *)
Lemma C01_seckey_parse_slice_pf : forall dbg b, bytes b ->
  (length b <> 32%nat -> sk_parse_slice dbg b = Some (Err InvalidInputLength)) /\
  (length b = 32%nat -> sk_parse_slice dbg b = sk_parse dbg b /\ sk_parse_slice dbg b <> Some (Err InvalidInputLength)).
Proof.
  intros dbg b B. unfold sk_parse_slice. change SECRET_KEY_SIZE with 32%nat. split; intros L.
  - apply Nat.eqb_neq in L. rewrite L. reflexivity.
  - pose proof (C01_seckey_parse_pf dbg b L B) as P. apply Nat.eqb_eq in L. rewrite L. cbn [negb]. split; [reflexivity|].
    rewrite P. destruct (_ && _); discriminate.
Qed.
Lemma C01_seckey_parse_slice_example_pf : sk_parse_slice true [1; 2; 3] = Some (Err InvalidInputLength) /\ sk_parse_slice true [] = Some (Err InvalidInputLength).
Proof. repeat apply conj; vmr. Qed.

(** Serializing a valid key gives the 32-byte big-endian integer, and parsing that gives the key back. *)
Lemma C02_seckey_roundtrip_pf : forall dbg d, 1 <= d < n ->
  sk_serialize (scalar_of d) = be_bytes 32 d /\ sk_parse dbg (sk_serialize (scalar_of d)) = Some (Ok (scalar_of d)).
Proof.
  intros dbg d D. nlt. unfold sk_serialize. rewrite s_b32_eq by lia. split; [reflexivity|].
  rewrite C01_seckey_parse_pf by (apply be_bytes_length || apply be_bytes_bytes). rewrite val_be_bytes_32 by lia.
  rewrite (proj2 (Z.leb_le _ _)), (proj2 (Z.ltb_lt _ _)) by lia. reflexivity.
Qed.
Lemma C02_seckey_roundtrip_example_pf : 1 <= 258 < n /\ sk_serialize (scalar_of 258) = repeat 0 30 ++ [1; 2].
Proof. repeat apply conj; vmr. Qed.

(** Serializing what was parsed gives the input back. *)
Lemma C02_seckey_parse_serialize_pf : forall dbg b k, length b = 32%nat -> bytes b ->
  sk_parse dbg b = Some (Ok k) -> sk_serialize k = b.
Proof.
  intros dbg b k L B. rewrite C01_seckey_parse_pf by assumption. pose proof (be_val_32 b L B).
  destruct (_ && _); [|discriminate]. intros E. injection E as <-. unfold sk_serialize.
  rewrite s_b32_eq by assumption. apply be_bytes_32; assumption.
Qed.
Lemma C02_seckey_parse_serialize_example_pf : exists b k, length b = 32%nat /\ sk_parse true b = Some (Ok k) /\ sk_serialize k = b.
Proof. exists (be_bytes 32 12345), (scalar_of 12345). repeat apply conj; vmr. Qed.

(** Distinct valid keys have distinct serializations. *)
Lemma C02_seckey_injective_pf : forall d e, 1 <= d < n -> 1 <= e < n ->
  sk_serialize (scalar_of d) = sk_serialize (scalar_of e) -> d = e.
Proof.
  intros d e D E H. nlt. unfold sk_serialize in H. rewrite !s_b32_eq in H by lia.
  rewrite <- (val_be_bytes_32 d), <- (val_be_bytes_32 e) by lia. rewrite H. reflexivity.
Qed.
Lemma C02_seckey_injective_example_pf : sk_serialize (scalar_of 1) <> sk_serialize (scalar_of 2).
Proof. repeat apply conj; vmr. Qed.

(** * C08, C09 *)
(** [parse_standard] accepts exactly r, s < n. *)
Lemma C08_sig_parse_standard_pf : forall dbg a b, length a = 32%nat -> length b = 32%nat -> bytes a -> bytes b ->
  sig_parse_standard dbg (a ++ b) =
  Some (if (be_val a <? n) && (be_val b <? n) then Ok (Sig (scalar_of (be_val a)) (scalar_of (be_val b))) else Err InvalidSignature).
Proof.
  intros dbg a b La Lb Ba Bb. pose proof (be_val_32 a La Ba). pose proof (be_val_32 b Lb Bb). nlt.
  unfold sig_parse_standard. rewrite app_length, La, Lb. change (negb (32 + 32 =? SIGNATURE_SIZE)%nat) with false. cbv iota.
  rewrite sub_array_l, sub_array_r by assumption. rewrite !s_set_b32_eq by assumption. cbn [bind].
  destruct (Z.leb_spec n (be_val a)), (Z.leb_spec n (be_val b)); cbn [orb];
    destruct (Z.ltb_spec (be_val a) n), (Z.ltb_spec (be_val b) n); try lia; try reflexivity.
  rewrite !Z.mod_small by lia. reflexivity.
Qed.
Lemma C08_sig_parse_standard_example_pf :
  sig_parse_standard true (be_bytes 32 5 ++ be_bytes 32 (n - 1)) = Some (Ok (Sig (scalar_of 5) (scalar_of (n - 1)))) /\
  sig_parse_standard true (be_bytes 32 5 ++ be_bytes 32 n) = Some (Err InvalidSignature).
Proof. repeat apply conj; vmr. Qed.

(** [parse_standard] and [serialize] are mutually inverse. *)
Lemma C08_sig_roundtrip_pf : forall dbg r s, 0 <= r < n -> 0 <= s < n ->
  sig_serialize (Sig (scalar_of r) (scalar_of s)) = be_bytes 32 r ++ be_bytes 32 s /\
  sig_parse_standard dbg (sig_serialize (Sig (scalar_of r) (scalar_of s))) = Some (Ok (Sig (scalar_of r) (scalar_of s))).
Proof.
  intros dbg r s R S. nlt. unfold sig_serialize. cbn [sig_r sig_s]. rewrite !s_b32_eq by lia. split; [reflexivity|].
  rewrite C08_sig_parse_standard_pf by (apply be_bytes_length || apply be_bytes_bytes). rewrite !val_be_bytes_32 by lia.
  rewrite !(proj2 (Z.ltb_lt _ _)) by lia. reflexivity.
Qed.
Lemma C08_sig_roundtrip_example_pf : 0 <= 3 < n /\ 0 <= n - 1 < n /\ length (sig_serialize (Sig (scalar_of 3) (scalar_of (n - 1)))) = 64%nat.
Proof. repeat apply conj; vmr. Qed.
Lemma C08_sig_parse_serialize_pf : forall dbg b g, length b = 64%nat -> bytes b ->
  sig_parse_standard dbg b = Some (Ok g) -> sig_serialize g = b.
Proof.
  intros dbg b g L B. destruct (split_64 b L B) as (x & y & -> & Lx & Ly & Bx & By).
  rewrite C08_sig_parse_standard_pf by assumption. destruct (_ && _); [|discriminate]. intros E. injection E as <-.
  unfold sig_serialize. cbn [sig_r sig_s]. rewrite !s_b32_eq by (apply be_val_32; assumption). rewrite !be_bytes_32 by assumption. reflexivity.
Qed.
Lemma C08_sig_parse_serialize_example_pf : exists b g, length b = 64%nat /\ sig_parse_standard true b = Some (Ok g).
Proof. exists (be_bytes 32 77 ++ be_bytes 32 99), (Sig (scalar_of 77) (scalar_of 99)). repeat apply conj; vmr. Qed.

(** The slice versions reject exactly the lengths other than 64. *)
Lemma C08_sig_slices_pf : forall dbg b, bytes b ->
  (length b <> 64%nat -> sig_parse_standard_slice dbg b = Some (Err InvalidInputLength) /\ sig_parse_overflowing_slice dbg b = Some (Err InvalidInputLength)) /\
  (length b = 64%nat -> sig_parse_standard_slice dbg b = sig_parse_standard dbg b /\ sig_parse_standard_slice dbg b <> Some (Err InvalidInputLength)
     /\ exists g, sig_parse_overflowing dbg b = Some g /\ sig_parse_overflowing_slice dbg b = Some (Ok g)).
Proof.
  intros dbg b B. unfold sig_parse_standard_slice, sig_parse_overflowing_slice. change SIGNATURE_SIZE with 64%nat. split; intros L.
  - apply Nat.eqb_neq in L. rewrite L. split; reflexivity.
  - destruct (split_64 b L B) as (x & y & -> & Lx & Ly & Bx & By).
    rewrite (proj2 (Nat.eqb_eq _ _) L). cbn [negb]. split; [reflexivity|]. split.
    + rewrite C08_sig_parse_standard_pf by assumption. destruct (_ && _); discriminate.
    + unfold sig_parse_overflowing. change SIGNATURE_SIZE with 64%nat. rewrite (proj2 (Nat.eqb_eq _ _) L). cbn [negb].
      rewrite sub_array_l, sub_array_r by assumption. rewrite !s_set_b32_eq by assumption. cbn [bind]. eexists. split; reflexivity.
Qed.
Lemma C08_sig_slices_example_pf : sig_parse_standard_slice true (repeat 1 63) = Some (Err InvalidInputLength).
Proof. repeat apply conj; vmr. Qed.

(** [parse_overflowing] reduces both halves modulo n. *)
Lemma C09_sig_parse_overflowing_pf : forall dbg a b, length a = 32%nat -> length b = 32%nat -> bytes a -> bytes b ->
  sig_parse_overflowing dbg (a ++ b) = Some (Sig (scalar_of (be_val a mod n)) (scalar_of (be_val b mod n))).
Proof.
  intros dbg a b La Lb Ba Bb. unfold sig_parse_overflowing. rewrite app_length, La, Lb. change (negb (32 + 32 =? SIGNATURE_SIZE)%nat) with false. cbv iota.
  rewrite sub_array_l, sub_array_r by assumption. rewrite !s_set_b32_eq by assumption. reflexivity.
Qed.
Lemma C09_sig_parse_overflowing_example_pf : sig_parse_overflowing true (be_bytes 32 (n + 5) ++ be_bytes 32 n) = Some (Sig (scalar_of 5) (scalar_of 0)).
Proof. repeat apply conj; vmr. Qed.
Lemma C09_overflowing_extends_standard_pf : forall dbg b g, length b = 64%nat -> bytes b ->
  sig_parse_standard dbg b = Some (Ok g) -> sig_parse_overflowing dbg b = Some g.
Proof.
  intros dbg b g L B. destruct (split_64 b L B) as (x & y & -> & Lx & Ly & Bx & By).
  rewrite C08_sig_parse_standard_pf, C09_sig_parse_overflowing_pf by assumption.
  pose proof (be_val_32 x Lx Bx). pose proof (be_val_32 y Ly By).
  destruct (Z.ltb_spec (be_val x) n), (Z.ltb_spec (be_val y) n); cbn [andb]; try discriminate.
  intros E. injection E as <-. rewrite !Z.mod_small by lia. reflexivity.
Qed.
Lemma C09_overflowing_extends_standard_example_pf : exists b g, length b = 64%nat /\ sig_parse_standard true b = Some (Ok g) /\ sig_parse_overflowing true b = Some g.
Proof. exists (be_bytes 32 77 ++ be_bytes 32 99), (Sig (scalar_of 77) (scalar_of 99)). repeat apply conj; vmr. Qed.

(** * C10 *)
Lemma C10_message_parse_pf : forall dbg b, length b = 32%nat -> bytes b ->
  msg_parse dbg b = Some (scalar_of (be_val b mod n)) /\ msg_serialize (scalar_of (be_val b mod n)) = be_bytes 32 (be_val b mod n).
Proof.
  intros dbg b L B. nlt. pose proof (modn_range (be_val b)). unfold msg_parse, msg_serialize. rewrite s_set_b32_eq by assumption. split; [reflexivity|].
  apply s_b32_eq. lia.
Qed.
Lemma C10_message_parse_example_pf : msg_parse true (be_bytes 32 (n + 9)) = Some (scalar_of 9) /\ msg_parse true (be_bytes 32 9) = Some (scalar_of 9).
Proof. repeat apply conj; vmr. Qed.
(** Two 32-byte strings are the same message exactly when they are congruent modulo n. *)
Lemma C10_message_collision_pf : forall dbg a b, length a = 32%nat -> length b = 32%nat -> bytes a -> bytes b ->
  (msg_parse dbg a = msg_parse dbg b <-> be_val a mod n = be_val b mod n).
Proof.
  intros dbg a b La Lb Ba Bb. nlt. destruct (C10_message_parse_pf dbg a La Ba) as [-> _], (C10_message_parse_pf dbg b Lb Bb) as [-> _].
  pose proof (modn_range (be_val a)). pose proof (modn_range (be_val b)). split.
  - intros E. assert (scalar_of (be_val a mod n) = scalar_of (be_val b mod n)) as E' by congruence. apply scalar_of_inj in E'; lia.
  - intros ->. reflexivity.
Qed.
Lemma C10_message_collision_example_pf : msg_parse true (be_bytes 32 (n + 9)) = msg_parse true (be_bytes 32 9) /\ msg_parse true (be_bytes 32 8) <> msg_parse true (be_bytes 32 9).
Proof. repeat apply conj; vmr. Qed.
Lemma C10_message_slice_pf : forall dbg b, bytes b ->
  msg_parse_slice dbg b = Some (if (length b =? 32)%nat then Ok (scalar_of (be_val b mod n)) else Err InvalidInputLength).
Proof.
  intros dbg b B. unfold msg_parse_slice. change MESSAGE_SIZE with 32%nat. destruct (Nat.eqb_spec (length b) 32); [|reflexivity].
  cbn [negb]. destruct (C10_message_parse_pf dbg b e B) as [-> _]. reflexivity.
Qed.
Lemma C10_message_slice_example_pf : msg_parse_slice false [] = Some (Err InvalidInputLength).
Proof. repeat apply conj; vmr. Qed.

(** * C11 *)
Lemma C11_recovery_id_pf : forall v, 0 <= v < 256 ->
  rid_parse v = (if v <=? 3 then Ok v else Err InvalidRecoveryId) /\
  rid_parse_rpc v = (if (27 <=? v) && (v <=? 30) then Ok (v - 27) else Err InvalidRecoveryId) /\
  (forall i, rid_parse v = Ok i -> rid_serialize i = v).
Proof.
  intros v V. unfold rid_parse_rpc, rid_parse, rid_serialize. split; [|split].
  - destruct (Z.ltb_spec v 4), (Z.leb_spec v 3); try lia; reflexivity.
  - destruct (Z.leb_spec 27 v), (Z.ltb_spec v 31), (Z.leb_spec v 30); try lia; cbn [andb]; try reflexivity.
    destruct (Z.ltb_spec (v - 27) 4); [reflexivity | lia].
  - intros i. destruct (v <? 4); [|discriminate]. intros E. injection E as <-. reflexivity.
Qed.
Lemma C11_recovery_id_example_pf : rid_parse 3 = Ok 3 /\ rid_parse 4 = Err InvalidRecoveryId /\ rid_parse_rpc 28 = Ok 1 /\ rid_parse_rpc 31 = Err InvalidRecoveryId.
Proof. repeat apply conj; vmr. Qed.

(** * C18 *)
(** hexadecimal text of a byte string *)
Definition hex_text (l : list Z) : list Z := flat_map (fun b => [nth (Z.to_nat (b / 16)) [48;49;50;51;52;53;54;55;56;57;97;98;99;100;101;102] 0; nth (Z.to_nat (b mod 16)) [48;49;50;51;52;53;54;55;56;57;97;98;99;100;101;102] 0]) l.
Lemma hex_digit_ok v : 0 <= v < 16 -> hex_digit v = nth (Z.to_nat v) [48;49;50;51;52;53;54;55;56;57;97;98;99;100;101;102] 0.
Proof.
  intros H. assert (v = 0 \/ v = 1 \/ v = 2 \/ v = 3 \/ v = 4 \/ v = 5 \/ v = 6 \/ v = 7 \/ v = 8 \/ v = 9 \/ v = 10 \/ v = 11 \/ v = 12 \/ v = 13 \/ v = 14 \/ v = 15) as C by lia.
  repeat (destruct C as [C|C]; [rewrite C; reflexivity|]). rewrite C. reflexivity.
Qed.
Lemma hex_bytes_ok l : bytes l -> flat_map hex_byte l = hex_text l.
Proof.
  intros B. induction B as [|b t Hb _ IH]; [reflexivity|]. unfold hex_text. cbn [flat_map]. fold (hex_text t). rewrite IH.
  unfold hex_byte. rewrite !hex_digit_ok; [reflexivity | apply Z.mod_pos_bound; reflexivity | Z.to_euclidean_division_equations; lia].
Qed.
(** [format!("{:x}", key)] is not the hexadecimal form of the serialized key. *)
Lemma C18_lower_hex_refuted_pf : exists d, 1 <= d < n /\ sk_lower_hex (scalar_of d) <> hex_text (sk_serialize (scalar_of d)).
Proof. exists 1. split; [split; [discriminate | reflexivity] |]. discriminate. Qed.
(** What it prints: the eight 32-bit words of the key, least significant word first, each in hexadecimal. *)
Lemma C18_lower_hex_exact_pf : forall d, 0 <= d < n ->
  sk_lower_hex (scalar_of d) = flat_map (fun k => hex_text (be_bytes 4 ((d / 2 ^ (32 * Z.of_nat k)) mod 2 ^ 32))) (seq 0 8).
Proof.
  intros d D. unfold sk_lower_hex. rewrite s_lower_hex_ok by apply scalar_of_u. rewrite scalar_of_val by exact D.
  apply flat_map_ext. intros k. apply hex_bytes_ok, be_bytes_bytes.
Qed.
Lemma C18_lower_hex_exact_example_pf : sk_lower_hex (scalar_of (2 ^ 32 * 171 + 1)) = [48;48;48;48;48;48;48;49; 48;48;48;48;48;48;97;98] ++ repeat 48 48.
Proof. repeat apply conj; vmr. Qed.

(** * C19, C20 *)
Notation halfn := ((n - 1) / 2).
Lemma half_n : n = 2 * halfn + 1 /\ 0 < halfn. Proof. split; vmr. Qed.
Lemma neg_mod_n s : 0 < s < n -> (- s) mod n = n - s.
Proof. intros. symmetry. apply (Z.mod_unique _ _ (-1)); lia. Qed.
(** For every s other than (n-1)/2: the result is the low one of s and n-s. *)
Lemma C19_normalize_low_pf : forall dbg r s, 0 <= r < n -> 0 <= s < n -> s <> (n - 1) / 2 ->
  exists s', sig_normalize_s dbg (Sig (scalar_of r) (scalar_of s)) = Some (Sig (scalar_of r) (scalar_of s')) /\
    0 <= s' <= (n - 1) / 2 /\ (s' = s \/ s' = n - s).
Proof.
  intros dbg r s R S NE. nlt. pose proof half_n as [HN HP]. unfold sig_normalize_s. cbn [sig_s sig_r].
  rewrite s_is_high_eq by lia. destruct (Z.leb_spec halfn s).
  - rewrite s_neg_eq by exact S. cbn [bind]. rewrite neg_mod_n by lia. eexists. split; [reflexivity|]. split; [lia | right; reflexivity].
  - eexists. split; [reflexivity|]. split; [lia | left; reflexivity].
Qed.
Lemma C19_normalize_low_example_pf : n - 5 <> (n - 1) / 2 /\ sig_normalize_s true (Sig (scalar_of 1) (scalar_of (n - 5))) = Some (Sig (scalar_of 1) (scalar_of 5)).
Proof. repeat apply conj; vmr. Qed.
(** At s = (n-1)/2, already low, the result is (n+1)/2, which is high. *)
Lemma C19_normalize_low_refuted_pf : exists r s, 1 <= r < n /\ 1 <= s <= (n - 1) / 2 /\
  forall dbg, sig_normalize_s dbg (Sig (scalar_of r) (scalar_of s)) = Some (Sig (scalar_of r) (scalar_of (n - s))) /\ n - s > (n - 1) / 2.
Proof.
  exists 1, halfn. split; [split; vmr|]. split; [split; vmr|]. intros dbg.
  split; [destruct dbg|]; vmr.
Qed.
Lemma C20_normalize_idempotent_pf : forall dbg r s g, 0 <= r < n -> 0 <= s < n -> s <> (n - 1) / 2 -> s <> (n + 1) / 2 ->
  sig_normalize_s dbg (Sig (scalar_of r) (scalar_of s)) = Some g -> sig_normalize_s dbg g = Some g.
Proof.
  intros dbg r s g R S N1 N2. nlt. pose proof half_n as [HN HP]. assert (H2 : (n + 1) / 2 = halfn + 1) by reflexivity. rewrite H2 in N2.
  unfold sig_normalize_s at 1. cbn [sig_s sig_r].
  rewrite s_is_high_eq by lia. destruct (Z.leb_spec halfn s).
  - rewrite s_neg_eq by exact S. cbn [bind]. rewrite neg_mod_n by lia. intros E. injection E as <-.
    unfold sig_normalize_s. cbn [sig_s sig_r]. rewrite s_is_high_eq by lia. rewrite (proj2 (Z.leb_gt _ _)) by lia. reflexivity.
  - intros E. injection E as <-. unfold sig_normalize_s. cbn [sig_s sig_r]. rewrite s_is_high_eq by lia. rewrite (proj2 (Z.leb_gt _ _)) by lia. reflexivity.
Qed.
Lemma C20_normalize_idempotent_example_pf : exists g, sig_normalize_s true (Sig (scalar_of 9) (scalar_of (n - 3))) = Some g /\ sig_normalize_s true g = Some g.
Proof. exists (Sig (scalar_of 9) (scalar_of 3)). repeat apply conj; vmr. Qed.
(** Both middle values bounce between each other for ever. *)
Lemma C20_normalize_idempotent_refuted_pf : exists s, forall dbg r, 0 <= r < n ->
  sig_normalize_s dbg (Sig (scalar_of r) (scalar_of s)) = Some (Sig (scalar_of r) (scalar_of (s + 1))) /\
  sig_normalize_s dbg (Sig (scalar_of r) (scalar_of (s + 1))) = Some (Sig (scalar_of r) (scalar_of s)).
Proof. exists halfn. intros dbg r R. nlt. pose proof half_n as [HN HP]. unfold sig_normalize_s. cbn [sig_s sig_r]. rewrite !s_is_high_eq by lia.
  rewrite !(proj2 (Z.leb_le _ _)) by lia. rewrite !s_neg_eq by lia. rewrite !neg_mod_n by lia. cbn [bind]. split; do 3 f_equal; lia. Qed.

(** * C32, C33 *)
Lemma C32_secret_tweak_add_pf : forall dbg d t, 1 <= d < n -> 1 <= t < n ->
  sk_tweak_add_assign dbg (scalar_of d) (scalar_of t) =
  Some (if d + t =? n then (scalar_of d, Err TweakOutOfRange) else (scalar_of ((d + t) mod n), Ok tt)) /\
  (d + t <> n -> 1 <= (d + t) mod n < n).
Proof.
  intros dbg d t D T. nlt. unfold sk_tweak_add_assign. rewrite s_add_eq by lia. cbn [bind]. pose proof (modn_range (d + t)).
  assert (E : (d + t) mod n = 0 <-> d + t = n).
  { split; [|intros ->; apply Z.mod_same; lia]. intros E0. apply Z.mod_divide in E0; [|lia]. destruct E0 as [q Hq]. assert (q = 1) by nia. subst q. lia. }
  rewrite s_is_zero_eq by lia. split.
  - destruct (Z.eqb_spec ((d + t) mod n) 0) as [E1|E1], (Z.eqb_spec (d + t) n) as [E2|E2]; try reflexivity; exfalso; tauto.
  - intros NE. assert ((d + t) mod n <> 0) by tauto. lia.
Qed.
Lemma C32_secret_tweak_add_example_pf : sk_tweak_add_assign true (scalar_of 3) (scalar_of (n - 3)) = Some (scalar_of 3, Err TweakOutOfRange) /\
  sk_tweak_add_assign true (scalar_of 3) (scalar_of (n - 1)) = Some (scalar_of 2, Ok tt).
Proof. repeat apply conj; vmr. Qed.

Lemma mul_mod_n_nz d t : 1 <= d < n -> 1 <= t < n -> 1 <= (d * t) mod n < n.
Proof.
  intros D T. nlt. pose proof (modn_range (d * t)). assert ((d * t) mod n <> 0); [|lia].
  intros E. apply Z.mod_divide in E; [|lia]. apply prime_mult in E; [|exact prime_n].
  destruct E as [E|E]; apply Z.divide_pos_le in E; lia.
Qed.
Lemma inv_n d : 1 <= d < n -> (inv_mod n d * d) mod n = 1.
Proof. intros D. apply inv_mod_ok; [exact prime_n | apply n_lt_2_256 | rewrite Z.mod_small; lia]. Qed.
Lemma inv_n_range d : 1 <= d < n -> 1 <= inv_mod n d < n.
Proof.
  intros D. nlt. pose proof (inv_mod_range n d ltac:(lia)) as R. pose proof (inv_n d D) as I.
  assert (inv_mod n d <> 0); [|lia]. intros E. rewrite E, Z.mul_0_l, Z.mod_0_l in I by lia. discriminate.
Qed.
Lemma inv_n_unique d e : 1 <= d < n -> 0 <= e < n -> (e * d) mod n = 1 -> e = inv_mod n d.
Proof.
  intros D E H1. nlt. pose proof (inv_n d D) as I. pose proof (inv_n_range d D) as R.
  rewrite <- (Z.mod_small e n), <- (Z.mod_small (inv_mod n d) n) by lia.
  transitivity ((e * (inv_mod n d * d)) mod n).
  - rewrite <- Zmult_mod_idemp_r, I, Z.mul_1_r. reflexivity.
  - replace (e * (inv_mod n d * d)) with (e * d * inv_mod n d) by ring. rewrite <- Zmult_mod_idemp_l, H1, Z.mul_1_l. reflexivity.
Qed.
Lemma C33_secret_tweak_mul_pf : forall dbg d t, 1 <= d < n -> 1 <= t < n ->
  sk_tweak_mul_assign dbg (scalar_of d) (scalar_of t) = Some (scalar_of ((d * t) mod n), Ok tt) /\ 1 <= (d * t) mod n < n.
Proof.
  intros dbg d t D T. nlt. unfold sk_tweak_mul_assign. rewrite s_is_zero_eq by lia. rewrite (proj2 (Z.eqb_neq _ _)) by lia.
  rewrite s_mul_eq by lia. split; [reflexivity | apply mul_mod_n_nz; assumption].
Qed.
Lemma C33_secret_tweak_mul_example_pf : sk_tweak_mul_assign true (scalar_of 2) (scalar_of ((n + 1) / 2)) = Some (scalar_of 1, Ok tt) /\ 1 <= (n + 1) / 2 < n.
Proof. repeat apply conj; vmr. Qed.
(** A cleared (zero) tweak is rejected and the key is unchanged. *)
Lemma C33_secret_tweak_mul_zero_pf : forall dbg k, sk_tweak_mul_assign dbg k (sk_clear k) = Some (k, Err TweakOutOfRange).
Proof. reflexivity. Qed.
Lemma C33_secret_inv_pf : forall dbg d, 1 <= d < n ->
  exists e, sk_inv dbg (scalar_of d) = Some (scalar_of e) /\ 1 <= e < n /\ (e * d) mod n = 1 /\ sk_inv dbg (scalar_of e) = Some (scalar_of d).
Proof.
  intros dbg d D. nlt. exists (inv_mod n d). pose proof (inv_n_range d D) as R. unfold sk_inv.
  rewrite !s_inv_eq by lia. split; [reflexivity|]. split; [exact R|]. split; [apply inv_n, D|].
  do 2 f_equal. symmetry. apply inv_n_unique; [exact R | lia | rewrite Z.mul_comm; apply inv_n, D].
Qed.
Lemma C33_secret_inv_example_pf : sk_inv true (scalar_of 2) = Some (scalar_of ((n + 1) / 2)).
Proof.
  unfold sk_inv. assert (R : 1 <= (n + 1) / 2 < n) by (split; vmr). nlt. rewrite s_inv_eq by lia.
  rewrite <- (inv_n_unique 2 ((n + 1) / 2)); [reflexivity | split; vmr | lia | vmr].
Qed.
(** Multiplying by t and then by the inverse of t restores the key. *)
Lemma C33_secret_tweak_mul_undo_pf : forall dbg d t, 1 <= d < n -> 1 <= t < n ->
  exists k1 ti, sk_tweak_mul_assign dbg (scalar_of d) (scalar_of t) = Some (k1, Ok tt) /\ sk_inv dbg (scalar_of t) = Some ti /\
    sk_tweak_mul_assign dbg k1 ti = Some (scalar_of d, Ok tt).
Proof.
  intros dbg d t D T. nlt. exists (scalar_of ((d * t) mod n)), (scalar_of (inv_mod n t)).
  split; [apply C33_secret_tweak_mul_pf; assumption|]. split; [unfold sk_inv; apply s_inv_eq; lia|].
  destruct (C33_secret_tweak_mul_pf dbg ((d * t) mod n) (inv_mod n t) (mul_mod_n_nz d t D T) (inv_n_range t T)) as [-> _].
  do 3 f_equal. rewrite Zmult_mod_idemp_l. replace (d * t * inv_mod n t) with (d * (inv_mod n t * t)) by ring.
  rewrite <- Zmult_mod_idemp_r, inv_n, Z.mul_1_r, Z.mod_small by (assumption || lia). reflexivity.
Qed.
Lemma C33_secret_tweak_mul_undo_example_pf : 1 <= 5 < n /\ 1 <= 7 < n /\ sk_tweak_mul_assign true (scalar_of 5) (scalar_of 7) = Some (scalar_of 35, Ok tt).
Proof. repeat apply conj; vmr. Qed.

(** * C39 *)
Lemma C39_default_pf : forall dbg, sk_default dbg = Some (scalar_of 1).
Proof. intros []; reflexivity. Qed.
(** [random] skips the unusable blocks and returns the first usable one. *)
Lemma C39_random_pf : forall dbg rng i k fuel, (forall j, (j <= k)%nat -> length (rng (i + j)%nat) = 32%nat /\ bytes (rng (i + j)%nat)) ->
  (forall j, (j < k)%nat -> be_val (rng (i + j)%nat) = 0 \/ n <= be_val (rng (i + j)%nat)) ->
  1 <= be_val (rng (i + k)%nat) < n -> (k < fuel)%nat ->
  sk_random dbg fuel rng i = Done (scalar_of (be_val (rng (i + k)%nat))).
Proof.
  intros dbg rng i k. revert i. induction k as [|k IH]; intros i fuel B Bad Good F.
  - destruct fuel as [|f]; [lia|]. cbn [sk_random]. destruct (B 0%nat ltac:(lia)) as [L Bt]. rewrite Nat.add_0_r in *.
    rewrite C01_seckey_parse_pf by assumption. rewrite (proj2 (Z.leb_le _ _)), (proj2 (Z.ltb_lt _ _)) by lia. reflexivity.
  - destruct fuel as [|f]; [lia|]. cbn [sk_random]. destruct (B 0%nat ltac:(lia)) as [L Bt]. pose proof (Bad 0%nat ltac:(lia)) as Bd. rewrite Nat.add_0_r in *.
    rewrite C01_seckey_parse_pf by assumption.
    assert (E : (1 <=? be_val (rng i)) && (be_val (rng i) <? n) = false).
    { apply andb_false_iff. destruct Bd as [Bd|Bd]; [left; apply Z.leb_gt; lia | right; apply Z.ltb_ge; lia]. }
    rewrite E. rewrite <- plus_n_Sm, <- plus_Sn_m in *. apply IH; [| |assumption|lia].
    + intros j J. specialize (B (S j) ltac:(lia)). rewrite <- plus_n_Sm, <- plus_Sn_m in B. exact B.
    + intros j J. specialize (Bad (S j) ltac:(lia)). rewrite <- plus_n_Sm, <- plus_Sn_m in Bad. exact Bad.
Qed.
Lemma C39_random_example_pf : let rng := fun i : nat => match i with O => repeat 255 32 | S O => repeat 0 32 | _ => repeat 1 32 end in
  sk_random true 3 rng 0 = Done (scalar_of (be_val (repeat 1 32))).
Proof. repeat apply conj; vmr. Qed.
(** Whatever the generator returns, a key that [random] returns is valid; it never panics. *)
Lemma C39_random_valid_pf : forall dbg rng i fuel, (forall j, length (rng j) = 32%nat /\ bytes (rng j)) ->
  sk_random dbg fuel rng i = Running \/ exists d, 1 <= d < n /\ sk_random dbg fuel rng i = Done (scalar_of d).
Proof.
  intros dbg rng i fuel B. revert i. induction fuel as [|f IH]; intros i; [left; reflexivity|]. cbn [sk_random].
  destruct (B i) as [L Bt]. rewrite C01_seckey_parse_pf by assumption.
  destruct (Z.leb_spec 1 (be_val (rng i))), (Z.ltb_spec (be_val (rng i)) n); cbn [andb]; try apply IH.
  right. exists (be_val (rng i)). split; [lia | reflexivity].
Qed.
Lemma C39_random_valid_example_pf : sk_random true 3 (fun _ => repeat 255 32) 0 = Running.
Proof. repeat apply conj; vmr. Qed.
Lemma C39_clear_pf : forall k, s_is_zero (sk_clear k) = true /\ sk_serialize (sk_clear k) = repeat 0 32.
Proof. intros k. split; reflexivity. Qed.

(** * C41 *)
(** The limbs of n are accepted although they denote a value outside [1, n-1]; the same key is refused by [parse]. *)
Lemma C41_try_from_refuted_pf : exists s, s_u s /\ sk_try_from s = Ok s /\ sv s = n /\ sk_parse true (sk_serialize s) = Some (Err InvalidSecretKey).
Proof. exists (scalar_of n). split; [apply scalar_of_u|]. repeat apply conj; vmr. Qed.
Lemma C41_try_from_canonical_pf : forall v, 0 <= v < n -> sk_try_from (scalar_of v) = if v =? 0 then Err InvalidSecretKey else Ok (scalar_of v).
Proof. intros v V. nlt. unfold sk_try_from. rewrite s_is_zero_eq by lia. reflexivity. Qed.
Lemma C41_try_from_canonical_example_pf : sk_try_from (scalar_of 0) = Err InvalidSecretKey /\ sk_try_from (scalar_of 5) = Ok (scalar_of 5).
Proof. repeat apply conj; vmr. Qed.
