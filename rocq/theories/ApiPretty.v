(** The alternate debug texts [{:#?}] compared with the plain ones. *)
From Coq Require Import String Ascii.
From Verif Require Import Word MField MScalar MGroup MGenSrc MApi MDebug MPretty WP FieldMul FieldNorm FieldZero Spec Fp Bits FieldOps FieldCodec FieldStore ScalarAcc ScalarMul ScalarOps Denote Curve Group Chain Order Jac JacOps Lift Key Ctx ApiScalar ApiPub ApiGroup ApiArith ApiMore ApiGen ApiDebug.
Open Scope string_scope.
Open Scope list_scope.
Open Scope Z_scope.

(** * Specification *)

Definition blank (c : ascii) : bool := Ascii.eqb c " " || Ascii.eqb c nl.
Definition closes (s : string) : bool := match s with String c _ => Ascii.eqb c ")" || Ascii.eqb c "]" || Ascii.eqb c "}" | _ => false end.
(** [essence s r]: the text [s] followed by [r], without the blanks and newlines of [s] and without its commas in front of a closing bracket *)
Fixpoint essence (s r : string) : string :=
  match s with
  | EmptyString => r
  | String c t => let q := essence t r in if blank c then q else if Ascii.eqb c "," && closes q then q else String c q
  end.

(** * Trees *)

Section Ind.
Variable P : dtree -> Prop.
Hypothesis Hn : forall v, P (DNum v).
Hypothesis Hw : forall s, P (DWord s).
Hypothesis Ht : forall name l, Forall P l -> P (DTuple name l).
Hypothesis Hs : forall name l, Forall (fun x => P (snd x)) l -> P (DStruct name l).
Hypothesis Hl : forall l, Forall P l -> P (DList l).
Fixpoint dtree_all (t : dtree) : P t :=
  match t with
  | DNum v => Hn v
  | DWord s => Hw s
  | DTuple name l => Ht name l ((fix go l := match l return Forall P l with [] => Forall_nil _ | x :: r => Forall_cons _ (dtree_all x) (go r) end) l)
  | DStruct name l => Hs name l ((fix go l := match l return Forall (fun x => P (snd x)) l with [] => Forall_nil _ | x :: r => Forall_cons _ (dtree_all (snd x)) (go r) end) l)
  | DList l => Hl l ((fix go l := match l return Forall P l with [] => Forall_nil _ | x :: r => Forall_cons _ (dtree_all x) (go r) end) l)
  end.
End Ind.

Lemma ess_app a b r : essence (a ++ b) r = essence a (essence b r).
Proof. induction a as [|c a IH]; [reflexivity|]. change ((String c a ++ b)%string) with (String c (a ++ b)). cbn [essence]. rewrite IH. reflexivity. Qed.
Lemma ess_pad s r : forall b, essence (pad b s) r = essence s r.
Proof.
  induction s as [|c s IH]; intros b; [reflexivity|]. cbn [pad]. rewrite ess_app.
  replace (essence (if b then "    " else "") (essence (String c (pad (Ascii.eqb c nl) s)) r)) with (essence (String c (pad (Ascii.eqb c nl) s)) r) by (destruct b; reflexivity).
  cbn [essence]. rewrite IH. reflexivity.
Qed.
(** rows before a closing bracket and texts separated by commas have the same essence *)
Lemma ess_rows l l' r : closes r = true -> Forall2 (fun x y => forall q, essence x q = essence y q) l l' -> l <> [] -> essence (rows l) r = essence (commas l') r.
Proof.
  intros C H. induction H as [|x y l l' E H IH]; intros N; [congruence|]. cbn [rows]. rewrite ess_app, ess_pad, ess_app.
  change (essence (String "," (String nl "")) ?q) with (if closes q then q else String "," q).
  destruct H as [|x' y' l l' E' H].
  - cbn [rows commas essence]. rewrite C. apply E.
  - rewrite IH by congruence. change (commas (y :: y' :: l')) with (y ++ ", " ++ commas (y' :: l'))%string. rewrite !ess_app, E. reflexivity.
Qed.
Lemma map_rel {A} (f g : A -> string) l : Forall (fun x => forall q, essence (f x) q = essence (g x) q) l ->
  Forall2 (fun x y => forall q, essence x q = essence y q) (map f l) (map g l).
Proof. induction 1; cbn [map]; constructor; auto. Qed.
Lemma pretty_ess t : forall r, essence (pretty t) r = essence (plain t) r.
Proof.
  induction t as [v|s|name l IH|name l IH|l IH] using dtree_all; intros r; try reflexivity.
  - cbn [pretty plain]. rewrite !ess_app. f_equal. destruct l as [|x l]; [reflexivity|].
    rewrite !ess_app. f_equal. change (String nl ?s) with (String nl "" ++ s)%string. rewrite ess_app.
    change (essence (String nl "") ?q) with q. apply ess_rows; [reflexivity | apply map_rel, IH | discriminate].
  - cbn [pretty plain]. rewrite !ess_app. f_equal. destruct l as [|x l]; [reflexivity|].
    rewrite !ess_app. change (String nl ?s) with (String nl "" ++ s)%string. rewrite ess_app.
    change (essence (String nl "") ?q) with q. change (essence " {" ?q) with (String "{" q). change (essence " { " ?q) with (String "{" q). f_equal.
    change (essence " }" r) with (essence "}" r). apply ess_rows; [reflexivity | apply map_rel | discriminate].
    eapply Forall_impl; [|exact IH]. intros [a b] H q. cbn [fst snd] in *. rewrite !ess_app, H. reflexivity.
  - cbn [pretty plain]. destruct l as [|x l]; [reflexivity|].
    rewrite !ess_app. f_equal. change (String nl ?s) with (String nl "" ++ s)%string. rewrite ess_app.
    change (essence (String nl "") ?q) with q. apply ess_rows; [reflexivity | apply map_rel, IH | discriminate].
Qed.

(** ** numbers *)
Definition is_digit (c : ascii) : bool := let k := Z.of_nat (nat_of_ascii c) - 48 in (0 <=? k) && (k <? 10).
Fixpoint no_digit (s : string) : bool := match s with EmptyString => true | String c t => negb (is_digit c) && no_digit t end.
Definition stops (s : string) : Prop := match s with EmptyString => True | String c _ => is_digit c = false end.
Lemma num_word s t : no_digit s = true -> numbers_from (s ++ t)%string None = numbers_from t None.
Proof.
  induction s as [|c s IH]; intros H; [reflexivity|]. cbn [no_digit] in H. apply andb_prop in H. destruct H as [H1 H2].
  change ((String c s ++ t)%string) with (String c (s ++ t)). cbn [numbers_from]. apply negb_true_iff in H1. unfold is_digit in H1. rewrite H1. cbn [flush_num app]. apply IH, H2.
Qed.
Lemma num_dec v t : u32b v -> stops t -> numbers_from (dec_u32 v ++ t)%string None = v :: numbers_from t None.
Proof.
  intros U S. rewrite (nm_u32 v U t). cbn [app]. destruct t as [|c t]; [reflexivity|]. cbn [stops] in S. unfold is_digit in S. cbn [numbers_from]. rewrite S. reflexivity.
Qed.
Lemma num_pad s t : forall b st, (b = true -> st = None) -> numbers_from (pad b s ++ t)%string st = numbers_from (s ++ t)%string st.
Proof.
  induction s as [|c s IH]; intros b st H; [reflexivity|]. cbn [pad].
  assert (E : forall st, numbers_from (String c (pad (Ascii.eqb c nl) s) ++ t)%string st = numbers_from (String c s ++ t)%string st).
  { intros st0. change ((String c ?x ++ t)%string) with (String c (x ++ t)). cbn [numbers_from].
    destruct ((0 <=? Z.of_nat (nat_of_ascii c) - 48) && (Z.of_nat (nat_of_ascii c) - 48 <? 10)) eqn:D.
    - apply IH. intros C. exfalso. destruct (Ascii.eqb_spec c nl) as [->|?N]; [discriminate D | discriminate C].
    - f_equal. apply IH. reflexivity. }
  destruct b; [|exact (E st)]. rewrite (H eq_refl), str_app_assoc. exact (E None).
Qed.

Fixpoint nums (t : dtree) : list Z :=
  match t with
  | DNum v => [v]
  | DWord _ => []
  | DTuple _ l => flat_map nums l
  | DStruct _ l => flat_map (fun x => nums (snd x)) l
  | DList l => flat_map nums l
  end.
(** names and words without digits, numbers of 32 bits *)
Fixpoint clean (t : dtree) : Prop :=
  match t with
  | DNum v => u32b v
  | DWord s => no_digit s = true
  | DTuple name l => no_digit name = true /\ fold_right (fun x r => clean x /\ r) True l
  | DStruct name l => no_digit name = true /\ fold_right (fun x r => (no_digit (fst x) = true /\ clean (snd x)) /\ r) True l
  | DList l => fold_right (fun x r => clean x /\ r) True l
  end.
Definition reads (s : string) (o : list Z) : Prop := forall t, stops t -> numbers_from (s ++ t)%string None = o ++ numbers_from t None.
Lemma reads_commas l o : Forall2 reads l o -> reads (commas l) (concat o).
Proof.
  induction 1 as [|x a l o H F IH]; intros t S; [reflexivity|]. destruct F as [|y b l o H' F].
  - cbn [commas concat]. rewrite app_nil_r. apply H, S.
  - change (commas (x :: y :: l)) with (x ++ ", " ++ commas (y :: l))%string. rewrite !str_app_assoc. rewrite H by reflexivity.
    change (numbers_from (", " ++ ?q)%string None) with (numbers_from q None). rewrite IH by exact S. cbn [concat]. rewrite <- !app_assoc. reflexivity.
Qed.
Lemma reads_rows l o : Forall2 reads l o -> reads (rows l) (concat o).
Proof.
  induction 1 as [|x a l o H F IH]; intros t S; [reflexivity|]. cbn [rows concat]. rewrite str_app_assoc, num_pad by reflexivity.
  rewrite str_app_assoc. rewrite H by reflexivity. rewrite <- app_assoc. f_equal.
  change (numbers_from (String "," (String nl "") ++ ?q)%string None) with (numbers_from q None). apply IH, S.
Qed.
Lemma reads_pre w s o : no_digit w = true -> reads s o -> reads (w ++ s) o.
Proof. intros W H t S. rewrite str_app_assoc, num_word by exact W. apply H, S. Qed.
Lemma reads_post w c s o : is_digit c = false -> no_digit w = true -> reads s o -> reads (s ++ String c w) o.
Proof. intros C W H t S. rewrite str_app_assoc. rewrite H by exact C. f_equal. apply (num_word (String c w)). cbn [no_digit]. rewrite C. exact W. Qed.
Lemma reads_nil : reads "" [].
Proof. intros t _. reflexivity. Qed.

Lemma reads_map {A} (f : A -> string) (g : A -> list Z) l : Forall (fun x => reads (f x) (g x)) l -> Forall2 reads (map f l) (map g l).
Proof. induction 1; cbn [map]; constructor; auto. Qed.
Lemma fold_Forall {A} (Q : A -> Prop) l : fold_right (fun x r => Q x /\ r) True l -> Forall Q l.
Proof. induction l as [|x l IH]; cbn [fold_right]; intros H; constructor; [apply H | apply IH, H]. Qed.
Lemma Forall_mp {A} (P Q : A -> Prop) l : Forall P l -> Forall (fun x => P x -> Q x) l -> Forall Q l.
Proof. intros H K. rewrite Forall_forall in *. intros x I. apply K; auto. Qed.

Lemma tree_reads t : clean t -> reads (plain t) (nums t) /\ reads (pretty t) (nums t).
Proof.
  induction t as [v|s|name l IH|name l IH|l IH] using dtree_all; intros C; cbn [clean] in C.
  - split; intros t S; apply num_dec; assumption.
  - split; intros t S; apply num_word, C.
  - destruct C as [N C]. apply fold_Forall in C. pose proof (Forall_mp _ _ _ C IH) as F. cbn [plain pretty nums]. rewrite flat_map_concat_map.
    destruct l as [|x l]; [split; (apply reads_pre; [exact N | exact reads_nil])|]. split.
    + apply reads_pre; [exact N|]. apply reads_pre; [reflexivity|]. apply (reads_post ""); [reflexivity | reflexivity|]. apply reads_commas, reads_map.
      eapply Forall_impl; [|exact F]. intros y H. apply H.
    + apply reads_pre; [exact N|]. apply reads_pre; [reflexivity|]. apply (reads_post ""); [reflexivity | reflexivity|].
      apply (reads_pre (String nl "")); [reflexivity|]. apply reads_rows, reads_map. eapply Forall_impl; [|exact F]. intros y H. apply H.
  - destruct C as [N C]. apply fold_Forall in C.
    assert (F : Forall (fun x => reads (fst x ++ ": " ++ plain (snd x)) (nums (snd x)) /\ reads (fst x ++ ": " ++ pretty (snd x)) (nums (snd x))) l).
    { rewrite Forall_forall in *. intros x I. destruct (C x I) as [C1 C2]. destruct (IH x I C2) as [H1 H2].
      split; (apply reads_pre; [exact C1|]; apply reads_pre; [reflexivity | assumption]). }
    cbn [plain pretty nums]. rewrite flat_map_concat_map.
    destruct l as [|x l]; [split; (apply reads_pre; [exact N | exact reads_nil])|]. split.
    + apply reads_pre; [exact N|]. apply reads_pre; [reflexivity|]. apply (reads_post "}"); [reflexivity | reflexivity|]. apply reads_commas.
      apply (reads_map (fun x => fst x ++ ": " ++ plain (snd x))%string (fun x => nums (snd x))). eapply Forall_impl; [|exact F]. intros y H. apply H.
    + apply reads_pre; [exact N|]. apply reads_pre; [reflexivity|]. apply (reads_post ""); [reflexivity | reflexivity|].
      apply (reads_pre (String nl "")); [reflexivity|]. apply reads_rows.
      apply (reads_map (fun x => fst x ++ ": " ++ pretty (snd x))%string (fun x => nums (snd x))). eapply Forall_impl; [|exact F]. intros y H. apply H.
  - apply fold_Forall in C. pose proof (Forall_mp _ _ _ C IH) as F. cbn [plain pretty nums]. rewrite flat_map_concat_map. split.
    + apply reads_pre; [reflexivity|]. apply (reads_post ""); [reflexivity | reflexivity|]. apply reads_commas, reads_map.
      eapply Forall_impl; [|exact F]. intros y H. apply H.
    + apply reads_pre; [reflexivity|]. apply (reads_post ""); [reflexivity | reflexivity|]. destruct l as [|x l]; [exact reads_nil|].
      apply (reads_pre (String nl "")); [reflexivity|]. apply reads_rows, reads_map. eapply Forall_impl; [|exact F]. intros y H. apply H.
Qed.
Lemma tree_numbers t : clean t -> numbers (pretty t) = numbers (plain t).
Proof.
  intros C. destruct (tree_reads t C) as [H1 H2]. specialize (H1 ""%string Logic.I). specialize (H2 ""%string Logic.I). rewrite str_nil in *. unfold numbers. congruence.
Qed.

(** ** shapes *)
Lemma sh_app a b : stops b -> forall st, shape_from (a ++ b)%string st = (shape_from a st ++ shape_from b false)%string.
Proof.
  intros S. induction a as [|c a IH]; intros st.
  - destruct b as [|c b]; [reflexivity|]. cbn [stops] in S. unfold is_digit in S. cbn [append shape_from]. rewrite S. reflexivity.
  - change ((String c a ++ b)%string) with (String c (a ++ b)). cbn [shape_from]. destruct (_ && _); [destruct st|]; rewrite IH; reflexivity.
Qed.
Lemma sh_pad s : forall b st, (b = true -> st = false) -> shape_from (pad b s) st = pad b (shape_from s st).
Proof.
  induction s as [|c s IH]; intros b st H; [reflexivity|]. cbn [pad].
  assert (E : forall st, shape_from (String c (pad (Ascii.eqb c nl) s)) st = pad false (shape_from (String c s) st)).
  { intros st0. cbn [shape_from]. destruct ((0 <=? Z.of_nat (nat_of_ascii c) - 48) && (Z.of_nat (nat_of_ascii c) - 48 <? 10)) eqn:D.
    - replace (Ascii.eqb c nl) with false by (destruct (Ascii.eqb_spec c nl) as [->|?N]; [discriminate D | reflexivity]).
      destruct st0; rewrite IH by discriminate; reflexivity.
    - rewrite IH by reflexivity. reflexivity. }
  destruct b; [|exact (E st)]. rewrite (H eq_refl). change (shape_from ("    " ++ ?x)%string false) with ("    " ++ shape_from x false)%string. rewrite E.
  cbn [shape_from]. destruct (_ && _); reflexivity.
Qed.
Lemma sh_word s : no_digit s = true -> shape s = s.
Proof.
  unfold shape. induction s as [|c s IH]; intros H; [reflexivity|]. cbn [no_digit] in H. apply andb_prop in H. destruct H as [H1 H2]. apply negb_true_iff in H1.
  unfold is_digit in H1. cbn [shape_from]. rewrite H1. f_equal. apply IH, H2.
Qed.
Lemma rows_stops l : stops (rows l).
Proof. destruct l as [|x l]; [exact Logic.I|]. destruct x; reflexivity. Qed.
Lemma sh_rows l : shape (rows l) = rows (map shape l).
Proof.
  unfold shape. induction l as [|x l IH]; [reflexivity|]. cbn [rows map]. rewrite sh_app by apply rows_stops. rewrite sh_pad by reflexivity. rewrite sh_app by reflexivity. rewrite IH. reflexivity.
Qed.
Lemma sh_pre w s : no_digit w = true -> shape (w ++ s) = (w ++ shape s)%string.
Proof.
  unfold shape. induction w as [|c w IH]; intros H; [reflexivity|]. cbn [no_digit] in H. apply andb_prop in H. destruct H as [H1 H2]. apply negb_true_iff in H1.
  unfold is_digit in H1. change ((String c w ++ ?x)%string) with (String c (w ++ x)). cbn [shape_from]. rewrite H1, IH by exact H2. reflexivity.
Qed.
(** the tree with # for every number *)
Fixpoint hashed (t : dtree) : dtree :=
  match t with
  | DNum _ => DWord "#"
  | DWord s => DWord s
  | DTuple name l => DTuple name (map hashed l)
  | DStruct name l => DStruct name (map (fun x => (fst x, hashed (snd x))) l)
  | DList l => DList (map hashed l)
  end.
Fixpoint named (t : dtree) : bool :=
  match t with
  | DNum _ => true
  | DWord s => no_digit s
  | DTuple name l => no_digit name && forallb named l
  | DStruct name l => no_digit name && forallb (fun x => no_digit (fst x) && named (snd x)) l
  | DList l => forallb named l
  end.
Lemma pretty_shape t : named t = true -> shape (pretty t) = pretty (hashed t).
Proof.
  induction t as [v|s|name l IH|name l IH|l IH] using dtree_all; intros C; cbn [named] in C.
  - cbn [pretty hashed]. unfold shape. rewrite <- (str_nil (dec_u32 v)), sh_u32. reflexivity.
  - apply sh_word, C.
  - apply andb_prop in C. destruct C as [N C]. cbn [pretty hashed]. rewrite sh_pre by exact N. f_equal.
    assert (E : map shape (map pretty l) = map pretty (map hashed l)).
    { rewrite !map_map. apply map_ext_in. intros x I. rewrite Forall_forall in IH. apply IH; [exact I|]. apply (proj1 (forallb_forall _ _) C x I). }
    destruct l as [|x l]; [reflexivity|]. rewrite sh_pre by reflexivity. change (map hashed (x :: l)) with (hashed x :: map hashed l) at 1. cbv iota. f_equal.
    change (String nl ?s) with (String nl "" ++ s)%string. rewrite !str_app_assoc. rewrite sh_pre by reflexivity. unfold shape at 1. rewrite sh_app by reflexivity. change (shape_from (rows (map pretty (x :: l))) false) with (shape (rows (map pretty (x :: l)))). rewrite sh_rows, E. reflexivity.
  - apply andb_prop in C. destruct C as [N C]. cbn [pretty hashed]. rewrite sh_pre by exact N. f_equal.
    assert (E : map shape (map (fun x => (fst x ++ ": " ++ pretty (snd x))%string) l) = map (fun x => (fst x ++ ": " ++ pretty (snd x))%string) (map (fun x => (fst x, hashed (snd x))) l)).
    { rewrite !map_map. apply map_ext_in. intros x I. rewrite Forall_forall in IH. pose proof (proj1 (forallb_forall _ _) C x I) as H. apply andb_prop in H. destruct H as [H1 H2].
      cbn [fst snd]. rewrite sh_pre by exact H1. rewrite sh_pre by reflexivity. rewrite IH; [reflexivity | exact I | exact H2]. }
    destruct l as [|x l]; [reflexivity|]. rewrite sh_pre by reflexivity. cbn [map] in *. cbv iota. f_equal.
    change (String nl ?s) with (String nl "" ++ s)%string. rewrite !str_app_assoc. rewrite sh_pre by reflexivity. unfold shape at 1. rewrite sh_app by reflexivity.
    match goal with |- context [shape_from (rows ?y) false] => change (shape_from (rows y) false) with (shape (rows y)) end. rewrite sh_rows. cbn [map]. rewrite E. reflexivity.
  - cbn [pretty hashed]. rewrite sh_pre by reflexivity. f_equal.
    assert (E : map shape (map pretty l) = map pretty (map hashed l)).
    { rewrite !map_map. apply map_ext_in. intros x I. rewrite Forall_forall in IH. apply IH; [exact I|]. apply (proj1 (forallb_forall _ _) C x I). }
    destruct l as [|x l]; [reflexivity|]. cbn [map] in *. cbv iota.
    change (String nl ?s) with (String nl "" ++ s)%string. rewrite str_app_assoc. rewrite sh_pre by reflexivity. unfold shape at 1. rewrite sh_app by reflexivity.
    match goal with |- context [shape_from (rows ?y) false] => change (shape_from (rows y) false) with (shape (rows y)) end. rewrite sh_rows. cbn [map]. rewrite E. rewrite str_app_assoc. reflexivity.
Qed.

(** * C81, alternate form *)

Lemma commas_nums l : commas (map plain (map DNum l)) = dbg_elems l.
Proof.
  induction l as [|v l IH]; [reflexivity|]. destruct l as [|w l]; [reflexivity|].
  change (commas (map plain (map DNum (v :: w :: l)))) with (dec_u32 v ++ ", " ++ commas (map plain (map DNum (w :: l))))%string. rewrite IH. reflexivity.
Qed.
Lemma plain_list l : plain (DList (map DNum l)) = dbg_array l.
Proof. cbn [plain]. rewrite commas_nums. reflexivity. Qed.
Lemma plain_tuple name t : plain (DTuple name [t]) = (name ++ "(" ++ plain t ++ ")")%string.
Proof. reflexivity. Qed.
Lemma plain_s s : plain (s_tree s) = s_debug s.
Proof. unfold s_tree. rewrite plain_tuple, plain_list. reflexivity. Qed.
Lemma plain_struct name l : l <> [] -> plain (DStruct name l) = (name ++ " { " ++ commas (map (fun x => fst x ++ ": " ++ plain (snd x)) l) ++ " }")%string.
Proof. intros N. destruct l; [congruence | reflexivity]. Qed.
Lemma plain_f f : plain (f_tree f) = f_debug f.
Proof.
  destruct f as [n0 n1 n2 n3 n4 n5 n6 n7 n8 n9 m b]. unfold f_tree. rewrite plain_struct by discriminate. cbn [map fst snd commas].
  pose proof (plain_list [n0; n1; n2; n3; n4; n5; n6; n7; n8; n9]) as H. cbn [map] in H. rewrite H. clear H.
  change (plain (DNum m)) with (dec_u32 m). change (plain (DWord ?s)) with s. unfold f_debug. rewrite !str_app_assoc. reflexivity.
Qed.
Lemma plain_fs f : plain (fs_tree f) = fs_debug f.
Proof. destruct f. unfold fs_tree. rewrite plain_tuple, plain_list. reflexivity. Qed.

(** The trees of builder calls written in the plain form give the plain texts. *)
Lemma C81_alternate_trees_pf :
  (forall s, plain (s_tree s) = s_debug s) /\ (forall f, plain (f_tree f) = f_debug f) /\ (forall f, plain (fs_tree f) = fs_debug f) /\
  (forall a, plain (af_tree a) = af_debug a) /\ (forall a, plain (j_tree a) = j_debug a) /\ (forall a, plain (as_tree a) = as_debug a) /\
  (forall k, plain (pk_tree k) = pk_debug k) /\ (forall k, plain (sk_tree k) = sk_debug k) /\ (forall g, plain (sig_tree g) = sig_debug g) /\
  (forall r, plain (rid_tree r) = rid_debug r) /\ (forall m, plain (msg_tree m) = msg_debug m) /\ (forall l, plain (ss_tree l) = ss_debug l) /\
  (forall e, plain (error_tree e) = error_debug e).
Proof.
  assert (A : forall a, plain (af_tree a) = af_debug a).
  { intros a. unfold af_tree. rewrite plain_struct by discriminate. cbn [map fst snd commas]. rewrite !plain_f. change (plain (DWord ?s)) with s. unfold af_debug. rewrite !str_app_assoc. reflexivity. }
  repeat apply conj.
  - exact plain_s.
  - exact plain_f.
  - exact plain_fs.
  - exact A.
  - intros a. unfold j_tree. rewrite plain_struct by discriminate. cbn [map fst snd commas]. rewrite !plain_f. change (plain (DWord ?s)) with s. unfold j_debug. rewrite !str_app_assoc. reflexivity.
  - intros [x y]. unfold as_tree. rewrite plain_struct by discriminate. cbn [map fst snd commas]. rewrite !plain_fs. unfold as_debug. rewrite !str_app_assoc. reflexivity.
  - intros k. unfold pk_tree. rewrite plain_tuple, A. reflexivity.
  - intros k. unfold sk_tree. rewrite plain_tuple, plain_s. reflexivity.
  - intros g. unfold sig_tree. rewrite plain_struct by discriminate. cbn [map fst snd commas]. rewrite !plain_s. unfold sig_debug. rewrite !str_app_assoc. reflexivity.
  - intros r. reflexivity.
  - intros m. unfold msg_tree. rewrite plain_tuple, plain_s. reflexivity.
  - intros l. unfold ss_tree. rewrite plain_tuple, plain_list. reflexivity.
  - intros e. reflexivity.
Qed.

(** The alternate text of any value differs from the plain one only in blanks, newlines and commas in front of closing brackets. *)
Lemma C81_alternate_pf :
  (forall k, essence (pretty (sk_tree k)) "" = essence (sk_debug k) "") /\ (forall m, essence (pretty (msg_tree m)) "" = essence (msg_debug m) "") /\
  (forall g, essence (pretty (sig_tree g)) "" = essence (sig_debug g) "") /\ (forall r, essence (pretty (rid_tree r)) "" = essence (rid_debug r) "") /\
  (forall l, essence (pretty (ss_tree l)) "" = essence (ss_debug l) "") /\ (forall k, essence (pretty (pk_tree k)) "" = essence (pk_debug k) "") /\
  (forall a, essence (pretty (j_tree a)) "" = essence (j_debug a) "") /\ (forall a, essence (pretty (as_tree a)) "" = essence (as_debug a) "") /\
  (forall e, pretty (error_tree e) = error_debug e).
Proof.
  destruct C81_alternate_trees_pf as (_ & _ & _ & _ & J & AS & PK & SK & SG & RI & MS & SS & _).
  repeat apply conj; intros; try (rewrite pretty_ess; f_equal; auto); reflexivity.
Qed.
Lemma C81_alternate_example_pf : essence (pretty (rid_tree 3)) "" = "RecoveryId(3)" /\ essence "RecoveryId( 3 , )" "" = "RecoveryId(3)" /\ pretty (rid_tree 3) <> rid_debug 3.
Proof. split; [reflexivity|]. split; [reflexivity | discriminate]. Qed.

Lemma clean_list l : Forall u32b l -> clean (DList (map DNum l)).
Proof. intros H. cbn [clean]. induction H; cbn [map fold_right]; [exact Logic.I | split; assumption]. Qed.
Lemma clean_s s : Forall u32b (s_limbs s) -> clean (s_tree s).
Proof. intros H. split; [reflexivity|]. split; [apply clean_list, H | exact Logic.I]. Qed.
Lemma clean_bool b : clean (DWord (dbg_bool b)).
Proof. destruct b; reflexivity. Qed.
Lemma clean_f f : Forall u32b (field_numbers f) -> clean (f_tree f).
Proof.
  intros H. unfold field_numbers in H. apply Forall_app in H. destruct H as [L M]. apply Forall_inv in M. destruct f as [n0 n1 n2 n3 n4 n5 n6 n7 n8 n9 m b]. cbn [f_limbs f_mag] in *.
  split; [reflexivity|]. split; [split; [reflexivity | apply (clean_list [n0; n1; n2; n3; n4; n5; n6; n7; n8; n9]), L]|]. split; [split; [reflexivity | exact M]|].
  split; [split; [reflexivity | apply clean_bool] | exact Logic.I].
Qed.
(** Both forms contain the same numbers in the same order. *)
Lemma C81_alternate_numbers_pf :
  (forall k, Forall u32b (s_limbs k) -> numbers (pretty (sk_tree k)) = numbers (sk_debug k) /\ numbers (pretty (msg_tree k)) = numbers (msg_debug k)) /\
  (forall g, Forall u32b (s_limbs (sig_r g)) -> Forall u32b (s_limbs (sig_s g)) -> numbers (pretty (sig_tree g)) = numbers (sig_debug g)) /\
  (forall r, u32b r -> numbers (pretty (rid_tree r)) = numbers (rid_debug r)) /\
  (forall l, Forall u32b l -> numbers (pretty (ss_tree l)) = numbers (ss_debug l)) /\
  (forall k, Forall u32b (field_numbers (af_x k)) -> Forall u32b (field_numbers (af_y k)) -> numbers (pretty (pk_tree k)) = numbers (pk_debug k)).
Proof.
  destruct C81_alternate_trees_pf as (_ & _ & _ & _ & _ & _ & PK & SK & SG & RI & MS & SS & _).
  split; [intros k H; split|split; [|split; [|split]]]; intros.
  - rewrite <- SK. apply tree_numbers. split; [reflexivity|]. split; [apply clean_s, H | exact Logic.I].
  - rewrite <- MS. apply tree_numbers. split; [reflexivity|]. split; [apply clean_s, H | exact Logic.I].
  - rewrite <- SG. apply tree_numbers. split; [reflexivity|]. split; [split; [reflexivity | apply clean_s; assumption]|]. split; [split; [reflexivity | apply clean_s; assumption] | exact Logic.I].
  - rewrite <- RI. apply tree_numbers. split; [reflexivity|]. split; [assumption | exact Logic.I].
  - rewrite <- SS. apply tree_numbers. split; [reflexivity|]. split; [apply clean_list; assumption | exact Logic.I].
  - rewrite <- PK. apply tree_numbers. split; [reflexivity|]. split; [|exact Logic.I]. split; [reflexivity|]. split; [split; [reflexivity | apply clean_f; assumption]|].
    split; [split; [reflexivity | apply clean_f; assumption]|]. split; [split; [reflexivity | apply clean_bool] | exact Logic.I].
Qed.
Lemma C81_alternate_numbers_example_pf : Forall u32b (s_limbs (scalar_of 77)) /\ numbers (pretty (sk_tree (scalar_of 77))) = [77; 0; 0; 0; 0; 0; 0; 0].
Proof. split; [apply limbs_u32 | vm_compute; reflexivity]. Qed.

(** So the alternate text of a secret key discloses the key as the plain one does. *)
Lemma C81_alternate_secret_pf : forall dbg b sk, length b = 32%nat -> bytes b -> sk_parse dbg b = Some (Ok sk) ->
  be_bytes 32 (digits_val (2 ^ 32) (numbers (pretty (sk_tree sk)))) = b.
Proof.
  intros dbg b sk L B E. destruct C81_alternate_numbers_pf as (H & _). refine (eq_trans _ (C81_secret_pf dbg b sk L B E)). do 2 f_equal. apply (H sk).
  rewrite (C01_seckey_parse_pf dbg b L B) in E. destruct ((1 <=? be_val b) && (be_val b <? n)); [|discriminate E].
  apply some_inv in E. assert (sk = scalar_of (be_val b)) as -> by congruence. apply limbs_u32.
Qed.
Lemma C81_alternate_secret_example_pf : length (be_bytes 32 77) = 32%nat /\ bytes (be_bytes 32 77) /\ sk_parse true (be_bytes 32 77) = Some (Ok (scalar_of 77)).
Proof. split; [reflexivity|]. split; [repeat constructor; discriminate | vm_compute; reflexivity]. Qed.

(** Layout of the alternate texts, with # for each number. *)
Lemma C81_alternate_layout_pf :
  (forall v, shape (pretty (rid_tree v)) = "RecoveryId(
    #,
)") /\
  (forall k, shape (pretty (sk_tree k)) = "SecretKey(
    Scalar(
        [
            #,
            #,
            #,
            #,
            #,
            #,
            #,
            #,
        ],
    ),
)") /\
  (forall f, shape (pretty (f_tree f)) = ("Field {
    n: [
        #,
        #,
        #,
        #,
        #,
        #,
        #,
        #,
        #,
        #,
    ],
    magnitude: #,
    normalized: " ++ (if f_norm f then "true" else "false") ++ ",
}")%string) /\
  shape (pretty (ss_tree [])) = "SharedSecret(
    [],
)".
Proof.
  split; [|split; [|split]].
  - intros v. rewrite pretty_shape by reflexivity. reflexivity.
  - intros k. destruct k. rewrite pretty_shape by reflexivity. vm_compute. reflexivity.
  - intros f. destruct f as [n0 n1 n2 n3 n4 n5 n6 n7 n8 n9 m b]. destruct b; (rewrite pretty_shape by reflexivity); vm_compute; reflexivity.
  - vm_compute. reflexivity.
Qed.
