(** Concurrent use of the lazily initialised contexts. *)
From Verif Require Import Word MField MScalar MGroup MEcmult MEcdsa MApi MConc WP Spec Denote Ctx ApiGroup.

Local Opaque ecmult_context_new ecmult_gen_context_new.
Lemma nth_replace {A} (l : list A) i a : forall j, nth_error (replace l i a) j = if Nat.eqb i j then (match nth_error l i with Some _ => Some a | None => None end) else nth_error l j.
Proof.
  revert i. induction l as [|x l IH]; intros [|i] [|j]; cbn; try reflexivity.
  - destruct (Nat.eqb i j); reflexivity.
  - apply IH.
Qed.
Lemma set_same {A} (f : bool -> A) w a : set f w a w = a.
Proof. unfold set. rewrite Bool.eqb_reflx. reflexivity. Qed.
Lemma set_other {A} (f : bool -> A) w w' a : w <> w' -> set f w a w' = f w'.
Proof. unfold set. intros N. destruct (Bool.eqb w w') eqn:E; [apply Bool.eqb_prop in E; contradiction | reflexivity]. Qed.

Section B.
Variable dbg : bool.
Variable val : bool -> value.
Hypothesis VAL : forall w, initialiser dbg w = Some (val w).
(** thread [t] is running the initialiser of [w] *)
Definition holds (t : thread) (w : bool) : Prop := initialising t = true /\ exists c rest, todo t = c :: rest /\ which c = w.
Definition cell_inv (st : process) (w : bool) : Prop :=
  match cells st w with
  | Fresh => runs st w = O /\ forall i t, nth_error (threads st) i = Some t -> ~ holds t w
  | Busy => runs st w = O /\ exists i t, nth_error (threads st) i = Some t /\ holds t w /\
              forall j t', nth_error (threads st) j = Some t' -> holds t' w -> j = i
  | Ready v => v = val w /\ runs st w = 1%nat /\ forall i t, nth_error (threads st) i = Some t -> ~ holds t w
  | Poisoned => False
  end.
Definition answer_to (c : call) : answer := perform dbg c (val (which c)).
Definition thread_inv (progs : list (list call)) (st : process) : Prop :=
  length (threads st) = length progs /\
  forall i t p, nth_error (threads st) i = Some t -> nth_error progs i = Some p ->
    exists dn, p = dn ++ todo t /\ got t = map answer_to dn.
Definition inv progs st := thread_inv progs st /\ forall w, cell_inv st w.

Lemma replace_len {A} (l : list A) i a : length (replace l i a) = length l.
Proof. revert i. induction l; intros [|i]; cbn; congruence. Qed.
Lemma start_inv progs : inv progs (start progs).
Proof.
  split; [split|].
  - apply map_length.
  - intros i t p H1 H2. cbn [start threads] in H1. rewrite (map_nth_error _ _ _ H2) in H1. injection H1 as <-. exists []. split; reflexivity.
  - intros w. cbn. split; [reflexivity|]. intros i t H [HI _]. apply nth_error_In, in_map_iff in H. destruct H as (p & <- & _). discriminate HI.
Qed.
Lemma step_inv progs st i : inv progs st -> inv progs (step dbg st i).
Proof.
  intros [[TL TI] CI]. unfold step. destruct (nth_error (threads st) i) as [t|] eqn:ET; [|split; [split|]; assumption].
  destruct (todo t) as [|c rest] eqn:ED; [split; [split|]; assumption|]. set (w := which c).
  assert (NT : forall t', nth_error (replace (threads st) i t') i = Some t') by (intros t'; rewrite nth_replace, Nat.eqb_refl, ET; reflexivity).
  assert (NO : forall t' j, j <> i -> nth_error (replace (threads st) i t') j = nth_error (threads st) j).
  { intros t' j N. rewrite nth_replace. destruct (Nat.eqb_spec i j); [congruence | reflexivity]. }
  assert (TH : forall cl n t', (forall dn, got t = map answer_to dn -> exists dn', dn ++ todo t = dn' ++ todo t' /\ got t' = map answer_to dn') -> thread_inv progs (Pr cl n (replace (threads st) i t'))).
  { intros cl n t' E0. split; [cbn [threads]; rewrite replace_len; exact TL|]. intros j tj p Hj Hp. cbn [threads] in Hj. destruct (Nat.eq_dec j i) as [->|N].
    - rewrite NT in Hj. injection Hj as <-. destruct (TI i t p ET Hp) as (dn & -> & EG). exact (E0 dn EG).
    - rewrite NO in Hj by exact N. exact (TI j tj p Hj Hp). }
  (* a cell other than [w] is not affected *)
  assert (OC : forall cl n t' w', w <> w' -> (holds t w' <-> holds t' w') -> cell_inv (Pr (set (cells st) w cl) (set (runs st) w n) (replace (threads st) i t')) w').
  { intros cl n t' w' N HH. specialize (CI w'). unfold cell_inv in *. cbn [cells runs threads]. rewrite !set_other by exact N.
    assert (NH : (forall j tj, nth_error (threads st) j = Some tj -> ~ holds tj w') -> forall j tj, nth_error (replace (threads st) i t') j = Some tj -> ~ holds tj w').
    { intros K j tj Hj. destruct (Nat.eq_dec j i) as [->|NE]; [rewrite NT in Hj; injection Hj as <-; rewrite <- HH; exact (K i t ET) | rewrite NO in Hj by exact NE; exact (K j tj Hj)]. }
    destruct (cells st w').
    - destruct CI as [R K]. split; [exact R | apply NH, K].
    - destruct CI as (R & k & tk & Hk & HO & U). split; [exact R|]. destruct (Nat.eq_dec k i) as [->|NE].
      + exists i, t'. split; [apply NT|]. rewrite ET in Hk. injection Hk as <-. split; [apply HH, HO|].
        intros j tj Hj Hh. destruct (Nat.eq_dec j i) as [|NE]; [assumption|]. rewrite NO in Hj by exact NE. exact (U j tj Hj Hh).
      + exists k, tk. split; [rewrite NO by exact NE; exact Hk|]. split; [exact HO|].
        intros j tj Hj Hh. destruct (Nat.eq_dec j i) as [->|NE']; [|rewrite NO in Hj by exact NE'; exact (U j tj Hj Hh)].
        rewrite NT in Hj. injection Hj as <-. apply (U i t ET). apply HH, Hh.
    - destruct CI as (V & R & K). split; [exact V|]. split; [exact R | apply NH, K].
    - exact CI. }
  assert (HW : forall w', holds t w' -> w' = w).
  { intros w' (_ & c' & r' & E1 & E2). rewrite ED in E1. injection E1 as <- <-. symmetry. exact E2. }
  pose proof (CI w) as CW. unfold cell_inv in CW.
  destruct (initialising t) eqn:EI.
  - assert (HT : holds t w) by (split; [exact EI | exists c, rest; split; [exact ED | reflexivity]]).
    assert (BU : cells st w = Busy).
    { destruct (cells st w); [destruct CW as [_ K]; elim (K i t ET HT) | reflexivity | destruct CW as (_ & _ & K); elim (K i t ET HT) | destruct CW]. }
    rewrite BU in CW. destruct CW as (R & k & tk & Hk & HO & U). rewrite VAL. split; [apply TH; intros dn EG; exists dn; cbn [got todo]; rewrite ED; split; [reflexivity | exact EG]|].
    intros w'. destruct (Bool.bool_dec w w') as [<-|N].
    + unfold cell_inv. cbn [cells runs threads]. rewrite !set_same. split; [reflexivity|]. split; [rewrite R; reflexivity|].
      intros j tj Hj Hh. destruct (Nat.eq_dec j i) as [->|NE]; [rewrite NT in Hj; injection Hj as <-; destruct Hh as [Hh _]; discriminate Hh|].
      rewrite NO in Hj by exact NE. apply NE. rewrite (U j tj Hj Hh), (U i t ET HT). reflexivity.
    + apply OC; [exact N|]. split; [intros H; apply HW in H; congruence | intros [H _]; discriminate H].
  - assert (NT0 : forall w', ~ holds t w') by (intros w' [H _]; congruence).
    destruct (cells st w) as [| |v|] eqn:EC.
    + destruct CW as [R K]. split; [apply TH; intros dn EG; exists dn; cbn [got todo]; rewrite ED; split; [reflexivity | exact EG]|].
      assert (HT' : holds (Th (c :: rest) true (got t)) w) by (split; [reflexivity | exists c, rest; split; reflexivity]).
      intros w'. destruct (Bool.bool_dec w w') as [<-|N].
      * unfold cell_inv. cbn [cells runs threads]. rewrite !set_same. split; [exact R|]. exists i, (Th (c :: rest) true (got t)). split; [apply NT|]. split; [exact HT'|].
        intros j tj Hj Hh. destruct (Nat.eq_dec j i) as [|NE]; [assumption|]. rewrite NO in Hj by exact NE. elim (K j tj Hj Hh).
      * apply OC; [exact N|]. split; [intros H; elim (NT0 _ H)|]. intros (_ & c' & r' & E1 & E2). cbn [todo] in E1. injection E1 as <- <-. elim N. exact E2.
    + split; [split|]; assumption.
    + destruct CW as (V & R & K). subst v. split.
      * apply TH. intros dn EG. exists (dn ++ [c]). cbn [got todo]. rewrite <- app_assoc, ED, map_app, EG. split; reflexivity.
      * intros w'. destruct (Bool.bool_dec w w') as [<-|N].
        -- unfold cell_inv. cbn [cells runs threads]. rewrite !set_same. split; [reflexivity|]. split; [exact R|].
           intros j tj Hj Hh. destruct (Nat.eq_dec j i) as [->|NE]; [rewrite NT in Hj; injection Hj as <-; destruct Hh as [Hh _]; discriminate Hh|].
           rewrite NO in Hj by exact NE. exact (K j tj Hj Hh).
        -- apply OC; [exact N|]. split; [intros H; elim (NT0 _ H) | intros [H _]; discriminate H].
    + destruct CW.
Qed.
Lemma run_inv progs sched : forall st, inv progs st -> inv progs (run dbg st sched).
Proof. induction sched as [|i s IH]; intros st H; [exact H|]. apply IH, step_inv, H. Qed.

(** ** Progress *)
Definition tweight (t : thread) : nat := (2 * length (todo t) + if initialising t then 0 else 1)%nat.
Definition cweight (c : cell) : nat := match c with Fresh => 4 | Busy => 2 | _ => 0 end%nat.
Fixpoint total (l : list thread) : nat := match l with [] => 0 | t :: r => tweight t + total r end%nat.
Definition weight (st : process) : nat := (total (threads st) + cweight (cells st true) + cweight (cells st false))%nat.
Lemma total_replace l : forall i t t', nth_error l i = Some t -> (total (replace l i t') + tweight t = total l + tweight t')%nat.
Proof. induction l as [|x l IH]; intros [|i] t t' H; cbn in *; try discriminate H; [injection H as ->; lia|]. specialize (IH i t t' H). lia. Qed.
Lemma weight_put st w cl n i t t' : nth_error (threads st) i = Some t ->
  (weight (Pr (set (cells st) w cl) n (replace (threads st) i t')) + tweight t + cweight (cells st w) = weight st + tweight t' + cweight cl)%nat.
Proof.
  intros H. unfold weight. cbn [threads cells]. pose proof (total_replace _ i t t' H). destruct w; unfold set; cbn [Bool.eqb]; lia.
Qed.
Definition finished (st : process) : Prop := forall i t, nth_error (threads st) i = Some t -> todo t = [].
Lemma step_progress progs st : inv progs st -> finished st \/ exists i, (weight (step dbg st i) < weight st)%nat.
Proof.
  intros [_ CI].
  (* a thread whose initialiser is running, or any thread with something to do *)
  assert (RUN : forall i t c rest, nth_error (threads st) i = Some t -> todo t = c :: rest ->
    (initialising t = false -> cells st (which c) <> Busy) -> (initialising t = true -> cells st (which c) = Busy) -> (weight (step dbg st i) < weight st)%nat).
  { intros i t c rest ET ED NB IB. unfold step. rewrite ET, ED. destruct (initialising t) eqn:EI.
    - specialize (IB eq_refl). rewrite VAL.
      pose proof (weight_put st (which c) (Ready (val (which c))) (set (runs st) (which c) (S (runs st (which c)))) i t (Th (c :: rest) false (got t)) ET) as W.
      rewrite IB in W. unfold tweight in W. cbn [todo initialising cweight] in W. rewrite EI, ED in W. lia.
    - specialize (NB eq_refl). destruct (cells st (which c)) as [| |v|] eqn:EC.
      + pose proof (weight_put st (which c) Busy (set (runs st) (which c) (runs st (which c))) i t (Th (c :: rest) true (got t)) ET) as W.
        rewrite EC in W. unfold tweight in W. cbn [todo initialising cweight] in W. rewrite EI, ED in W. lia.
      + congruence.
      + pose proof (weight_put st (which c) (Ready v) (set (runs st) (which c) (runs st (which c))) i t (Th rest false (got t ++ [perform dbg c v])) ET) as W.
        rewrite EC in W. unfold tweight in W. cbn [todo initialising cweight length] in W. rewrite EI, ED in W. cbn [length] in W. lia.
      + specialize (CI (which c)). unfold cell_inv in CI. rewrite EC in CI. destruct CI. }
  assert (HB : forall w, cells st w = Busy -> exists i, (weight (step dbg st i) < weight st)%nat).
  { intros w B. pose proof (CI w) as C. unfold cell_inv in C. rewrite B in C. destruct C as (_ & i & t & ET & (EI & c & rest & ED & <-) & _).
    exists i. apply (RUN i t c rest ET ED); congruence. }
  destruct (cells st true) eqn:E1; try (right; apply (HB true E1));
  destruct (cells st false) eqn:E2; try (right; apply (HB false E2));
  (assert (NBB : forall w, cells st w <> Busy) by (intros [|]; congruence);
   assert (NI : forall i t, nth_error (threads st) i = Some t -> forall c rest, todo t = c :: rest -> initialising t = false) by
     (intros i t ET c rest ED; destruct (initialising t) eqn:EI; [|reflexivity]; exfalso; pose proof (CI (which c)) as C; unfold cell_inv in C;
      assert (HT : holds t (which c)) by (split; [exact EI | eauto]);
      destruct (cells st (which c)) eqn:EC; [exact (proj2 C i t ET HT) | exact (NBB _ EC) | exact (proj2 (proj2 C) i t ET HT) | exact C]);
   clear E1 E2;
   destruct (existsb (fun t => match todo t with [] => false | _ => true end) (threads st)) eqn:EX;
   [ right; apply existsb_exists in EX; destruct EX as (t & IN & HT); apply In_nth_error in IN; destruct IN as [i ET];
     destruct (todo t) as [|c rest] eqn:ED; [discriminate HT|]; exists i; apply (RUN i t c rest ET ED);
     [intros _; apply NBB | intros EI; rewrite (NI i t ET c rest ED) in EI; discriminate EI]
   | left; intros i t ET; destruct (todo t) eqn:ED; [reflexivity|]; exfalso;
     assert (X : existsb (fun t => match todo t with [] => false | _ => true end) (threads st) = true) by
       (apply existsb_exists; exists t; split; [apply nth_error_In in ET; exact ET | rewrite ED; reflexivity]); congruence ]).
Qed.
Lemma finish progs : forall m st, (weight st <= m)%nat -> inv progs st -> exists sched, finished (run dbg st sched).
Proof.
  induction m as [|m IH]; intros st W H; destruct (step_progress progs st H) as [F|[i L]]; try (exists []; exact F); [lia|].
  destruct (IH (step dbg st i) ltac:(lia) (step_inv progs st i H)) as [s F]. exists (i :: s). exact F.
Qed.
Lemma run_app st a b : run dbg st (a ++ b) = run dbg (run dbg st a) b.
Proof. unfold run. apply fold_left_app. Qed.
End B.

(** ** The values *)
Definition good (dbg : bool) (w : bool) (v : value) : Prop :=
  initialiser dbg w = Some v /\ match v with VEc c => w = true /\ verify_ctx c | VGen g => w = false /\ gen_ctx g end.
Lemma values dbg : exists val, forall w, good dbg w (val w).
Proof.
  destruct (C54_contexts_pf dbg) as [(c & EC & HC) (g & EG & HG)]. exists (fun w : bool => if w then VEc c else VGen g).
  intros [|]; unfold good, initialiser; [rewrite EC | rewrite EG]; cbn [bind]; repeat split; assumption.
Qed.
(** What a call returns in a process that does nothing else. *)
Definition alone (dbg : bool) (c : call) : list answer :=
  match threads (run dbg (start [[c]]) [0; 0; 0]%nat) with t :: _ => got t | [] => [] end.
Lemma alone_eq dbg c v : initialiser dbg (which c) = Some v -> alone dbg c = [perform dbg c v].
Proof.
  intros H. unfold alone, run, start. cbn [fold_left map].
  assert (S1 : step dbg (Pr (fun _ => Fresh) (fun _ => O) [Th [c] false []]) 0 = Pr (set (fun _ => Fresh) (which c) Busy) (set (fun _ => O) (which c) O) [Th [c] true []]) by reflexivity.
  rewrite S1. unfold step at 2. cbn [nth_error threads todo initialising runs cells got replace]. rewrite H.
  unfold step. cbn [nth_error threads todo initialising runs cells got replace]. rewrite set_same. reflexivity.
Qed.

(** ** C60 *)
(** Under every schedule of any number of threads, what a thread has got so far is what the calls it has completed
    return when each is made alone in a process of its own. *)
Lemma C60_sequential_pf : forall dbg programs schedule i prog, nth_error programs i = Some prog ->
  exists t completed, nth_error (threads (run dbg (start programs) schedule)) i = Some t /\
    prog = completed ++ todo t /\ got t = flat_map (alone dbg) completed.
Proof.
  intros dbg programs schedule i prog HP. destruct (values dbg) as [val HV].
  destruct (run_inv dbg val (fun w => proj1 (HV w)) programs schedule _ (start_inv dbg val programs)) as [[TL TI] _].
  destruct (nth_error (threads (run dbg (start programs) schedule)) i) as [t|] eqn:ET.
  - destruct (TI i t prog ET HP) as (dn & E1 & E2). exists t, dn. split; [reflexivity|]. split; [exact E1|]. rewrite E2. clear - HV.
    induction dn as [|c dn IH]; [reflexivity|]. cbn [map flat_map]. rewrite (alone_eq dbg c _ (proj1 (HV (which c)))), IH. reflexivity.
  - exfalso. apply nth_error_None in ET. assert (i < length programs)%nat by (apply nth_error_Some; congruence). lia.
Qed.
Lemma C60_sequential_example_pf : alone true (CVerify (scalar_of 1) (Sig (scalar_of 0) (scalar_of 1)) AFFINE_G) = [ABool (Some false)].
Proof.
  destruct (values true) as [val HV]. rewrite (alone_eq true (CVerify (scalar_of 1) (Sig (scalar_of 0) (scalar_of 1)) AFFINE_G) (val true) (proj1 (HV true))). destruct (HV true) as [_ K]. destruct (val true) as [c|g]; [reflexivity | destruct K; discriminate].
Qed.
(** A call alone in its process runs with the context the library builds, of the kind it needs: no call is without an answer. *)
Lemma C60_alone_pf : forall dbg, exists e g, ecmult_context_new dbg = Some e /\ verify_ctx e /\ ecmult_gen_context_new dbg = Some g /\ gen_ctx g /\ forall c, alone dbg c = [match c with
  | CFromSecretKey sk => AKey (pk_from_secret_key dbg g sk)
  | CSign drbg fuel m sk => ASign (sign dbg drbg fuel g m sk)
  | CTweakAdd k t => ATweak (pk_tweak_add_assign dbg e k t)
  | CTweakMul k t => ATweak (pk_tweak_mul_assign dbg e k t)
  | CSharedSecret D k sk => ASecret (shared_secret_new dbg D k sk)
  | CVerify m s k => ABool (verify dbg e m s k)
  | CRecover m s rid => ARecover (recover dbg e m s rid) end].
Proof.
  intros dbg. destruct (C54_contexts_pf dbg) as [(e & EE & HE) (g & EG & HG)]. exists e, g. split; [exact EE|]. split; [exact HE|]. split; [exact EG|]. split; [exact HG|].
  assert (IE : initialiser dbg true = Some (VEc e)) by (unfold initialiser; rewrite EE; reflexivity). assert (IG : initialiser dbg false = Some (VGen g)) by (unfold initialiser; rewrite EG; reflexivity).
  intros c. destruct c; match goal with |- alone dbg ?q = _ => first [rewrite (alone_eq dbg q (VEc e) IE) | rewrite (alone_eq dbg q (VGen g) IG)] end; reflexivity.
Qed.
Lemma C60_alone_example_pf : alone true (CFromSecretKey (scalar_of 1)) <> [APoisoned] /\ alone true (CFromSecretKey (scalar_of 1)) <> [].
Proof. destruct (C60_alone_pf true) as (e & g & _ & _ & _ & _ & H). rewrite (H (CFromSecretKey (scalar_of 1))). split; discriminate. Qed.
(** Each initialiser runs at most once, and a context that is ready is a valid context and is not replaced. *)
Lemma C60_once_pf : forall dbg programs schedule w,
  (runs (run dbg (start programs) schedule) w <= 1)%nat /\
  forall v, cells (run dbg (start programs) schedule) w = Ready v ->
    match v with VEc c => w = true /\ ecmult_context_new dbg = Some c /\ verify_ctx c | VGen g => w = false /\ ecmult_gen_context_new dbg = Some g /\ gen_ctx g end /\
    forall later, cells (run dbg (start programs) (schedule ++ later)) w = Ready v.
Proof.
  intros dbg programs schedule w. destruct (values dbg) as [val HV].
  pose proof (fun s => run_inv dbg val (fun w => proj1 (HV w)) programs s _ (start_inv dbg val programs)) as INV.
  assert (KEEP : forall later st v, inv dbg val programs st -> cells st w = Ready v -> cells (run dbg st later) w = Ready v).
  { induction later as [|i later IH]; intros st v HI HC; [exact HC|]. change (run dbg st (i :: later)) with (run dbg (step dbg st i) later).
    apply IH; [apply step_inv; [exact (fun w => proj1 (HV w)) | exact HI]|]. destruct HI as [_ CI].
    unfold step. destruct (nth_error (threads st) i) as [t|] eqn:ET; [|exact HC]. destruct (todo t) as [|c rest] eqn:ED; [exact HC|].
    destruct (Bool.bool_dec (which c) w) as [<-|N].
    - pose proof (CI (which c)) as C. unfold cell_inv in C. rewrite HC in C. destruct C as (_ & _ & K).
      destruct (initialising t) eqn:EI; [elim (K i t ET); split; [exact EI | exists c, rest; split; [exact ED | reflexivity]]|]. rewrite HC. cbn [cells]. apply set_same.
    - destruct (initialising t); [destruct (initialiser dbg (which c)) | destruct (cells st (which c))]; cbn [cells]; rewrite ?set_other by exact N; exact HC. }
  destruct (INV schedule) as [TI CI]. pose proof (CI w) as C. unfold cell_inv in C. split.
  - destruct (cells (run dbg (start programs) schedule) w); [destruct C as [-> _] | destruct C as [-> _] | destruct C as (_ & -> & _) | destruct C]; lia.
  - intros v E0. rewrite E0 in C. destruct C as (-> & _ & _). split; [|intros later; rewrite run_app; apply KEEP; [exact (INV schedule) | exact E0]].
    destruct (HV w) as [HI HG]. destruct (val w) as [c|g]; destruct HG as [-> HG]; split; try reflexivity; split; try exact HG; unfold initialiser in HI.
    + destruct (ecmult_context_new dbg); [injection HI as ->; reflexivity | discriminate HI].
    + destruct (ecmult_gen_context_new dbg); [injection HI as ->; reflexivity | discriminate HI].
Qed.
Lemma C60_once_example_pf : forall k, exists v, cells (run true (start [[CFromSecretKey k]; [CFromSecretKey k]]) [0; 1; 0; 1]%nat) false = Ready v /\
  cells (run true (start [[CFromSecretKey k]; [CFromSecretKey k]]) [0; 1]%nat) false = Busy.
Proof.
  intros k. destruct (values true) as [val HV]. destruct (HV false) as [HI _]. exists (val false). split; [|reflexivity].
  unfold run. cbn [fold_left]. unfold start, step at 4. cbn [map nth_error threads todo initialising runs cells got replace which].
  unfold step at 3. cbn [map nth_error threads todo initialising runs cells got replace which]. rewrite set_same.
  unfold step at 2. cbn [map nth_error threads todo initialising runs cells got replace which]. rewrite HI.
  unfold step. cbn [map nth_error threads todo initialising runs cells got replace which]. rewrite set_same. cbn [cells]. apply set_same.
Qed.
(** No schedule leads to a deadlock: from every state reached, all the threads can be run to completion. *)
Lemma C60_no_deadlock_pf : forall dbg programs schedule, exists later, forall i prog, nth_error programs i = Some prog ->
  exists t, nth_error (threads (run dbg (start programs) (schedule ++ later))) i = Some t /\ todo t = [] /\ got t = flat_map (alone dbg) prog.
Proof.
  intros dbg programs schedule. destruct (values dbg) as [val HV].
  destruct (finish dbg val (fun w => proj1 (HV w)) programs _ _ (le_n _) (run_inv dbg val (fun w => proj1 (HV w)) programs schedule _ (start_inv dbg val programs))) as [later F].
  exists later. intros i prog HP. destruct (C60_sequential_pf dbg programs (schedule ++ later) i prog HP) as (t & dn & ET & E1 & E2). exists t. split; [exact ET|].
  rewrite run_app in ET. pose proof (F i t ET) as TD. split; [exact TD|]. rewrite TD, app_nil_r in E1. subst dn. exact E2.
Qed.
Lemma C60_no_deadlock_example_pf : forall k, step true (run true (start [[CFromSecretKey k]; [CFromSecretKey k]]) [0]%nat) 1 = run true (start [[CFromSecretKey k]; [CFromSecretKey k]]) [0]%nat.
Proof. intros k. reflexivity. Qed.
