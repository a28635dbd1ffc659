(** C102: signals that arrive while a guard is entered or left. *)
From Verif Require Import EntryModel.
Open Scope Z_scope.

(** Specification.  Whether there is a guard around, and the scope of the innermost one. *)
Fixpoint level (c : list (frame * bool)) : bool * Z :=
  match c with [] => (false, 0) | (FTry, _) :: c => level c | (FGuard u _ _ _, _) :: _ => (true, u) end.
(** The scopes of the guards. *)
Fixpoint owned (c : list (frame * bool)) : list Z :=
  match c with [] => [] | (FTry, _) :: c => owned c | (FGuard u _ _ _, _) :: c => u :: owned c end.
(** The contexts around the try block that handles an exception which passes [k] others. *)
Fixpoint landing (k : nat) (c : list (frame * bool)) : option (list (frame * bool)) :=
  match c with [] => None | (FTry, _) :: c => match k with O => Some c | S k => landing k c end | (FGuard _ _ _ _, _) :: c => landing k c end.
(** A guard is left on the way. *)
Fixpoint through (k : nat) (c : list (frame * bool)) {struct c} : bool :=
  match c with [] => false | (FTry, _) :: c => match k with O => false | S k => through k c end | (FGuard _ _ _ _, _) :: _ => true end.
(** The scopes that learn of the exception: at every place where it is thrown, the scope of the innermost guard around; newest first. *)
Fixpoint told (k : nat) (c : list (frame * bool)) {struct c} : list Z :=
  match c with
  | [] => []
  | (FTry, _) :: c' => match k with O => [] | S k => told k c' end
  | (FGuard _ _ _ _, _) :: c' => told k c'
  end ++ if fst (level c) then [snd (level c)] else [].
(** Contexts as the macros make them: every guard has saved what belongs to the contexts around it. *)
Fixpoint nest (c : list (frame * bool)) : Prop :=
  match c with
  | [] => True
  | (FTry, r) :: c => r = true /\ nest c
  | (FGuard u a hs hu, r) :: c => r = true /\ hs = fst (level c) /\ hu = fst (level c) /\ a = snd (level c) /\ 0 < u /\ ~ In u (owned c) /\ nest c
  end.
(** The hooks and the arena are those that belong to the contexts. *)
Definition right (c : list (frame * bool)) (st : est) : Prop := setup st = fst (level c) /\ unwind st = fst (level c) /\ arena st = snd (level c).
(** The scopes not released are those of the guards and those of [x]. *)
Definition keeps (c : list (frame * bool)) (x : list Z) (st : est) : Prop := forall b, In b (live st) <-> In b (owned c) \/ In b x.
(** A state between two statements of a program. *)
Definition steady (c : list (frame * bool)) (x : list Z) (st : est) : Prop :=
  nest c /\ right c st /\ cur st = c /\ keeps c x st /\ (forall b, In b (live st) -> 0 < b < fresh st) /\ 0 < fresh st /\ (forall b, In b x -> ~ In b (owned c)).

Lemma setup_ok st : (setup st = true -> arena st <> 0 /\ In (arena st) (live st)) -> exists e, setup_func st = Ok (Est (setup st) (unwind st) (arena st) (cur st) (live st) (fresh st) e).
Proof.
  intros H. unfold setup_func. destruct (setup st) eqn:S; [|exists (errs st); rewrite <- S; destruct st; reflexivity]. destruct (H eq_refl) as [N I].
  destruct (Z.eqb_spec (arena st) 0); [contradiction|]. assert (E : existsb (Z.eqb (arena st)) (live st) = true) by (apply existsb_exists; exists (arena st); split; [exact I|apply Z.eqb_refl]).
  rewrite E. eexists. reflexivity.
Qed.
Lemma level_owned c : nest c -> (fst (level c) = true -> snd (level c) <> 0 /\ In (snd (level c)) (owned c)) /\ (fst (level c) = false -> snd (level c) = 0).
Proof.
  induction c as [|[[|u a hs hu] r] c IH]; cbn [level nest owned fst snd].
  - intros _. split; [discriminate|reflexivity].
  - intros [_ N]. exact (IH N).
  - intros (_ & _ & _ & _ & P & _). split; [split; [lia|left; reflexivity]|discriminate].
Qed.
(** A throw with any hooks that can be called. *)
Lemma throw_any : forall c k st x, nest c -> keeps c x st -> (forall b, In b x -> ~ In b (owned c)) -> (setup st = true -> arena st <> 0 /\ In (arena st) x \/ right c st) ->
  match landing k c with
  | None => throw k c st = Ok None
  | Some r => exists st', throw k c st = Ok (Some st') /\ cur st' = r /\ keeps r x st' /\ fresh st' = fresh st /\
      if through k c then right r st' else setup st' = setup st /\ unwind st' = unwind st /\ arena st' = arena st
  end.
Proof.
  assert (Sf : forall c st x, nest c -> keeps c x st -> (setup st = true -> arena st <> 0 /\ In (arena st) x \/ right c st) -> setup st = true -> arena st <> 0 /\ In (arena st) (live st)).
  { intros c st x N K H S. destruct (H S) as [[A B]|(R1 & _ & R3)]; [split; [exact A|apply K; auto]|]. rewrite S in R1. destruct (level_owned c N) as [L _]. destruct (L (eq_sym R1)) as [L1 L2].
    rewrite R3. split; [exact L1|apply K; auto]. }
  induction c as [|[f r] c IH]; intros k st x N K X H; cbn [throw landing through];
    destruct (setup_ok st (Sf _ _ _ N K H)) as [e E]; rewrite E; cbn [bind]; [reflexivity|].
  destruct f as [|u a hs hu].
  - destruct N as [-> N]. destruct k as [|k].
    + eexists. split; [reflexivity|]. split; [reflexivity|]. split; [exact K|]. split; [reflexivity|]. split; [reflexivity|]. split; reflexivity.
    + set (st1 := set_cur c _). assert (H1 : setup st1 = true -> arena st1 <> 0 /\ In (arena st1) x \/ right c st1) by exact H.
      exact (IH k st1 x N K X H1).
  - destruct N as (-> & -> & -> & -> & P & F & N). set (st1 := leave 5 _ _ _ _ _ _).
    assert (R1 : right c st1) by (split; [reflexivity|split; reflexivity]).
    assert (K1 : keeps c x st1).
    { intros b. cbn. split; [intros I; apply in_remove in I; destruct I as [I D]; apply K in I; cbn [owned In] in I; intuition congruence|].
      intros I. apply in_in_remove; [|apply K; cbn [owned In]; tauto]. intros ->. destruct I as [I|I]; [contradiction|]. apply (X u I). left. reflexivity. }
    assert (X1 : forall b, In b x -> ~ In b (owned c)) by (intros b I J; apply (X b I); right; exact J).
    specialize (IH k st1 x N K1 X1 (fun _ => or_intror R1)). destruct (landing k c) as [r|] eqn:La; [|exact IH].
    destruct IH as (st' & E' & C' & K' & Fr & Rt). exists st'. split; [exact E'|]. split; [exact C'|]. split; [exact K'|]. split; [exact Fr|]. cbn [through].
    destruct (through k c) eqn:T; [exact Rt|]. assert (Lv : level r = level c).
    { clear -La T. revert k La T. induction c as [|[[|u a hs hu] q] c IH]; intros k La T; cbn in *; [discriminate| |discriminate]. destruct k; [injection La as ->; reflexivity|exact (IH _ La T)]. }
    unfold right. rewrite Lv. destruct Rt as (-> & -> & ->). exact R1.
Qed.
Lemma keeps_fresh c x st : steady c x st -> ~ In (fresh st) (owned c) /\ ~ In (fresh st) x.
Proof. intros (_ & _ & _ & K & F & _). split; intros I; assert (J : In (fresh st) (live st)) by (apply K; auto); apply F in J; lia. Qed.

(** A signal after [j] steps of entering a guard, anywhere: undefined if the context is current but not yet filled; a NULL pointer is dereferenced if this is the
    outermost guard and its hook is set but its arena is not; otherwise the exception lands where it should, but the new scope is lost from the moment
    it exists to the moment the context is complete, and unless a guard is left on the way the hooks and the arena stay those of the guard never entered. *)
Theorem enter_exact : forall c x st k j, steady c x st -> (j <= 6)%nat -> let g := fst (level c) in let u := fresh st in
  if (j =? 5)%nat then signal k (enter j st) = Undef UninitRead
  else if negb g && ((j =? 2) || (j =? 3))%nat then signal k (enter j st) = Undef NullDeref
  else match landing k c with
  | None => signal k (enter j st) = Ok None
  | Some r => exists st', signal k (enter j st) = Ok (Some st') /\ cur st' = r /\ keeps r ((if ((j =? 3) || (j =? 4))%nat then [u] else []) ++ x) st' /\
      if through k c || (j =? 0)%nat || (j =? 6)%nat then right r st'
      else setup st' = g || (2 <=? j)%nat /\ unwind st' = true /\ arena st' = if (j =? 4)%nat then u else snd (level c)
  end.
Proof.
  intros c x st k j S J g u. destruct (keeps_fresh _ _ _ S) as [F1 F2]. destruct S as (N & R & C & K & F & P & X). fold u in F1, F2.
  assert (Rt : right c st) by exact R. destruct R as (R1 & R2 & R3). fold g in R1, R2.
  assert (Go : forall st1 y, cur st1 = c -> keeps c y st1 -> (forall b, In b y -> ~ In b (owned c)) -> (setup st1 = true -> arena st1 <> 0 /\ In (arena st1) y \/ right c st1) ->
    match landing k c with None => signal k st1 = Ok None | Some r => exists st', signal k st1 = Ok (Some st') /\ cur st' = r /\ keeps r y st' /\
      if through k c then right r st' else setup st' = setup st1 /\ unwind st' = unwind st1 /\ arena st' = arena st1 end).
  { intros st1 y C1 K1 X1 H1. unfold signal. rewrite C1. pose proof (throw_any c k st1 y N K1 X1 H1) as T. destruct (landing k c); [|exact T]. destruct T as (st' & E & A1 & A2 & _ & A3). eauto. }
  assert (Lv : forall r, landing k c = Some r -> through k c = false -> level r = level c).
  { clear. intros r. revert k. induction c as [|[[|u a hs hu] q] c IH]; intros k La T; cbn in *; [discriminate| |discriminate]. destruct k; [injection La as ->; reflexivity|exact (IH _ La T)]. }
  assert (Kx : keeps c (u :: x) (unique_init st)) by (intros b; cbn; rewrite (K b); intuition).
  assert (Xx : forall b, In b (u :: x) -> ~ In b (owned c)) by (intros b [<- |I]; [exact F1|exact (X b I)]).
  destruct j as [|[|[|[|[|[|[|j]]]]]]]; [..|lia]; cbn [Nat.eqb orb andb app].
  - rewrite andb_false_r. rewrite orb_true_r. cbn [orb]. pose proof (Go st x C K X (fun _ => or_intror Rt)) as T. change (enter 0 st) with st. destruct (landing k c) as [r|]; [|exact T].
    destruct T as (st' & E & A1 & A2 & A3). exists st'. split; [exact E|]. split; [exact A1|]. split; [exact A2|]. destruct (through k c) eqn:Th; [exact A3|].
    unfold right. rewrite (Lv _ eq_refl eq_refl). destruct A3 as (-> & -> & ->). exact Rt.
  - rewrite andb_false_r, !orb_false_r. assert (H1 : setup (enter 1 st) = true -> arena (enter 1 st) <> 0 /\ In (arena (enter 1 st)) x \/ right c (enter 1 st)).
    { cbn. intros Sg. right. split; [exact R1|]. split; [cbn; fold g; congruence|exact R3]. }
    pose proof (Go (enter 1 st) x C K X H1) as T. destruct (landing k c) as [r|]; [|exact T]. destruct T as (st' & E & A1 & A2 & A3). exists st'. split; [exact E|]. split; [exact A1|]. split; [exact A2|].
    destruct (through k c); [exact A3|]. cbn in A3. cbn [Nat.leb Nat.eqb]. rewrite ?orb_false_r. rewrite <- R1, <- R3. exact A3.
  - rewrite andb_true_r, !orb_false_r. destruct g eqn:G; cbn [negb].
    + assert (H1 : setup (enter 2 st) = true -> arena (enter 2 st) <> 0 /\ In (arena (enter 2 st)) x \/ right c (enter 2 st)) by (intros _; right; split; [cbn; fold g; congruence|split; [cbn; fold g; congruence|exact R3]]).
      pose proof (Go (enter 2 st) x C K X H1) as T. destruct (landing k c) as [r|]; [|exact T]. destruct T as (st' & E & A1 & A2 & A3). exists st'. split; [exact E|]. split; [exact A1|]. split; [exact A2|].
      destruct (through k c); [exact A3|]. cbn in A3 |- *. rewrite <- R3. exact A3.
    + unfold signal. destruct (level_owned c N) as [_ L]. assert (Z0 : arena (enter 2 st) = 0) by (cbn; rewrite R3; apply L; exact G).
      assert (Sx : setup_func (enter 2 st) = Undef NullDeref) by (unfold setup_func; rewrite Z0; reflexivity). destruct (cur (enter 2 st)) as [|[f r] c']; cbn [throw]; rewrite Sx; reflexivity.
  - rewrite andb_true_r, !orb_false_r. destruct g eqn:G; cbn [negb].
    + assert (H1 : setup (enter 3 st) = true -> arena (enter 3 st) <> 0 /\ In (arena (enter 3 st)) (u :: x) \/ right c (enter 3 st)) by (intros _; right; split; [cbn; fold g; congruence|split; [cbn; fold g; congruence|exact R3]]).
      pose proof (Go (enter 3 st) (u :: x) C Kx Xx H1) as T. destruct (landing k c) as [r|]; [|exact T]. destruct T as (st' & E & A1 & A2 & A3). exists st'. split; [exact E|]. split; [exact A1|]. split; [exact A2|].
      destruct (through k c); [exact A3|]. cbn in A3 |- *. rewrite <- R3. exact A3.
    + unfold signal. destruct (level_owned c N) as [_ L]. assert (Z0 : arena (enter 3 st) = 0) by (cbn; rewrite R3; apply L; exact G).
      assert (Sx : setup_func (enter 3 st) = Undef NullDeref) by (unfold setup_func; rewrite Z0; reflexivity). destruct (cur (enter 3 st)) as [|[f r] c']; cbn [throw]; rewrite Sx; reflexivity.
  - rewrite andb_false_r, !orb_false_r. assert (H1 : setup (enter 4 st) = true -> arena (enter 4 st) <> 0 /\ In (arena (enter 4 st)) (u :: x) \/ right c (enter 4 st)) by (intros _; left; split; [cbn; unfold u; lia|left; reflexivity]).
    pose proof (Go (enter 4 st) (u :: x) C Kx Xx H1) as T. destruct (landing k c) as [r|]; [|exact T]. destruct T as (st' & E & A1 & A2 & A3). exists st'. split; [exact E|]. split; [exact A1|]. split; [exact A2|].
    destruct (through k c); [exact A3|]. cbn in A3 |- *. rewrite orb_true_r. exact A3.
  - assert (Sx : exists e, setup_func (enter 5 st) = Ok e) by (destruct (setup_ok (enter 5 st)) as [e ->]; [intros _; split; [cbn; unfold u; lia|left; reflexivity]|eauto]).
    destruct Sx as [e Sx]. unfold signal. change (cur (enter 5 st)) with ((FGuard u (arena st) (setup st) (unwind st), false) :: cur st). cbn [throw]. rewrite Sx. reflexivity.
  - rewrite andb_false_r, orb_true_r. unfold signal. set (c1 := (FGuard u (arena st) (setup st) (unwind st), true) :: c).
    assert (N1 : nest c1) by (cbn [nest c1]; split; [reflexivity|]; split; [exact R1|]; split; [exact R2|]; split; [exact R3|]; split; [unfold u; lia|]; split; [exact F1|exact N]).
    assert (K1 : keeps c1 x (enter 6 st)) by (intros b; cbn; rewrite (K b); cbn; intuition).
    assert (X1 : forall b, In b x -> ~ In b (owned c1)) by (intros b I [<- |Y]; [exact (F2 I)|exact (X b I Y)]).
    assert (Rg : right c1 (enter 6 st)) by (split; [reflexivity|split; reflexivity]).
    change (cur (enter 6 st)) with ((FGuard u (arena st) (setup st) (unwind st), true) :: cur st). rewrite C. fold c1.
    pose proof (throw_any c1 k (enter 6 st) x N1 K1 X1 (fun _ => or_intror Rg)) as T. cbn [landing through c1] in T. destruct (landing k c) as [r|]; [|exact T].
    destruct T as (st' & E & A1 & A2 & _ & A3). exists st'. auto.
Qed.
(** Two try blocks around a guard in which another guard is entered. *)
Definition sample : est := Est true true 1 [(FTry, true); (FGuard 1 0 false false, true); (FTry, true); (FTry, true)] [1; 7] 9 [].
Lemma sample_steady : steady (cur sample) [7] sample.
Proof.
  split; [cbn; intuition lia|]. split; [repeat split|]. split; [reflexivity|]. split; [intros b; cbn; tauto|]. split; [cbn; intros b [<- |[<- |[]]]; lia|]. split; [cbn; lia|].
  cbn. intros b [<- |[]] [?|[]]. lia.
Qed.
Example enter_exact_met k j := enter_exact _ _ sample k j sample_steady.
Example enter_exact_case : signal 0 (enter 4 sample) = Ok (Some (Est true true 9 [(FGuard 1 0 false false, true); (FTry, true); (FTry, true)] [9; 1; 7] 10 [9])) /\
  signal 1 (enter 4 sample) = Ok (Some (Est false false 0 [(FTry, true)] [9; 7] 10 [9; 9])).
Proof. split; reflexivity. Qed.

(** A signal after [j] steps of leaving a guard whose scope has been released: right before the context is left and after the last step; in
    between the scope is lost, a NULL pointer is dereferenced if this is the outermost guard and its arena is restored but its hook is not, and
    unless another guard is left on the way the hooks and the arena not yet restored stay. *)
Theorem leave_exact : forall c x st k j u a hs hu, steady ((FGuard u a hs hu, true) :: c) x st -> (j <= 5)%nat -> let g := fst (level c) in
  if negb g && (j =? 2)%nat then signal k (leave j u a hs hu c st) = Undef NullDeref
  else match landing k c with
  | None => signal k (leave j u a hs hu c st) = Ok None
  | Some r => exists st', signal k (leave j u a hs hu c st) = Ok (Some st') /\ cur st' = r /\ keeps r ((if ((j =? 0) || (j =? 5))%nat then [] else [u]) ++ x) st' /\
      if through k c || (j =? 0)%nat || (j =? 5)%nat then right r st'
      else setup st' = g || (j <=? 2)%nat /\ unwind st' = g || (j <=? 3)%nat /\ arena st' = if (j =? 1)%nat then u else snd (level c)
  end.
Proof.
  intros c x st k j u a hs hu S J g. destruct S as (N & Rt & C & K & F & P & X). assert (Ng := N). destruct N as (_ & -> & -> & -> & Pu & Fu & N). fold g. unfold right in Rt. cbn [level fst snd] in Rt. destruct Rt as (R1 & R2 & R3).
  assert (Go : forall st1 y, cur st1 = c -> keeps c y st1 -> (forall b, In b y -> ~ In b (owned c)) -> (setup st1 = true -> arena st1 <> 0 /\ In (arena st1) y \/ right c st1) ->
    match landing k c with None => signal k st1 = Ok None | Some r => exists st', signal k st1 = Ok (Some st') /\ cur st' = r /\ keeps r y st' /\
      if through k c then right r st' else setup st' = setup st1 /\ unwind st' = unwind st1 /\ arena st' = arena st1 end).
  { intros st1 y C1 K1 X1 H1. unfold signal. rewrite C1. pose proof (throw_any c k st1 y N K1 X1 H1) as T. destruct (landing k c); [|exact T]. destruct T as (st' & E & A1 & A2 & _ & A3). eauto. }
  assert (Lv : forall r, landing k c = Some r -> through k c = false -> level r = level c).
  { clear. intros r. revert k. induction c as [|[[|u a hs hu] q] c IH]; intros k La T; cbn in *; [discriminate| |discriminate]. destruct k; [injection La as ->; reflexivity|exact (IH _ La T)]. }
  assert (Ku : forall st1, live st1 = live st -> keeps c (u :: x) st1) by (intros st1 L b; rewrite L, (K b); cbn [owned In]; tauto).
  assert (Xu : forall b, In b (u :: x) -> ~ In b (owned c)) by (intros b [<- |I]; [exact Fu|intros Y; apply (X b I); right; exact Y]).
  destruct (level_owned c N) as [L1 L0]. fold g in L1, L0. set (lv := leave _ _ _ _ _ _ st).
  destruct j as [|[|[|[|[|[|j]]]]]]; [..|lia]; cbn [Nat.eqb Nat.leb orb andb app] in *; rewrite ?andb_false_r, ?orb_true_r, ?orb_false_r.
  - change lv with st. unfold signal. rewrite C. assert (Rg : right ((FGuard u (snd (level c)) g g, true) :: c) st) by (split; [exact R1|split; [exact R2|exact R3]]).
    pose proof (throw_any _ k st x Ng K X (fun _ => or_intror Rg)) as T. cbn [landing through] in T. cbn [andb orb]. destruct (landing k c) as [r|]; [|exact T].
    destruct T as (st' & E & A1 & A2 & _ & A3). exists st'. auto.
  - assert (H1 : setup lv = true -> arena lv <> 0 /\ In (arena lv) (u :: x) \/ right c lv) by (intros _; left; cbn; rewrite R3; split; [lia|auto]).
    pose proof (Go lv (u :: x) eq_refl (Ku lv eq_refl) Xu H1) as T. destruct (landing k c) as [r|]; [|exact T]. destruct T as (st' & E & A1 & A2 & A3). exists st'. split; [exact E|]. split; [exact A1|]. split; [exact A2|].
    destruct (through k c); [exact A3|]. cbn in A3. rewrite R1, R2, R3 in A3. exact A3.
  - rewrite andb_true_r. destruct g eqn:G; cbn [negb].
    + assert (H1 : setup lv = true -> arena lv <> 0 /\ In (arena lv) (u :: x) \/ right c lv) by (intros _; right; cbn; split; [fold g; cbn; congruence|split; [fold g; cbn; congruence|reflexivity]]).
      pose proof (Go lv (u :: x) eq_refl (Ku lv eq_refl) Xu H1) as T. destruct (landing k c) as [r|]; [|exact T]. destruct T as (st' & E & A1 & A2 & A3). exists st'. split; [exact E|]. split; [exact A1|]. split; [exact A2|].
      destruct (through k c); [exact A3|]. cbn in A3. rewrite R1, R2 in A3. exact A3.
    + assert (Sx : setup_func lv = Undef NullDeref) by (unfold setup_func; cbn; rewrite R1, (L0 eq_refl); reflexivity).
      unfold signal. destruct (cur lv) as [|[f r] c']; cbn [throw]; rewrite Sx; reflexivity.
  - assert (H1 : setup lv = true -> arena lv <> 0 /\ In (arena lv) (u :: x) \/ right c lv) by (cbn; fold g; intros Sg; right; split; [reflexivity|split; [cbn; fold g; congruence|reflexivity]]).
    pose proof (Go lv (u :: x) eq_refl (Ku lv eq_refl) Xu H1) as T. destruct (landing k c) as [r|]; [|exact T]. destruct T as (st' & E & A1 & A2 & A3). exists st'. split; [exact E|]. split; [exact A1|]. split; [exact A2|].
    destruct (through k c); [exact A3|]. cbn in A3. rewrite R2 in A3. exact A3.
  - assert (H1 : setup lv = true -> arena lv <> 0 /\ In (arena lv) (u :: x) \/ right c lv) by (intros _; right; split; [reflexivity|split; reflexivity]).
    pose proof (Go lv (u :: x) eq_refl (Ku lv eq_refl) Xu H1) as T. destruct (landing k c) as [r|]; [|exact T]. destruct T as (st' & E & A1 & A2 & A3). exists st'. split; [exact E|]. split; [exact A1|]. split; [exact A2|].
    destruct (through k c); [exact A3|]. cbn in A3. exact A3.
  - assert (K5 : keeps c x lv).
    { intros b. cbn. split; [intros I; apply in_remove in I; destruct I as [I D]; apply K in I; cbn [owned In] in I; intuition congruence|].
      intros I. apply in_in_remove; [|apply K; cbn [owned In]; tauto]. intros ->. destruct I as [I|I]; [contradiction|]. apply (X u I). left. reflexivity. }
    assert (H1 : setup lv = true -> arena lv <> 0 /\ In (arena lv) x \/ right c lv) by (intros _; right; split; [reflexivity|split; reflexivity]).
    pose proof (Go lv x eq_refl K5 (fun b I => Xu b (or_intror I)) H1) as T. destruct (landing k c) as [r|]; [|exact T]. destruct T as (st' & E & A1 & A2 & A3). exists st'. split; [exact E|]. split; [exact A1|]. split; [exact A2|].
    destruct (through k c) eqn:Th; [exact A3|]. unfold right. rewrite (Lv _ eq_refl eq_refl). destruct A3 as (-> & -> & ->). split; [reflexivity|split; reflexivity].
Qed.
Definition inner : est := Est true true 1 [(FGuard 1 0 false false, true); (FTry, true); (FTry, true)] [1; 7] 9 [].
Lemma inner_steady : steady (cur inner) [7] inner.
Proof.
  split; [cbn; intuition lia|]. split; [repeat split|]. split; [reflexivity|]. split; [intros b; cbn; tauto|]. split; [cbn; intros b [<- |[<- |[]]]; lia|]. split; [cbn; lia|].
  cbn. intros b [<- |[]] [?|[]]. lia.
Qed.
Example leave_exact_met k j := leave_exact _ _ inner k j 1 0 false false inner_steady.
(** Steps that are finished leave a steady state again: the theorems apply to every further guard and signal. *)
Theorem guard_steady : forall c x st, steady c x st -> let u := fresh st in let c1 := (FGuard u (arena st) (setup st) (unwind st), true) :: c in
  steady c1 x (enter 6 st) /\ forall st1 a hs hu, steady ((FGuard u a hs hu, true) :: c) x st1 -> steady c x (leave 5 u a hs hu c st1).
Proof.
  intros c x st S u c1. destruct (keeps_fresh _ _ _ S) as [F1 F2]. destruct S as (N & (R1 & R2 & R3) & C & K & F & P & X). split.
  - split; [cbn; split; [reflexivity|]; split; [exact R1|]; split; [exact R2|]; split; [exact R3|]; split; [unfold u; lia|]; split; [exact F1|exact N]|].
    split; [split; [reflexivity|split; reflexivity]|]. split; [cbn; rewrite C; reflexivity|]. split; [intros b; cbn; rewrite (K b); cbn; intuition|].
    split; [cbn; intros b [<- |I]; [lia|apply F in I; lia]|]. split; [cbn; lia|]. intros b I [<- |Y]; [exact (F2 I)|exact (X b I Y)].
  - clearbody u. clear -u. intros st1 a hs hu (N & R & C & K & F & P & X). destruct N as (_ & -> & -> & -> & Pu & Fu & N).
    split; [exact N|]. split; [split; [reflexivity|split; reflexivity]|]. split; [reflexivity|]. split.
    { intros b. cbn. split; [intros I; apply in_remove in I; destruct I as [I D]; apply K in I; cbn [owned In] in I; intuition congruence|].
      intros I. apply in_in_remove; [|apply K; cbn [owned In]; tauto]. intros ->. destruct I as [I|I]; [contradiction|]. apply (X u I). left. reflexivity. }
    split; [cbn; intros b I; apply in_remove in I; apply F, I|]. split; [exact P|]. intros b I Y. apply (X b I). right. exact Y.
Qed.
(** A steady state in which an exception is thrown: it lands where it should and everything is as it was there. *)
Theorem throw_steady_partial : forall c x st k, steady c x st ->
  match landing k c with
  | None => signal k st = Ok None
  | Some r => exists st', signal k st = Ok (Some st') /\ cur st' = r /\ keeps r x st' /\ right r st'
  end.
Proof.
  intros c x st k S. pose proof (enter_exact c x st k 0 S ltac:(lia)) as T. cbn [Nat.eqb orb app] in T. rewrite andb_false_r, orb_true_r in T. exact T.
Qed.
(** The scopes whose err is set are those of the guards around the places where the exception is thrown. *)
Theorem throw_told : forall c x st k st', steady c x st -> signal k st = Ok (Some st') -> errs st' = told k c ++ errs st.
Proof.
  intros c x st k st' (N & R & C & K & _ & _ & X). unfold signal. rewrite C. clear C. revert k st N R K X. induction c as [|[f r] c IH]; intros k st N R K X; cbn [throw].
  - destruct (setup_func st); discriminate.
  - assert (Sf : setup_func st = Ok (Est (setup st) (unwind st) (arena st) (cur st) (live st) (fresh st) ((if fst (level ((f, r) :: c)) then [snd (level ((f, r) :: c))] else []) ++ errs st))).
    { destruct R as (R1 & R2 & R3). destruct (level_owned _ N) as [L _]. unfold setup_func. rewrite R1. destruct (fst (level _)); [|rewrite <- R1; destruct st; reflexivity].
      destruct (L eq_refl) as [L1 L2]. rewrite R3. destruct (Z.eqb_spec (snd (level ((f, r) :: c))) 0); [contradiction|].
      assert (E : existsb (Z.eqb (snd (level ((f, r) :: c)))) (live st) = true) by (apply existsb_exists; eexists; split; [apply K; left; exact L2|apply Z.eqb_refl]). rewrite E. reflexivity. }
    rewrite Sf. cbn [bind]. destruct f as [|u a hs hu].
    + destruct N as [-> N]. destruct k as [|k].
      * intros E. injection E as <-. cbn [told set_cur errs]. reflexivity.
      * intros E. cbn [told]. apply (IH k _ N) in E; [rewrite E; cbn [set_cur errs]; apply app_assoc|exact R|exact K|exact X].
    + assert (Ng := N). destruct N as (-> & -> & -> & -> & P & F & N). intros E. cbn [told]. apply (IH k _ N) in E; [rewrite E; cbn; rewrite <- app_assoc; reflexivity|split; [reflexivity|split; reflexivity]| |].
      * intros b. cbn. split; [intros I; apply in_remove in I; destruct I as [I D]; apply K in I; cbn [owned In] in I; intuition congruence|].
        intros I. apply in_in_remove; [|apply K; cbn [owned In]; tauto]. intros ->. destruct I as [I|I]; [contradiction|]. apply (X u I). left. reflexivity.
      * intros b I J. apply (X b I). right. exact J.
Qed.
Example throw_told_met : match signal 1 (enter 6 sample) with Ok (Some st') => errs st' = told 1 ((FGuard 9 1 true true, true) :: cur sample) /\ errs st' = [1; 1; 9] | _ => False end.
Proof. vm_compute. auto. Qed.
Example throw_steady_met k := throw_steady_partial _ _ sample k sample_steady.

(** The claim is false: entering and leaving the outermost guard. *)
Theorem entry_refuted : exists st j1 j2 j3, steady (cur st) [] st /\ signal 0 (enter j1 st) = Undef NullDeref /\ signal 0 (enter j2 st) = Undef UninitRead /\
  exists st', signal 0 (enter j3 st) = Ok (Some st') /\ cur st' = [] /\ setup st' = true /\ live st' <> [].
Proof.
  exists (Est false false 0 [(FTry, true)] [] 1 []), 2%nat, 5%nat, 4%nat. split.
  { split; [cbn; auto|]. split; [repeat split|]. split; [reflexivity|]. split; [intros b; cbn; tauto|]. split; [intros b []|]. split; [cbn; lia|intros b []]. }
  split; [reflexivity|]. split; [reflexivity|]. eexists. split; [reflexivity|]. split; [reflexivity|]. split; [reflexivity|]. discriminate.
Qed.
Theorem exit_refuted : exists st j, steady (cur st) [] st /\ signal 0 (leave j 1 0 false false [(FTry, true)] st) = Undef NullDeref.
Proof.
  exists (Est true true 1 [(FGuard 1 0 false false, true); (FTry, true)] [1] 2 []), 2%nat. split; [|reflexivity].
  split; [cbn; intuition lia|]. split; [repeat split|]. split; [reflexivity|]. split; [intros b; cbn; tauto|]. split; [cbn; intros b [<- |[]]; lia|]. split; [cbn; lia|intros b []].
Qed.
Print Assumptions enter_exact. Print Assumptions leave_exact. Print Assumptions guard_steady. Print Assumptions throw_steady_partial. Print Assumptions throw_told. Print Assumptions entry_refuted. Print Assumptions exit_refuted.
