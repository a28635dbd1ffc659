(** Invariants of FutureModel. *)
From Verif Require Import BaseLemmas FutureModel.

Lemma upd_length l i s : length (upd l i s) = length l.
Proof. revert i. induction l as [|a l IH]; intros [|i]; try reflexivity. change (S (length (upd l i s)) = S (length l)). f_equal. apply IH. Qed.
Lemma upd_same l i s x : nth_error l i = Some x -> nth_error (upd l i s) i = Some s.
Proof. revert i. induction l as [|a l IH]; intros [|i] H; try discriminate; [reflexivity|]. change (nth_error (upd l i s) i = Some s). apply IH. exact H. Qed.
Lemma upd_other l i s k : k <> i -> nth_error (upd l i s) k = nth_error l k.
Proof.
  revert i k. induction l as [|a l IH]; intros [|i] [|k] H; try reflexivity; try congruence.
  change (nth_error (upd l i s) k = nth_error l k). apply IH. congruence.
Qed.
Lemma upd_nth l i s k x y : nth_error l i = Some y -> nth_error (upd l i s) k = Some x -> (k = i /\ x = s) \/ (k <> i /\ nth_error l k = Some x).
Proof.
  intros H Q. destruct (Nat.eq_dec k i) as [->|N]; [left|right].
  - rewrite (upd_same l i s y H) in Q. split; congruence.
  - split; [exact N|]. rewrite upd_other in Q; assumption.
Qed.
Lemma upd_last l a s : upd (l ++ [a]) (length l) s = l ++ [s].
Proof. unfold upd. rewrite firstn_app, firstn_all, Nat.sub_diag, skipn_app, skipn_all, Nat.sub_diag. cbn. rewrite app_nil_r. reflexivity. Qed.
Lemma nth_last {A} (l : list A) a : nth_error (l ++ [a]) (length l) = Some a.
Proof. rewrite nth_error_app2, Nat.sub_diag by lia. reflexivity. Qed.

(** What the promise holds at the end. *)
Definition end_res (j : job) : Z := match j_end j with Returns v => v | Throws _ => 0 end.
Definition final (j : job) : rptr := match is_args j with Ok b => store_res j (end_res j) b RNull | _ => RNull end.

(** ** One slot *)
Definition collected (s : slot) : Prop := s_live s = false /\ s_pc s = WEnd.
Definition slot_ok (s : slot) : Prop :=
  (s_live s = false -> s_pc s = WEnd) /\
  (s_live s = true -> s_type s = code T_PROMISE) /\
  match s_pc s with
  | W0 | W1 => s_done s = false /\ s_res s = RNull /\ s_lock s = false
  | W2 r => s_done s = false /\ s_res s = RNull /\ s_lock s = false /\ r = end_res (s_job s)
  | W3 r b => s_done s = false /\ s_res s = RNull /\ s_lock s = false /\ r = end_res (s_job s) /\ is_args (s_job s) = Ok b
  | W4 r b => s_done s = false /\ s_res s = RNull /\ s_lock s = true /\ r = end_res (s_job s) /\ is_args (s_job s) = Ok b
  | W5 => s_done s = false /\ s_res s = final (s_job s) /\ s_lock s = true
  | W6 => s_done s = false /\ s_res s = final (s_job s) /\ s_lock s = false
  | W7 => s_done s = true /\ s_res s = final (s_job s) /\ s_lock s = false
  | WEnd => (s_live s = true -> s_done s = true) /\ s_res s = final (s_job s) /\ s_lock s = false
  end.
Lemma async_ok j : slot_ok (thrd_async j).
Proof. unfold slot_ok, thrd_async. cbn [s_live s_pc s_type s_done s_res s_lock]. repeat split; auto; discriminate. Qed.
Lemma wstep_ok s e s' e' : slot_ok s -> wstep s e = Some (Ok (s', e')) -> slot_ok s' /\ s_job s' = s_job s /\ s_live s' = s_live s /\ (s_done s = true -> s_done s' = true /\ s_res s' = s_res s) /\ s_type s' = s_type s.
Proof.
  intros (A & B & C) H. unfold wstep in H.
  assert (L : s_pc s <> WEnd -> s_live s = true) by (intros N; destruct (s_live s) eqn:Q; [reflexivity|]; elim N; auto).
  destruct (s_pc s) as [ | |r|r b|r b| | | | ] eqn:P; try discriminate;
    try (assert (Lv : s_live s = true) by (apply L; discriminate)).
  - injection H as <- <-. unfold slot_ok, at_pc. cbn [s_live s_pc s_type s_done s_res s_lock s_job]. rewrite Lv. intuition congruence.
  - destruct (j_end (s_job s)) as [v|x] eqn:E; injection H as <- <-; unfold slot_ok, at_pc, end_res; cbn [s_live s_pc s_type s_done s_res s_lock s_job]; rewrite E, Lv; intuition congruence.
  - destruct (is_args (s_job s)) as [b| | |] eqn:E; cbn [bind] in H; try discriminate. injection H as <- <-. unfold slot_ok, at_pc; cbn [s_live s_pc s_type s_done s_res s_lock s_job]; rewrite Lv. intuition congruence.
  - destruct (s_lock s) eqn:K; try discriminate. injection H as <- <-. unfold slot_ok, at_pc, with_lock; cbn [s_live s_pc s_type s_done s_res s_lock s_job]; rewrite Lv. intuition congruence.
  - injection H as <- <-. destruct C as (C1 & C2 & C3 & -> & C5). unfold slot_ok, at_pc, with_res, final; cbn [s_live s_pc s_type s_done s_res s_lock s_job]; rewrite Lv, C2, C5. intuition congruence.
  - injection H as <- <-. unfold slot_ok, at_pc, with_lock; cbn [s_live s_pc s_type s_done s_res s_lock s_job]; rewrite Lv. intuition congruence.
  - injection H as <- <-. unfold slot_ok, at_pc, with_done; cbn [s_live s_pc s_type s_done s_res s_lock s_job]; rewrite Lv. intuition congruence.
  - injection H as <- <-. unfold slot_ok, at_pc; cbn [s_live s_pc s_type s_done s_res s_lock s_job]; rewrite Lv. intuition congruence.
Qed.

(** ** Whole states *)
Definition cur_ok (st : fstate) : Prop :=
  match cur st with
  | Idle => True
  | G1 i => exists s, nth_error (slots st) i = Some s /\ s_live s = true
  | G2 i r => exists s, nth_error (slots st) i = Some s /\ s_live s = true /\ s_done s = true /\ r = final (s_job s)
  | G3 i r | G4 i r => exists s, nth_error (slots st) i = Some s /\ s_live s = false /\ s_type s = code T_PROMISE /\ r = final (s_job s)
  end.
Definition ev_ok (l : list slot) (e : event) : Prop :=
  match e with
  | EDone i true => exists s, nth_error l i = Some s /\ (s_pc s = W7 \/ s_pc s = WEnd)
  | EGet i (GVal v) => exists s, nth_error l i = Some s /\ s_pc s = WEnd /\ final (s_job s) = RBox v
  | EGet i (GThrow _) => exists s, nth_error l i = Some s /\ s_pc s = WEnd
  | _ => True
  end.
Definition state_ok (st : fstate) : Prop :=
  (forall i s, nth_error (slots st) i = Some s -> slot_ok s) /\ cur_ok st /\ Forall (ev_ok (slots st)) (flog st).
Lemma done_pc s : slot_ok s -> s_done s = true -> (s_pc s = W7 \/ s_pc s = WEnd) /\ s_res s = final (s_job s).
Proof. intros (A & B & C) D. destruct (s_pc s); intuition congruence. Qed.
Lemma ev_ok_upd l i s s' e : nth_error l i = Some s -> s_job s' = s_job s -> (s_pc s = W7 \/ s_pc s = WEnd -> s_pc s' = WEnd) ->
  ev_ok l e -> ev_ok (upd l i s') e.
Proof.
  intros H J P. assert (Q : forall k x, nth_error l k = Some x -> exists y, nth_error (upd l i s') k = Some y /\ s_job y = s_job x /\ (s_pc x = W7 \/ s_pc x = WEnd -> s_pc y = W7 \/ s_pc y = WEnd) /\ (s_pc x = WEnd -> s_pc y = WEnd)).
  { intros k x K. destruct (Nat.eq_dec k i) as [->|N].
    - exists s'. rewrite (upd_same l i s' s H). rewrite H in K. injection K as <-. repeat split; auto.
    - exists x. rewrite upd_other by exact N. auto. }
  destruct e as [k [|]|k [v|x|]]; cbn [ev_ok]; auto.
  - intros (y & Y & E). destruct (Q k y Y) as (z & Z1 & _ & Z2 & _). exists z. auto.
  - intros (y & Y & E1 & E2). destruct (Q k y Y) as (z & Z1 & Z2 & _ & Z3). exists z. rewrite Z2. auto.
  - intros (y & Y & E1). destruct (Q k y Y) as (z & Z1 & Z2 & _ & Z3). exists z. auto.
Qed.
Lemma ev_ok_app l s e : ev_ok l e -> ev_ok (l ++ [s]) e.
Proof.
  assert (Q : forall k x, nth_error l k = Some x -> nth_error (l ++ [s]) k = Some x) by (intros k x K; rewrite nth_error_app1; [exact K|apply nth_error_Some; congruence]).
  destruct e as [k [|]|k [v|x|]]; cbn [ev_ok]; auto; intros (y & Y & E); exists y; auto.
Qed.
Lemma step_ok keep t st st' : state_ok st -> fstep keep t st = Some (Ok st') -> state_ok st'.
Proof.
  intros (A & B & C) H. destruct t as [i|].
  - cbn [fstep] in H. destruct (nth_error (slots st) i) as [s|] eqn:N; try discriminate. destruct (wstep s (err st)) as [[[s' e']| | |]|] eqn:W; try discriminate.
    injection H as <-. destruct (wstep_ok s _ s' e' (A i s N) W) as (W1 & W2 & W3 & W4 & W5). split; [|split].
    + cbn [slots]. intros k x K. destruct (upd_nth _ _ _ _ _ _ N K) as [(-> & ->)|(_ & K')]; [exact W1|eauto].
    + unfold cur_ok in *. cbn [cur slots]. destruct (cur st) as [ |k|k r|k r|k r]; auto; destruct B as (x & X & B);
        (destruct (Nat.eq_dec k i) as [->|Nk]; [exists s'; rewrite (upd_same _ _ _ _ N); rewrite N in X; injection X as <-; rewrite ?W2, ?W3, ?W5; intuition congruence|exists x; rewrite upd_other by exact Nk; auto]).
    + cbn [slots flog]. eapply Forall_impl; [|exact C]. intros e. apply (ev_ok_upd _ _ s); auto.
      unfold wstep in W. intros [P|P]; rewrite P in W; [|discriminate]. injection W as <- <-. reflexivity.
  - cbn [fstep] in H. unfold cstep in H. destruct (cur st) as [ |k|k r|k r|k r] eqn:Cu.
    + destruct (todo st) as [|[j|k|k|e] t]; try discriminate.
      * injection H as <-. split; [|split; [exact I|]]; cbn [slots flog].
        -- intros k s K. destruct (Nat.lt_ge_cases k (length (slots st))); [rewrite nth_error_app1 in K by assumption; eauto|].
           rewrite nth_error_app2 in K by assumption. destruct (k - length (slots st))%nat as [|m]; cbn in K; [injection K as <-; apply async_ok|destruct m; discriminate].
        -- eapply Forall_impl; [|exact C]. intros e. apply ev_ok_app.
      * destruct (nth_error (slots st) k) as [s|] eqn:N; try discriminate. destruct (s_live s) eqn:L; try discriminate. injection H as <-. split; [exact A|]. split; [exact I|]. cbn [slots flog].
        apply Forall_app. split; [exact C|]. constructor; [|constructor]. cbn [ev_ok]. destruct (s_done s) eqn:D; [|exact I]. exists s. split; [exact N|]. apply done_pc; eauto.
      * destruct (nth_error (slots st) k) as [s|] eqn:N; try discriminate. destruct (s_live s) eqn:L; try discriminate. destruct (A k s N) as (A1 & A2 & A3). destruct (Z.eqb_spec (s_type s) (code T_PROMISE)) as [T|T]; [|elim T; apply A2; exact L].
        injection H as <-. split; [exact A|]. split; [|exact C]. exists s. auto.
      * injection H as <-. split; [exact A|]. split; [exact I|]. exact C.
    + unfold cur_ok in B. rewrite Cu in B. destruct B as (s & N & L). rewrite N in H. destruct (s_done s) eqn:D; try discriminate. injection H as <-. split; [exact A|]. split; [|exact C].
      exists s. cbn [slots]. repeat split; auto. apply done_pc; eauto.
    + unfold cur_ok in B. rewrite Cu in B. destruct B as (s & N & L & D & ->). rewrite N in H. destruct (s_pc s) eqn:P; try discriminate. injection H as <-. destruct (A k s N) as (A1 & A2 & A3). rewrite P in A3. split; [|split].
      * cbn [slots]. intros i x X. destruct (upd_nth _ _ _ _ _ _ N X) as [(-> & ->)|(_ & X')]; [|eauto]. unfold slot_ok, freed_future. cbn [s_live s_pc s_type s_done s_res s_lock s_job]. rewrite P. intuition congruence.
      * exists (freed_future s). cbn [slots]. rewrite (upd_same _ _ _ _ N). unfold freed_future. cbn [s_live s_pc s_type s_done s_res s_lock s_job]. auto.
      * cbn [slots flog]. eapply Forall_impl; [|exact C]. intros e. apply (ev_ok_upd _ _ s); auto.
    + destruct keep; try discriminate. injection H as <-. split; [exact A|]. split; [|exact C]. unfold cur_ok in *. rewrite Cu in B. exact B.
    + unfold cur_ok in B. rewrite Cu in B. destruct B as (s & N & L & T & ->). rewrite N in H. rewrite T, Z.eqb_refl in H. cbn [andb] in H. destruct (A k s N) as (A1 & A2 & A3). rewrite (A1 L) in A3.
      assert (Q : forall i x, nth_error (upd (slots st) k (closed s)) i = Some x -> slot_ok x).
      { intros i x X. destruct (upd_nth _ _ _ _ _ _ N X) as [(-> & ->)|(_ & X')]; [|eauto]. unfold slot_ok, closed. cbn [s_live s_pc s_type s_done s_res s_lock s_job]. rewrite (A1 L), L. intuition congruence. }
      assert (F : Forall (ev_ok (upd (slots st) k (closed s))) (flog st)).
      { eapply Forall_impl; [|exact C]. intros e. apply (ev_ok_upd _ _ s); auto. }
      destruct (negb (err st =? 0)).
      * injection H as <-. split; [exact Q|]. split; [exact I|]. cbn [slots flog]. apply Forall_app. split; [exact F|]. constructor; [|constructor]. exists (closed s). rewrite (upd_same _ _ _ _ N). split; [reflexivity|]. apply (A1 L).
      * destruct (final (s_job s)) as [|v|] eqn:Fi; try discriminate. injection H as <-. split; [exact Q|]. split; [exact I|]. cbn [slots flog]. apply Forall_app. split; [exact F|]. constructor; [|constructor]. exists (closed s). rewrite (upd_same _ _ _ _ N). split; [reflexivity|]. split; [apply (A1 L)|]. exact Fi.
Qed.
Lemma init_ok prog : state_ok (finit prog).
Proof. split; [|split; [exact I|constructor]]. intros [|i] s; discriminate. Qed.
Lemma reach_ok keep prog st : reach keep (finit prog) st -> state_ok st.
Proof. induction 1 as [|t b c R IH S]; [apply init_ok|]. eapply step_ok; eauto. Qed.
Lemma sched_reach keep ts : forall a st st', reach keep a st -> sched keep ts st = Ok st' -> reach keep a st'.
Proof.
  induction ts as [|t ts IH]; intros a st st' R H; cbn [sched] in H; [injection H as <-; exact R|].
  destruct (fstep keep t st) as [[x| | |]|] eqn:S; cbn [bind] in H; try discriminate.
  - apply (IH a x); [|exact H]. eapply reach_step; eauto.
  - apply (IH a st); assumption.
Qed.

(** ** One future at a time *)
(** The creator handles exceptions of its own, and starts futures one by one: asking [n] times whether it is done, then collecting it. *)
Inductive item := Own (e : Z) | One (j : job) (n : nat).
Fixpoint prog_of (l : list item) (k : nat) : list op :=
  match l with
  | [] => []
  | Own e :: l => Raise e :: prog_of l k
  | One j n :: l => Async j :: repeat (IsDone k) n ++ Get k :: prog_of l (S k)
  end.
Fixpoint jobs_of (l : list item) : list job := match l with [] => [] | Own _ :: l => jobs_of l | One j _ :: l => j :: jobs_of l end.
(** What a job is expected to give. *)
Definition gives (j : job) (g : got) : Prop :=
  match j_end j with
  | Throws e => e <> 0 /\ g = GThrow e
  | Returns _ => exists v, final j = RBox v /\ g = GVal v
  end.
Definition usable (j : job) : Prop := (exists b, is_args j = Ok b) /\ exists g, gives j g.
Definition err_of (j : job) : Z := match j_end j with Throws e => e | Returns _ => 0 end.
Definition gets (l : list event) : list (nat * got) := flat_map (fun e => match e with EGet i g => [(i, g)] | _ => [] end) l.
Definition settled (l : list slot) : Prop := Forall (fun s => s_pc s = WEnd) l.
(** Futures collected so far gave what they should. *)
Definition logged (l : list slot) (g : list (nat * got)) : Prop :=
  map fst g = seq 0 (length l) /\ Forall2 (fun s x => gives (s_job s) (snd x)) l g.
Definition worker_err (s : slot) (e : Z) : Prop :=
  match s_pc s with W0 => True | W1 => e = 0 | _ => e = err_of (s_job s) end.
Inductive phase (todo_jobs : list job) : fstate -> Prop :=
| PhOut sl e l items : settled sl -> Forall usable (map s_job sl) -> todo_jobs = map s_job sl ++ jobs_of items -> Forall usable (jobs_of items) -> logged sl (gets l) ->
    phase todo_jobs (FState sl e (prog_of items (length sl)) Idle l)
| PhIn sl s e l n items c t : settled sl -> Forall usable (map s_job sl) -> usable (s_job s) -> worker_err s e ->
    todo_jobs = map s_job sl ++ s_job s :: jobs_of items -> Forall usable (jobs_of items) -> logged sl (gets l) ->
    (c = Idle /\ s_live s = true /\ t = repeat (IsDone (length sl)) n ++ Get (length sl) :: prog_of items (S (length sl)) \/
     t = prog_of items (S (length sl)) /\ (c = G1 (length sl) \/ (exists r, c = G2 (length sl) r) \/ (s_pc s = WEnd /\ exists r, c = G3 (length sl) r \/ c = G4 (length sl) r))) ->
    phase todo_jobs (FState (sl ++ [s]) e t c l).
Lemma wstep_err s e s' e' : worker_err s e -> wstep s e = Some (Ok (s', e')) -> worker_err s' e'.
Proof.
  intros H W. unfold wstep in W. unfold worker_err in *. destruct (s_pc s) as [ | |r|r b|r b| | | | ] eqn:P; try discriminate.
  - injection W as <- <-. reflexivity.
  - destruct (j_end (s_job s)) as [v|x] eqn:E; injection W as <- <-; cbn [at_pc s_pc s_job]; unfold err_of; rewrite E; auto.
  - destruct (is_args (s_job s)); cbn [bind] in W; try discriminate. injection W as <- <-. exact H.
  - destruct (s_lock s); try discriminate. injection W as <- <-. exact H.
  - injection W as <- <-. exact H.
  - injection W as <- <-. exact H.
  - injection W as <- <-. exact H.
  - injection W as <- <-. exact H.
Qed.
Lemma gets_app l m : gets (l ++ m) = gets l ++ gets m.
Proof. apply flat_map_app. Qed.
Lemma settled_no_step sl k s e : settled sl -> nth_error sl k = Some s -> wstep s e = None.
Proof. intros H N. unfold settled in H. rewrite Forall_forall in H. unfold wstep. rewrite (H s (nth_error_In _ _ N)). reflexivity. Qed.
Lemma logged_snoc sl s l g : logged sl (gets l) -> gives (s_job s) g -> logged (sl ++ [s]) (gets (l ++ [EGet (length sl) g])).
Proof.
  intros (A & B) G. rewrite gets_app. cbn [gets flat_map app]. split.
  - rewrite map_app, A, app_length, seq_app. reflexivity.
  - apply Forall2_app; [exact B|]. constructor; [exact G|constructor].
Qed.

Lemma phase_step J t st o : state_ok st -> phase J st -> fstep true t st = Some o -> exists st', o = Ok st' /\ phase J st'.
Proof.
  intros OK P H. destruct P as [sl e l items S U Jq Ui L|sl s e l n items c t0 S U Us We Jq Ui L Ph].
  - destruct t as [i|].
    + cbn [fstep slots] in H. destruct (nth_error sl i) as [x|] eqn:N; try discriminate. rewrite (settled_no_step sl i x _ S N) in H. discriminate.
    + cbn [fstep] in H. unfold cstep in H. cbn [cur todo slots err flog] in H. destruct items as [|[x|j n] items]; cbn [prog_of] in H; try discriminate.
      * injection H as <-. eexists. split; [reflexivity|]. apply PhOut; auto.
      * injection H as <-. eexists. split; [reflexivity|]. cbn [jobs_of] in *. inversion Ui; subst.
        apply (PhIn _ sl (thrd_async j) e l n items); try assumption; [exact I|reflexivity|]. left. auto.
  - destruct t as [i|].
    + cbn [fstep slots] in H. destruct (nth_error (sl ++ [s]) i) as [x|] eqn:N; try discriminate.
      destruct (Nat.lt_ge_cases i (length sl)) as [Hi|Hi].
      { rewrite nth_error_app1 in N by exact Hi. rewrite (settled_no_step sl i x _ S N) in H. discriminate. }
      assert (Hj : i = length sl) by (assert (i < length (sl ++ [s]))%nat by (apply nth_error_Some; congruence); rewrite app_length in *; cbn [length] in *; lia). subst i.
      rewrite nth_last in N. injection N as <-. cbn [err] in H. destruct OK as (A & B & C). assert (As : slot_ok s) by (apply (A (length sl)); cbn [slots]; apply nth_last).
      destruct (wstep s e) as [[[s' e']| | |]|] eqn:W; try discriminate.
      * injection H as <-. eexists. split; [reflexivity|]. cbn [slots todo cur flog]. rewrite upd_last. destruct (wstep_ok s e s' e' As W) as (W1 & W2 & W3 & _ & _).
        pose proof (wstep_err s e s' e' We W) as We'. apply (PhIn _ sl s' e' l n items); auto; rewrite ?W2; auto. rewrite W3.
        destruct Ph as [Ph|(Pt & Ph)]; [left; exact Ph|right]. split; [exact Pt|]. destruct Ph as [Ph|[Ph|(Ph & _)]]; auto. exfalso. unfold wstep in W. rewrite Ph in W. discriminate.
      * exfalso. unfold wstep in W. destruct (s_pc s); try discriminate; try (destruct (j_end (s_job s)); discriminate); try (destruct (s_lock s); discriminate). destruct Us as ((b & Eb) & _). rewrite Eb in W. discriminate.
      * exfalso. unfold wstep in W. destruct (s_pc s); try discriminate; try (destruct (j_end (s_job s)); discriminate); try (destruct (s_lock s); discriminate). destruct Us as ((b & Eb) & _). rewrite Eb in W. discriminate.
      * exfalso. unfold wstep in W. destruct (s_pc s); try discriminate; try (destruct (j_end (s_job s)); discriminate); try (destruct (s_lock s); discriminate). destruct Us as ((b & Eb) & _). rewrite Eb in W. discriminate.
    + destruct OK as (A & B & C). assert (As : slot_ok s) by (apply (A (length sl)); cbn [slots]; apply nth_last).
      cbn [fstep] in H. unfold cstep in H. cbn [cur todo slots err flog] in H. unfold cur_ok in B. cbn [cur slots] in B.
      destruct Ph as [(-> & Lv & ->)|(-> & [-> |[(r & ->)|(Pw & r & [-> | -> ])]])].
      * destruct n as [|n]; cbn [repeat app] in H; rewrite nth_last, Lv in H.
        -- destruct As as (A1 & A2 & A3). rewrite (A2 Lv), Z.eqb_refl in H. injection H as <-. eexists. split; [reflexivity|]. apply (PhIn _ sl s e l 0%nat items); auto.
        -- injection H as <-. eexists. split; [reflexivity|]. apply (PhIn _ sl s e _ n items); auto. rewrite gets_app. cbn [gets flat_map]. rewrite app_nil_r. exact L.
      * rewrite nth_last in H. destruct (s_done s) eqn:D; try discriminate. injection H as <-. eexists. split; [reflexivity|]. apply (PhIn _ sl s e l n items); eauto 6.
      * rewrite nth_last in H. destruct (s_pc s) eqn:Pc; try discriminate. injection H as <-. eexists. split; [reflexivity|]. rewrite upd_last. apply (PhIn _ sl (freed_future s) e l n items); auto.
        right. split; [reflexivity|]. right. right. split; [exact Pc|]. eauto.
      * injection H as <-. eexists. split; [reflexivity|]. apply (PhIn _ sl s e l n items); auto. right. split; [reflexivity|]. right. right. eauto.
      * rewrite nth_last in H, B. destruct B as (s0 & [= <-] & Lv & Ty & ->). rewrite Ty, Z.eqb_refl in H. cbn [andb] in H. rewrite upd_last in H.
        unfold worker_err in We. rewrite Pw in We.
        assert (G : forall g, gives (s_job s) g -> phase J (FState (sl ++ [closed s]) e (prog_of items (Datatypes.S (length sl))) Idle (l ++ [EGet (length sl) g]))).
        { intros g G. replace (Datatypes.S (length sl)) with (length (sl ++ [closed s])) by (rewrite app_length; cbn [length]; lia). apply PhOut.
          - apply Forall_app. split; [exact S|]. constructor; [exact Pw|constructor].
          - rewrite map_app. apply Forall_app. split; [exact U|]. constructor; [exact Us|constructor].
          - rewrite map_app, <- app_assoc. exact Jq.
          - exact Ui.
          - apply logged_snoc; [exact L|exact G]. }
        destruct Us as ((b & Eb) & g & Gv). unfold gives in G, Gv. unfold err_of in We. destruct (j_end (s_job s)) as [v|x] eqn:E.
        -- subst e. rewrite Z.eqb_refl in H. cbn [negb] in H. destruct Gv as (w & F & _). rewrite F in H. injection H as <-. eexists. split; [reflexivity|]. apply G. eauto.
        -- destruct Gv as (Nx & _). subst e. destruct (Z.eqb_spec x 0); [contradiction|]. cbn [negb] in H. injection H as <-. eexists. split; [reflexivity|]. apply G. auto.
Qed.
Lemma phase_init items : Forall usable (jobs_of items) -> phase (jobs_of items) (finit (prog_of items 0)).
Proof. intros U. apply (PhOut _ [] 0 [] items); auto; try constructor; constructor. Qed.
Lemma phase_reach items st : Forall usable (jobs_of items) -> reach true (finit (prog_of items 0)) st -> phase (jobs_of items) st.
Proof.
  intros U R. induction R as [|t b c R IH S]; [apply phase_init; exact U|].
  destruct (phase_step _ t b (Ok c) (reach_ok _ _ _ R) IH S) as (c' & [= <-] & P). exact P.
Qed.

(** ** Progress *)
Lemma progress keep prog st : reach keep (finit prog) st -> (todo st <> [] \/ cur st <> Idle) -> exists t o, fstep keep t st = Some o.
Proof.
  intros R H. destruct (reach_ok _ _ _ R) as (A & B & C). unfold cur_ok in B.
  assert (Q : forall i s, nth_error (slots st) i = Some s -> s_pc s <> WEnd -> exists t o, fstep keep t st = Some o).
  { intros i s N P. exists (Some i). cbn [fstep]. rewrite N. destruct (A i s N) as (A1 & A2 & A3). unfold wstep.
    destruct (s_pc s) as [ | |r|r b|r b| | | | ]; try congruence; try (eexists; reflexivity).
    - destruct (j_end (s_job s)); eexists; reflexivity.
    - destruct (is_args (s_job s)); cbn [bind]; eexists; reflexivity.
    - destruct A3 as (_ & _ & -> & _). eexists; reflexivity. }
  destruct (cur st) as [ |k|k r|k r|k r] eqn:Cu.
  - exists None. cbn [fstep]. unfold cstep. rewrite Cu. destruct (todo st) as [|[j|k|k|e] t]; [destruct H; congruence|..]; try (eexists; reflexivity).
    + destruct (nth_error (slots st) k) as [s|]; [destruct (s_live s)|]; eexists; reflexivity.
    + destruct (nth_error (slots st) k) as [s|]; [destruct (s_live s); [destruct (s_type s =? code T_PROMISE)|]|]; eexists; reflexivity.
  - destruct B as (s & N & L). destruct (s_done s) eqn:D.
    + exists None. cbn [fstep]. unfold cstep. rewrite Cu, N, D. eexists; reflexivity.
    + apply (Q k s N). intros P. destruct (A k s N) as (A1 & A2 & A3). rewrite P in A3. intuition congruence.
  - destruct B as (s & N & L & D & E). destruct (s_pc s) eqn:P; try (apply (Q k s N); congruence). exists None. cbn [fstep]. unfold cstep. rewrite Cu, N, P. eexists; reflexivity.
  - exists None. cbn [fstep]. unfold cstep. rewrite Cu. destruct keep; eexists; reflexivity.
  - exists None. cbn [fstep]. unfold cstep. rewrite Cu. destruct B as (s & N & _). rewrite N. cbn zeta. destruct (_ && _); [eexists; reflexivity|]. destruct r; eexists; reflexivity.
Qed.
