(** C52-C55, C58, C70, C71: futures. *)
From Verif Require Import BaseLemmas FutureModel FutureProofs.

(** ** Specification *)
(** The argument is a pack for which thrd_returning was called (tag 43 is RAII_ARGS), or is not one. *)
Definition returning (j : job) : Prop := exists t d r ws, j_arg j = Some (t :: d :: r :: ws) /\ t mod 2 ^ 32 = 43 /\ r <> 0.
Definition not_returning (j : job) : Prop :=
  (exists t ws, j_arg j = Some (t :: ws) /\ t mod 2 ^ 32 <> 43) \/ exists t d ws, j_arg j = Some (t :: d :: 0 :: ws) /\ t mod 2 ^ 32 = 43.
(** The function of the job returned, and [v] is the value meant. *)
Definition yields (j : job) (v : Z) : Prop :=
  (not_returning j /\ v <> 0 /\ j_end j = Returns v) \/ (returning j /\ exists p, p <> 0 /\ j_end j = Returns p /\ j_box j = Some v).
Lemma args_code : code T_ARGS = 43. Proof. reflexivity. Qed.
Lemma final_yields j v : final j = RBox v <-> yields j v.
Proof.
  unfold final, yields, is_args, returning, not_returning, store_res, end_res. split.
  - destruct (j_arg j) as [[|t ws]|] eqn:Ea; try discriminate. unfold is_type. cbn [type_of bind]. rewrite args_code. change (2 ^ 32) with 4294967296. unfold u32.
    destruct (Z.eqb_spec (t mod 4294967296) 43) as [E|E]; cbn [bind].
    + destruct ws as [|d [|r ws]]; cbn [nth_error]; try discriminate. destruct (Z.eqb_spec r 0) as [->|Nr]; cbn [negb].
      * destruct (j_end j) as [p|x]; [|discriminate]. destruct (Z.eqb_spec p 0); try discriminate. intros [= <-]. left. split; [right; eauto|]. auto.
      * destruct (j_end j) as [p|x]; [|discriminate]. destruct (Z.eqb_spec p 0); try discriminate. destruct (j_box j) as [w|]; try discriminate. intros [= <-]. right. split; [eauto 8|]. eauto.
    + destruct (j_end j) as [p|x]; [|discriminate]. destruct (Z.eqb_spec p 0); try discriminate. intros [= <-]. left. split; [left; eauto|]. auto.
  - change (2 ^ 32) with 4294967296. intros [([(t & ws & -> & T)|(t & d & ws & -> & T)] & V & ->)|((t & d & r & ws & -> & T & R) & p & P & -> & ->)]; unfold is_type; cbn [type_of bind nth_error]; rewrite args_code; unfold u32.
    + destruct (Z.eqb_spec (t mod 4294967296) 43); [contradiction|]. destruct (Z.eqb_spec v 0); [contradiction|reflexivity].
    + rewrite T. cbn. destruct (Z.eqb_spec v 0); [contradiction|reflexivity].
    + rewrite T. cbn [Z.eqb Pos.eqb]. destruct (Z.eqb_spec r 0); [contradiction|]. cbn [negb bind]. destruct (Z.eqb_spec p 0); [contradiction|reflexivity].
Qed.
(** The worker has left the thread function. *)
Definition finished (s : slot) : Prop := s_pc s = W7 \/ s_pc s = WEnd.

(** ** C52 *)
(** Whatever the creator's program and the schedule: a value obtained from a future is the one its function returned, and its worker has
    ended.  Machine reading: the freed future still holds its promise. *)
Theorem get_value_partial : forall prog st i v, reach true (finit prog) st -> In (EGet i (GVal v)) (flog st) ->
  exists s, nth_error (slots st) i = Some s /\ s_pc s = WEnd /\ yields (s_job s) v.
Proof.
  intros prog st i v R H. destruct (reach_ok _ _ _ R) as (_ & _ & C). rewrite Forall_forall in C. destruct (C _ H) as (s & N & P & F). exists s. rewrite <- final_yields. auto.
Qed.
(** Some thread can always go on until the creator has finished. *)
Theorem futures_progress : forall keep prog st, reach keep (finit prog) st -> (todo st <> [] \/ cur st <> Idle) -> exists t o, fstep keep t st = Some o.
Proof. exact progress. Qed.
Definition plain (e : fend) : job := Job e (Some [0]) None.
Definition w (i : nat) : list (option nat) := repeat (Some i) 9.
Example get_value_case : exists st, reach true (finit [Async (plain (Returns 5)); Async (plain (Returns 6)); Get 1; Get 0]) st /\ flog st = [EGet 1 (GVal 6); EGet 0 (GVal 5)].
Proof.
  set (a := finit _). destruct (sched true ([None; None; None] ++ [Some 0; Some 1; None; Some 0; None]%nat ++ w 1 ++ w 0 ++ repeat None 10) a) as [st| | |] eqn:E; [|vm_compute in E; discriminate E..].
  exists st. split; [apply (sched_reach _ _ _ _ _ (reach_refl _ _) E)|]. vm_compute in E. injection E as <-. reflexivity.
Qed.
(** By the rules of C thrd_get never returns normally: it reads the future after freeing it. *)
Theorem get_strict : forall prog st i v, reach false (finit prog) st -> ~ In (EGet i (GVal v)) (flog st) /\ ~ In (EGet i (GThrow v)) (flog st).
Proof.
  intros prog st i v R. assert (Q : (forall k r, cur st <> G4 k r) /\ ~ In (EGet i (GVal v)) (flog st) /\ ~ In (EGet i (GThrow v)) (flog st)); [|apply Q].
  induction R as [|t b c R IH S]; [repeat split; auto; discriminate|]. destruct IH as (A & B & C). destruct t as [k|]; cbn [fstep] in S.
  - destruct (nth_error (slots b) k); try discriminate. destruct (wstep s (err b)) as [[[s' e']| | |]|]; try discriminate. injection S as <-. auto.
  - unfold cstep in S. destruct (cur b) as [ |k|k r|k r|k r] eqn:Cu; [..|elim (A k r); reflexivity].
    + destruct (todo b) as [|[j|k|k|e] t]; try discriminate.
      * injection S as <-. repeat split; auto; discriminate.
      * destruct (nth_error (slots b) k) as [s|]; try discriminate. destruct (s_live s); try discriminate. injection S as <-. cbn [cur flog]. split; [discriminate|]. split; intros H; apply in_app_or in H; destruct H as [H|[H|[]]]; auto; discriminate.
      * destruct (nth_error (slots b) k) as [s|]; try discriminate. destruct (s_live s); try discriminate. destruct (s_type s =? code T_PROMISE); injection S as <-; cbn [cur flog].
        -- repeat split; auto; discriminate.
        -- split; [discriminate|]. split; intros H; apply in_app_or in H; destruct H as [H|[H|[]]]; auto; discriminate.
      * injection S as <-. repeat split; auto; discriminate.
    + destruct (nth_error (slots b) k) as [s|]; try discriminate. destruct (s_done s); try discriminate. injection S as <-. repeat split; auto; discriminate.
    + destruct (nth_error (slots b) k) as [s|]; try discriminate. destruct (s_pc s); try discriminate. injection S as <-. repeat split; auto; discriminate.
    + discriminate.
Qed.
Theorem get_value_refuted : exists j ts, yields j 5 /\ sched false ts (finit [Async j; Get 0]) = Undef UseAfterFree.
Proof. exists (plain (Returns 5)), ([None; None] ++ w 0 ++ repeat None 3). split; [|vm_compute; reflexivity]. left. split; [left; exists 0, []; cbn; split; [reflexivity|lia]|]. split; [lia|reflexivity]. Qed.
(** Collecting twice reads the freed future. *)
Theorem get_twice_refuted : exists j ts, yields j 5 /\ sched true ts (finit [Async j; Get 0; Get 0]) = Undef UseAfterFree.
Proof. exists (plain (Returns 5)), ([None; None] ++ w 0 ++ repeat None 5). split; [|vm_compute; reflexivity]. left. split; [left; exists 0, []; cbn; split; [reflexivity|lia]|]. split; [lia|reflexivity]. Qed.

(** ** C53 *)
(** A function that returned NULL: whenever thrd_get gets to its end and no exception is pending, it dereferences NULL. *)
Theorem null_result_crashes : forall prog st i r s, reach true (finit prog) st -> cur st = G4 i r -> err st = 0 -> nth_error (slots st) i = Some s ->
  j_end (s_job s) = Returns 0 -> fstep true None st = Some (Undef NullDeref).
Proof.
  intros prog st i r s R Cu E N J. destruct (reach_ok _ _ _ R) as (_ & B & _). unfold cur_ok in B. rewrite Cu in B. destruct B as (s0 & N0 & L & T & ->). rewrite N in N0. injection N0 as <-.
  cbn [fstep]. unfold cstep. rewrite Cu, N, E, T. cbn [Z.eqb negb andb]. rewrite andb_false_r. replace (final (s_job s)) with RNull; [reflexivity|].
  unfold final, end_res, store_res. rewrite J. destruct (is_args (s_job s)); reflexivity.
Qed.
Theorem null_result_refuted : exists j ts, j_end j = Returns 0 /\ sched true ts (finit [Async j; Get 0]) = Undef NullDeref.
Proof. exists (plain (Returns 0)), ([None; None] ++ w 0 ++ repeat None 4). vm_compute. auto. Qed.
(** Every other value comes back: one future, any schedule (C54 has the exceptions). *)
Theorem nonnull_result_partial : forall v a n st i g, v <> 0 -> a mod 2 ^ 32 <> 43 ->
  reach true (finit (prog_of [One (Job (Returns v) (Some [a]) None) n] 0)) st -> In (EGet i g) (flog st) -> i = 0%nat /\ g = GVal v.
Proof.
  intros v a n st i g V A R H. set (j := Job (Returns v) (Some [a]) None) in *.
  assert (F : final j = RBox v) by (apply final_yields; left; split; [left; exists a, []; auto|auto]).
  assert (U : usable j). { split; [|exists (GVal v); cbn; eauto]. unfold final in F. destruct (is_args j) as [b| | |]; try discriminate. eauto. }
  assert (P : phase [j] st) by (apply (phase_reach [One j n]); [constructor; [exact U|constructor]|exact R]).
  assert (Q : In (i, g) (gets (flog st))) by (apply in_flat_map; exists (EGet i g); split; [exact H|left; reflexivity]).
  assert (G : forall sl s, [j] = map s_job sl ++ s -> logged sl (gets (flog st)) -> i = 0%nat /\ g = GVal v).
  { intros sl s E (L1 & L2). destruct sl as [|x [|y sl]]; [destruct (gets (flog st)); [destruct Q|inversion L2]| |discriminate].
    injection E as E _. destruct (gets (flog st)) as [|p [|q l]]; [destruct Q| |inversion L2 as [|? ? ? ? ? L3]; inversion L3]. destruct Q as [->|[]].
    cbn in L1. injection L1 as ->. split; [reflexivity|]. inversion L2 as [|? ? ? ? G _]; subst. cbn [snd] in G. rewrite <- E in G. unfold gives in G. cbn [j j_end] in G. destruct G as (u & Fu & ->). congruence. }
  inversion P; subst; eapply G; eauto.
Qed.
Example nonnull_case : exists st, reach true (finit (prog_of [One (Job (Returns 7) (Some [1]) None) 2] 0)) st /\ flog st = [EDone 0 false; EDone 0 true; EGet 0 (GVal 7)].
Proof.
  set (a := finit _). destruct (sched true ([None; None] ++ w 0 ++ repeat None 10) a) as [st| | |] eqn:E; [|vm_compute in E; discriminate E..].
  exists st. split; [apply (sched_reach _ _ _ _ _ (reach_refl _ _) E)|]. vm_compute in E. injection E as <-. reflexivity.
Qed.

(** ** C54 *)
(** Any number of futures, each collected before the next is started, the creator handling exceptions of its own in between: in every
    schedule nothing undefined happens (machine reading), and each future gives its function's value or throws its function's exception. *)
Theorem one_at_a_time_partial : forall items st, Forall usable (jobs_of items) -> reach true (finit (prog_of items 0)) st ->
  (forall t, match fstep true t st with Some (Ok _) | None => True | _ => False end) /\
  (exists rest, map s_job (slots st) ++ rest = jobs_of items) /\
  (forall i g, In (EGet i g) (flog st) -> exists j, nth_error (jobs_of items) i = Some j /\ gives j g).
Proof.
  intros items st U R. pose proof (phase_reach items st U R) as P. pose proof (reach_ok _ _ _ R) as OK. split; [|split].
  - intros t. destruct (fstep true t st) as [o|] eqn:S; [|exact I]. destruct (phase_step _ t st o OK P S) as (st' & -> & _). exact I.
  - inversion P; subst; cbn [slots]; [eauto|]. rewrite map_app. exists (jobs_of items0). rewrite <- app_assoc. symmetry. assumption.
  - intros i g H. assert (Q : In (i, g) (gets (flog st))) by (apply in_flat_map; exists (EGet i g); split; [exact H|left; reflexivity]).
    assert (G : forall sl rest, jobs_of items = map s_job sl ++ rest -> logged sl (gets (flog st)) -> exists j, nth_error (jobs_of items) i = Some j /\ gives j g).
    { intros sl rest E (L1 & L2). apply In_nth_error in Q. destruct Q as (k & Q).
      assert (Hk : i = k). { assert (X : nth_error (map fst (gets (flog st))) k = Some i) by (erewrite map_nth_error; [|exact Q]; reflexivity). rewrite L1 in X.
        assert (Hl : (k < length sl)%nat) by (rewrite <- (seq_length (length sl) 0); apply nth_error_Some; congruence).
        rewrite (nth_error_nth' _ 0%nat) in X by (rewrite seq_length; exact Hl). rewrite seq_nth in X by exact Hl. injection X as <-. reflexivity. }
      subst k. assert (Y : exists s, nth_error sl i = Some s /\ gives (s_job s) g).
      { clear - L2 Q. revert Q. generalize i at 2. revert i. induction L2 as [|s x sl l G L2 IH]; intros [|i] n Q; try discriminate; [|apply (IH i n); exact Q]. injection Q as ->. exists s. auto. }
      destruct Y as (s & Ns & Gs). exists (s_job s). split; [|exact Gs]. rewrite E, nth_error_app1; [apply map_nth_error; exact Ns|]. rewrite map_length. apply nth_error_Some. congruence. }
    inversion P; subst; eapply G; eauto.
Qed.
Example one_at_a_time_case : exists st, reach true (finit (prog_of [One (plain (Throws 9)) 1; Own 3; One (plain (Returns 4)) 0; One (plain (Throws 8)) 0] 0)) st /\
  flog st = [EDone 0 false; EGet 0 (GThrow 9); EGet 1 (GVal 4); EGet 2 (GThrow 8)] /\ Forall usable (jobs_of [One (plain (Throws 9)) 1; Own 3; One (plain (Returns 4)) 0; One (plain (Throws 8)) 0]).
Proof.
  set (a := finit _). destruct (sched true ([None; None] ++ w 0 ++ repeat None 7 ++ w 1 ++ repeat None 7 ++ w 2 ++ repeat None 7) a) as [st| | |] eqn:E; [|vm_compute in E; discriminate E..].
  exists st. split; [apply (sched_reach _ _ _ _ _ (reach_refl _ _) E)|]. vm_compute in E. injection E as <-. split; [reflexivity|].
  repeat constructor; cbn; eauto; try (eexists; split; [lia|reflexivity]).
Qed.
(** Two futures at once: the function of the first ends with an exception, which the start of the second worker erases; thrd_get of
    the first then dereferences NULL. *)
Theorem exception_lost_refuted : exists ts, sched true ts (finit [Async (plain (Throws 9)); Async (plain (Returns 5)); Get 0]) = Undef NullDeref.
Proof. exists ([None; None; None] ++ w 0 ++ w 1 ++ repeat None 5). vm_compute. reflexivity. Qed.
(** And thrd_get of the second, whose function returned, throws the exception of the first. *)
Theorem exception_misreported_refuted : exists st, reach true (finit [Async (plain (Throws 9)); Async (plain (Returns 5)); Get 1]) st /\ flog st = [EGet 1 (GThrow 9)].
Proof.
  set (a := finit _). destruct (sched true ([None; None; None; Some 1] ++ w 0 ++ repeat (Some 1) 8 ++ repeat None 5)%nat a) as [st| | |] eqn:E; [|vm_compute in E; discriminate E..].
  exists st. split; [apply (sched_reach _ _ _ _ _ (reach_refl _ _) E)|]. vm_compute in E. injection E as <-. reflexivity.
Qed.
(** Even with one future: an exception the creator threw and caught meanwhile is thrown again by thrd_get. *)
Theorem own_exception_again_refuted : exists st, reach true (finit [Async (plain (Returns 5)); Raise 3; Get 0]) st /\ flog st = [EGet 0 (GThrow 3)].
Proof.
  set (a := finit _). destruct (sched true ([None; Some 0] ++ [None; None] ++ w 0 ++ repeat None 5)%nat a) as [st| | |] eqn:E; [|vm_compute in E; discriminate E..].
  exists st. split; [apply (sched_reach _ _ _ _ _ (reach_refl _ _) E)|]. vm_compute in E. injection E as <-. reflexivity.
Qed.

(** ** C55 *)
(** Once set, done stays until the creator closes the promise in thrd_get. *)
Theorem done_stable : forall keep prog st t st' i s, reach keep (finit prog) st -> fstep keep t st = Some (Ok st') -> nth_error (slots st) i = Some s -> s_done s = true ->
  (exists s', nth_error (slots st') i = Some s' /\ s_done s' = true) \/ (t = None /\ exists r, cur st = G4 i r).
Proof.
  intros keep prog st t st' i s R H N D. destruct (reach_ok _ _ _ R) as (A & B & C). destruct t as [k|].
  - left. cbn [fstep] in H. destruct (nth_error (slots st) k) as [x|] eqn:K; try discriminate. destruct (wstep x (err st)) as [[[x' e']| | |]|] eqn:W; try discriminate. injection H as <-. cbn [slots].
    destruct (Nat.eq_dec i k) as [->|Nk]; [|exists s; rewrite upd_other by exact Nk; auto]. exists x'. rewrite (upd_same _ _ _ _ K). split; [reflexivity|]. rewrite N in K. injection K as <-.
    eapply wstep_ok; eauto.
  - cbn [fstep] in H. unfold cstep in H. unfold cur_ok in B. destruct (cur st) as [ |k|k r|k r|k r] eqn:Cu.
    + left. destruct (todo st) as [|[j|k|k|e] t]; try discriminate.
      * injection H as <-. exists s. cbn [slots]. rewrite nth_error_app1; [auto|]. apply nth_error_Some. congruence.
      * destruct (nth_error (slots st) k) as [x|]; try discriminate. destruct (s_live x); try discriminate. injection H as <-. eauto.
      * destruct (nth_error (slots st) k) as [x|]; try discriminate. destruct (s_live x); try discriminate. destruct (_ =? _); injection H as <-; eauto.
      * injection H as <-. eauto.
    + left. destruct (nth_error (slots st) k) as [x|]; try discriminate. destruct (s_done x); try discriminate. injection H as <-. eauto.
    + left. destruct (nth_error (slots st) k) as [x|] eqn:K; try discriminate. destruct (s_pc x); try discriminate. injection H as <-. cbn [slots].
      destruct (Nat.eq_dec i k) as [->|Nk]; [|exists s; rewrite upd_other by exact Nk; auto]. exists (freed_future x). rewrite (upd_same _ _ _ _ K). split; [reflexivity|]. cbn [freed_future s_done]. congruence.
    + left. destruct keep; try discriminate. injection H as <-. eauto.
    + destruct (Nat.eq_dec i k) as [->|Nk]; [right; eauto|left]. destruct (nth_error (slots st) k) as [x|] eqn:K; try discriminate.
      cbv zeta in H. assert (Q : nth_error (if s_type x =? code T_PROMISE then upd (slots st) k (closed x) else slots st) i = Some s) by (destruct (_ =? _); [rewrite upd_other by exact Nk|]; exact N).
      destruct (_ && _); [injection H as <-; exists s; auto|]. destruct r; try discriminate. injection H as <-. exists s. auto.
Qed.
(** When done is seen set the thread function has ended and its result is stored. *)
Theorem done_means_finished : forall keep prog st i, reach keep (finit prog) st ->
  (forall s, nth_error (slots st) i = Some s -> s_done s = true -> finished s /\ forall v, yields (s_job s) v -> s_res s = RBox v) /\
  (In (EDone i true) (flog st) -> exists s, nth_error (slots st) i = Some s /\ finished s).
Proof.
  intros keep prog st i R. destruct (reach_ok _ _ _ R) as (A & B & C). split.
  - intros s N D. destruct (done_pc s (A i s N) D) as (P & F). split; [exact P|]. intros v Y. rewrite F. apply final_yields. exact Y.
  - intros H. rewrite Forall_forall in C. apply (C _ H).
Qed.
(** thrd_get on such a future does not wait for the function: its wait for done is over, and the worker it joins has only its own
    clean-up left, which it can always do. *)
Theorem get_after_done : forall keep prog st i s, reach keep (finit prog) st -> nth_error (slots st) i = Some s -> s_done s = true ->
  (cur st = G1 i -> exists st', fstep keep None st = Some (Ok st')) /\
  (forall r, cur st = G2 i r -> (exists st', fstep keep None st = Some (Ok st')) \/
     exists st', fstep keep (Some i) st = Some (Ok st') /\ exists st'', fstep keep None st' = Some (Ok st'')).
Proof.
  intros keep prog st i s R N D. destruct (reach_ok _ _ _ R) as (A & B & C). destruct (done_pc s (A i s N) D) as (P & F). split.
  - intros Cu. cbn [fstep]. unfold cstep. rewrite Cu, N, D. eauto.
  - intros r Cu. destruct P as [P|P].
    + right. cbn [fstep]. rewrite N. unfold wstep. rewrite P. eexists. split; [reflexivity|]. unfold cstep. cbn [cur slots]. rewrite Cu, (upd_same _ _ _ _ N). cbn [at_pc s_pc]. eauto.
    + left. cbn [fstep]. unfold cstep. rewrite Cu, N, P. eauto.
Qed.
Example done_case : exists st s, reach true (finit [Async (plain (Returns 5)); IsDone 0; Get 0]) st /\ nth_error (slots st) 0 = Some s /\ s_done s = true /\ flog st = [EDone 0 true] /\ cur st = G2 0 (RBox 5).
Proof.
  set (a := finit _). destruct (sched true ([None] ++ repeat (Some 0%nat) 8 ++ [None; None; None]) a) as [st| | |] eqn:E; [|vm_compute in E; discriminate E..].
  exists st, (Slot (plain (Returns 5)) WEnd (code T_PROMISE) true false (RBox 5) true). split; [apply (sched_reach _ _ _ _ _ (reach_refl _ _) E)|]. vm_compute in E. injection E as <-. repeat split.
Qed.

(** ** C71: after done, thrd_get can still have to wait *)
Theorem get_blocks_refuted : exists st, reach true (finit [Async (plain (Returns 5)); IsDone 0; Get 0]) st /\ flog st = [EDone 0 true] /\ cur st <> Idle /\ fstep true None st = None.
Proof.
  set (a := finit _). destruct (sched true ([None] ++ repeat (Some 0%nat) 7 ++ [None; None; None]) a) as [st| | |] eqn:E; [|vm_compute in E; discriminate E..].
  exists st. split; [apply (sched_reach _ _ _ _ _ (reach_refl _ _) E)|]. vm_compute in E. injection E as <-. repeat split. discriminate.
Qed.
(** What it waits for is the worker's raii_destroy and exit only. *)
Theorem get_blocks_partial : forall keep prog st i s, reach keep (finit prog) st -> cur st <> Idle -> nth_error (slots st) i = Some s -> s_done s = true ->
  (cur st = G1 i \/ exists r, cur st = G2 i r) -> fstep keep None st = None -> s_pc s = W7.
Proof.
  intros keep prog st i s R _ N D Cu H. destruct (get_after_done keep prog st i s R N D) as (A & B). destruct (reach_ok _ _ _ R) as (A0 & _ & _). destruct (done_pc s (A0 i s N) D) as ([P|P] & _); [exact P|].
  destruct Cu as [Cu|(r & Cu)]; [destruct (A Cu) as (x & Hx); congruence|]. cbn [fstep] in H. unfold cstep in H. rewrite Cu, N, P in H. discriminate.
Qed.

(** ** C70: any argument *)
(** An integer passed with thrd_data whose value is 43 is taken for an argument pack: the worker reads past it.  NULL is dereferenced. *)
Theorem argument_value_refuted : exists ts, sched true ts (finit [Async (Job (Returns 5) (Some [43]) None); Get 0]) = Undef OobRead.
Proof. exists ([None] ++ w 0). vm_compute. reflexivity. Qed.
Theorem argument_null_refuted : exists ts, sched true ts (finit [Async (Job (Returns 5) None None); Get 0]) = Undef NullDeref.
Proof. exists ([None] ++ w 0). vm_compute. reflexivity. Qed.
(** Larger objects that start with that number: the result is taken for a raii_values_t. *)
Theorem argument_confused_refuted : exists ts, sched true ts (finit [Async (Job (Returns 5) (Some [43; 7; 1]) None); Get 0]) = Undef WildPointer.
Proof. exists ([None; None] ++ w 0 ++ repeat None 5). vm_compute. reflexivity. Qed.
Theorem argument_partial : forall j, not_returning j \/ returning j -> exists b, is_args j = Ok b /\ (b = true <-> returning j).
Proof.
  intros j H. unfold is_args. destruct H as [[(t & ws & E & T)|(t & d & ws & E & T)]|(t & d & r & ws & E & T & R)]; rewrite E; unfold is_type; cbn [type_of bind nth_error]; rewrite args_code; unfold u32; change (2 ^ 32) with 4294967296 in *.
  - destruct (Z.eqb_spec (t mod 4294967296) 43); [contradiction|]. exists false. split; [reflexivity|]. split; [discriminate|]. intros (t' & d & r & ws' & E' & T' & _). rewrite E in E'. injection E' as -> _. contradiction.
  - rewrite T. exists false. split; [reflexivity|]. split; [discriminate|]. intros (t' & d' & r & ws' & E' & T' & R'). rewrite E in E'. injection E' as -> -> <- ->. contradiction.
  - rewrite T. cbn [Z.eqb Pos.eqb]. destruct (Z.eqb_spec r 0); [contradiction|]. exists true. split; [reflexivity|]. split; [|reflexivity]. intros _. exists t, d, r, ws. auto.
Qed.
Example argument_case : not_returning (plain (Returns 5)) /\ returning (Job (Returns 5) (Some [43; 1; 1; 0]) (Some 8)).
Proof. split; [left; exists 0, []; split; [reflexivity|cbn; lia]|]. exists 43, 1, 1, [0]. repeat split; lia. Qed.

(** ** C58 *)
(** Every worker of every non-empty pool dereferences NULL in its first statement. *)
Theorem pool_worker_crashes : forall count i f, nth_error (thrd_pool count) i = Some f -> wrapper_entry f = Undef NullDeref.
Proof. intros count i f H. apply nth_error_In in H. apply in_map_iff in H. destruct H as (k & <- & _). reflexivity. Qed.
Theorem pool_refuted : exists count f, count = 1%nat /\ nth_error (thrd_pool count) 0 = Some f /\ wrapper_entry f = Undef NullDeref.
Proof. exists 1%nat, (FArg None 0). repeat split. Qed.

Print Assumptions get_value_partial. Print Assumptions futures_progress. Print Assumptions get_strict. Print Assumptions get_value_refuted. Print Assumptions get_twice_refuted.
Print Assumptions null_result_crashes. Print Assumptions null_result_refuted. Print Assumptions nonnull_result_partial. Print Assumptions one_at_a_time_partial.
Print Assumptions exception_lost_refuted. Print Assumptions exception_misreported_refuted. Print Assumptions own_exception_again_refuted. Print Assumptions done_stable.
Print Assumptions done_means_finished. Print Assumptions get_after_done. Print Assumptions get_blocks_refuted. Print Assumptions get_blocks_partial. Print Assumptions argument_value_refuted.
Print Assumptions argument_null_refuted. Print Assumptions argument_confused_refuted. Print Assumptions argument_partial. Print Assumptions pool_worker_crashes. Print Assumptions pool_refuted.
