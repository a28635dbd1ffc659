(** C85: the message of the exception being handled. *)
From Verif Require Import BaseLemmas MsgModel ExcProofs ExcThrow.

Definition zeros : Z -> Z := fun _ => 0.
(** What an exception with name [ex] and text [pm] (0: none) should be reported as. *)
Definition reason (ex pm : Z) : Z := if pm =? 0 then ex else pm.

(** ** what the release of a scope leaves alone *)
Record calm (st st' : est) : Prop := Calm {
  ca_cur : cur st' = cur st; ca_ready : ready st' = ready st; ca_arena : arena st' = arena st; ca_set : hook_set st' = hook_set st;
  ca_ctx : forall i, c_ex (ctxs st' i) = c_ex (ctxs st i) /\ c_unstack (ctxs st' i) = c_unstack (ctxs st i);
  ca_scope : forall i, s_pending (scopes st' i) = s_pending (scopes st i) /\ s_live (scopes st' i) = s_live (scopes st i) }.
Lemma calm_refl st : calm st st. Proof. constructor; auto. Qed.
Lemma calm_trans a b c : calm a b -> calm b c -> calm a c.
Proof.
  intros [A1 A2 A3 A4 A5 A6] [B1 B2 B3 B4 B5 B6]. constructor; try congruence.
  - intros i. destruct (A5 i), (B5 i). split; congruence.
  - intros i. destruct (A6 i), (B6 i). split; congruence.
Qed.
Lemma calm_scope sc f st : (forall s, s_pending (f s) = s_pending s /\ s_live (f s) = s_live s) -> calm st (with_scope sc f st).
Proof. intros H. constructor; auto. intros i. ctx_tac. unfold upd. destruct (Z.eqb_spec i sc) as [->|_]; auto. Qed.
Lemma calm_ctx id f st : (forall c, c_ex (f c) = c_ex c /\ c_unstack (f c) = c_unstack c) -> calm st (with_ctx id f st).
Proof. intros H. constructor; auto. intros i. ctx_tac. unfold upd. destruct (Z.eqb_spec i id) as [->|_]; auto. Qed.
Lemma calm_node id f st : calm st (with_node id f st).
Proof. constructor; auto. Qed.
Lemma calm_emit e st : calm st (emit e st). Proof. constructor; auto. Qed.
Lemma calm_message st st' : calm st st' -> raii_message st' = raii_message st /\ get_message st' = get_message st.
Proof.
  intros [A1 A2 A3 A4 A5 A6]. unfold raii_message, get_message, raii_message_by. rewrite A1, A2, A3. destruct (A5 (cur st)) as [-> _], (A6 root) as [-> _], (A6 (arena st)) as [-> ->]. auto.
Qed.

Lemma calm_release n st st' : release n st = Ok st' -> calm st st'.
Proof. unfold release. destruct (n_free n); [destruct (n_val n =? 0); [|discriminate]|]; intros E; injection E as <-; apply calm_emit. Qed.
Lemma calm_caught sc n st : calm st (snd (is_caught sc n st)).
Proof.
  unfold is_caught. cbn [snd]. set (b := negb _ && _). assert (C : calm st (with_scope sc (s_set_rec b) st)) by (apply calm_scope; auto).
  destruct b; [|exact C]. eapply calm_trans; [exact C|]. apply calm_ctx; auto.
Qed.
(** Falling through a deferred function, or all of them. *)
Lemma calm_entry thr e st st' : (forall ex s s', thr ex 0 s <> Ok (RNorm, s')) -> run_entry thr e st = Ok (RNorm, st') -> calm st st'.
Proof.
  intros Thr. unfold run_entry. destruct (e_kind e) as [f|]; [|intros E; injection E as <-; apply calm_emit].
  destruct (d_recover f) as [n|].
  - destruct (arena (emit _ st) =? 0); cbn [bind]; [discriminate|]. pose proof (calm_caught (arena (emit (EDefer (d_act f) (e_data e)) st)) n (emit (EDefer (d_act f) (e_data e)) st)) as C.
    destruct (is_caught _ _ _) as [b s1]. cbn [snd] in C. destruct (d_throw f) as [x|]; [intros E; destruct (Thr _ _ _ E)|]. intros E. injection E as <-.
    eapply calm_trans; [apply calm_emit|]. destruct b; [|exact C]. eapply calm_trans; [exact C|apply calm_emit].
  - cbn [bind]. destruct (d_throw f) as [x|]; [intros E; destruct (Thr _ _ _ E)|]. intros E. injection E as <-. apply calm_emit.
Qed.
Lemma calm_entries thr sc todo : (forall ex s s', thr ex 0 s <> Ok (RNorm, s')) -> forall ran st st', run_entries thr sc ran todo st = Ok (RNorm, st') -> calm st st'.
Proof.
  intros Thr. induction todo as [|e todo IH]; intros ran st st' E; cbn [run_entries] in E; [injection E as <-; apply calm_refl|].
  set (st1 := if _ && _ then _ else st) in E. assert (C1 : calm st st1) by (unfold st1; destruct (_ && _); [apply calm_scope; auto|apply calm_refl]). clearbody st1.
  destruct (run_entry thr e st1) as [[[| |] st2]| | |] eqn:E2; cbn [andthen] in E; try discriminate.
  eapply calm_trans; [exact C1|]. eapply calm_trans; [exact (calm_entry _ _ _ _ Thr E2)|]. eapply calm_trans; [|exact (IH _ _ _ E)]. apply calm_scope; auto.
Qed.
Lemma calm_settle sc b st st' : settle_protector sc b st = Ok st' -> calm st st'.
Proof.
  unfold settle_protector. destruct (_ && _ && _); [|intros E; injection E as <-; apply calm_refl].
  assert (C : calm st (with_scope sc (s_set_prot false) st)) by (apply calm_scope; auto).
  destruct b; [intros E; injection E as <-; exact C|]. destruct (release _ _) as [s1| | |] eqn:R; cbn [bind]; try discriminate. intros E. injection E as <-.
  eapply calm_trans; [exact C|]. eapply calm_trans; [exact (calm_release _ _ _ R)|apply calm_node].
Qed.
Lemma calm_drop sc st : calm st (drop_protector sc st).
Proof.
  unfold drop_protector. destruct (_ =? 0); [apply calm_refl|]. set (st1 := if n_ok _ then _ else st).
  assert (C : calm st st1) by (unfold st1; destruct (n_ok _); [eapply calm_trans; [apply calm_node|apply calm_ctx; auto]|apply calm_refl]).
  eapply calm_trans; [exact C|]. eapply calm_trans; [apply calm_node|]. apply calm_scope; auto.
Qed.
Lemma calm_free thr sc st st' : (forall ex s s', thr ex 0 s <> Ok (RNorm, s')) -> deferred_free thr sc st = Ok (RNorm, st') -> calm st st'.
Proof.
  intros Thr. unfold deferred_free. destruct (negb (s_live _)); [discriminate|]. destruct (negb (s_arr _)); [intros E; injection E as <-; apply calm_refl|].
  destruct (run_entries _ _ _ _ _) as [[[| |] st1]| | |] eqn:E1; cbn [andthen]; try discriminate.
  destruct (settle_protector _ _ _) as [st2| | |] eqn:E2; cbn [bind]; try discriminate. intros E. injection E as <-.
  eapply calm_trans; [apply (calm_scope sc (s_set_rec (s_err (scopes st sc) =? 0))); auto|]. eapply calm_trans; [exact (calm_entries _ _ _ Thr _ _ _ E1)|].
  eapply calm_trans; [exact (calm_settle _ _ _ _ E2)|]. eapply calm_trans; [apply calm_drop|]. apply calm_scope; auto.
Qed.
Lemma calm_ptrs fuel : forall p temp st st', unwind_ptrs fuel p temp st = Ok st' -> calm st st'.
Proof.
  induction fuel as [|f IH]; intros p temp st st' E; cbn [unwind_ptrs] in E; [discriminate|]. destruct (p =? 0); [injection E as <-; apply calm_refl|].
  destruct (negb (n_live _)); [discriminate|]. destruct (negb (n_ok _)); [injection E as <-; apply calm_refl|]. destruct (temp =? _); [injection E as <-; apply calm_refl|].
  destruct (n_val (nodes st p) =? 0); cbn [bind] in E; [exact (IH _ _ _ _ E)|]. destruct (release _ _) as [s1| | |] eqn:R; cbn [bind] in E; try discriminate.
  eapply calm_trans; [apply calm_node|]. eapply calm_trans; [exact (calm_release _ _ _ R)|]. exact (IH _ _ _ _ E).
Qed.

Lemma pend_set ex pm s : s_pending (s_set_err ex pm s) = reason ex pm.
Proof. reflexivity. Qed.
Lemma reason_pick ex pm : (if reason ex pm =? 0 then ex else reason ex pm) = reason ex pm.
Proof. unfold reason. destruct (Z.eqb_spec pm 0) as [|Hp]; [destruct (Z.eqb_spec ex 0); congruence|]. apply Z.eqb_neq in Hp. rewrite Hp. reflexivity. Qed.
(** ** a throw *)
Lemma unstacked_throw f ex st x st' : c_unstack (ctxs st (cur st)) = true -> ex_throw f ex 0 st = Ok (x, st') -> exists e p, x = RExit e p.
Proof. destruct f as [|f]; cbn [ex_throw]; [discriminate|]. intros ->. unfold terminate. intros E. injection E as <- _. eauto. Qed.
Lemma entry_no_jump f e st i v st' : c_unstack (ctxs st (cur st)) = true -> run_entry (ex_throw f) e st <> Ok (RJump i v, st').
Proof.
  intros U. unfold run_entry. destruct (e_kind e) as [g|]; [|discriminate]. destruct (d_recover g) as [n|].
  - destruct (arena (emit _ st) =? 0); cbn [bind]; [discriminate|]. pose proof (calm_caught (arena (emit (EDefer (d_act g) (e_data e)) st)) n (emit (EDefer (d_act g) (e_data e)) st)) as C.
    destruct (is_caught _ _ _) as [b s1]. cbn [snd] in C. destruct (d_throw g) as [x|]; [|discriminate]. intros E. eapply unstacked_throw in E as (e' & p' & E); [discriminate|].
    assert (C' : calm st (if b then emit (ECaught n) s1 else s1)) by (eapply calm_trans; [apply calm_emit|]; destruct b; [eapply calm_trans; [exact C|apply calm_emit]|exact C]).
    rewrite (ca_cur _ _ C'). destruct (ca_ctx _ _ C' (cur st)) as [_ ->]. exact U.
  - cbn [bind]. destruct (d_throw g) as [x|]; [|discriminate]. intros E. eapply unstacked_throw in E as (e' & p' & E); [discriminate|exact U].
Qed.
Lemma entries_no_jump f sc todo : forall ran st i v st', c_unstack (ctxs st (cur st)) = true -> run_entries (ex_throw f) sc ran todo st <> Ok (RJump i v, st').
Proof.
  induction todo as [|e todo IH]; intros ran st i v st' U E; cbn [run_entries] in E; [discriminate|].
  set (st1 := if _ && _ then _ else st) in E. assert (C1 : calm st st1) by (unfold st1; destruct (_ && _); [apply calm_scope; auto|apply calm_refl]). clearbody st1.
  assert (U1 : c_unstack (ctxs st1 (cur st1)) = true) by (rewrite (ca_cur _ _ C1); destruct (ca_ctx _ _ C1 (cur st)) as [_ ->]; exact U).
  pose proof (fun s' => entry_no_jump f e st1 i v s' U1) as Nj. destruct (run_entry (ex_throw f) e st1) as [[[| |] st2]| | |] eqn:E2; cbn [andthen] in E; try discriminate.
  - eapply IH; [|exact E]. pose proof (calm_entry _ _ _ _ (fun ex => throw_ends f ex 0) E2) as C2. change (c_unstack (ctxs st2 (cur st2)) = true). rewrite (ca_cur _ _ C2). destruct (ca_ctx _ _ C2 (cur st1)) as [_ ->]. exact U1.
  - injection E as -> -> ->. exact (Nj _ eq_refl).
Qed.
Lemma free_no_jump f sc st i v st' : c_unstack (ctxs st (cur st)) = true -> deferred_free (ex_throw f) sc st <> Ok (RJump i v, st').
Proof.
  intros U. unfold deferred_free. destruct (negb (s_live _)); [discriminate|]. destruct (negb (s_arr _)); [discriminate|]. intros E.
  pose proof (fun s' => entries_no_jump f sc (s_defers (scopes st sc)) [] (with_scope sc (s_set_rec (s_err (scopes st sc) =? 0)) st) i v s' U) as Nj.
  destruct (run_entries _ _ _ _ _) as [[[| |] st1]| | |]; cbn [andthen] in E; try discriminate.
  - destruct (settle_protector _ _ _); cbn [bind] in E; discriminate.
  - injection E as -> -> ->. exact (Nj _ eq_refl).
Qed.
(** Unwinding that comes back leaves the messages alone. *)
Lemma unwind_calm fuel f id st x st' : id = cur st -> unwind fuel (ex_throw f) id st = Ok (x, st') -> (forall i v, x <> RJump i v) /\
  (x = RNorm -> cur st' = cur st /\ ready st' = ready st /\ arena st' = arena st /\ hook_set st' = hook_set st /\ (forall i, c_ex (ctxs st' i) = c_ex (ctxs st i)) /\
     forall i, s_pending (scopes st' i) = s_pending (scopes st i) /\ s_live (scopes st' i) = s_live (scopes st i)).
Proof.
  intros Hid. unfold unwind. set (st1 := with_ctx id (c_set_unstack true) st).
  assert (U : c_unstack (ctxs st1 (cur st1)) = true) by (unfold st1; ctx_tac; rewrite Hid, upd_same; reflexivity).
  assert (C1 : forall i, c_ex (ctxs st1 i) = c_ex (ctxs st i)) by (intros i; unfold st1; ctx_tac; unfold upd; destruct (Z.eqb_spec i id) as [->|_]; reflexivity).
  match goal with |- andthen ?mm _ = _ -> _ => set (m := mm) end.
  assert (Q : match m with Ok (RJump _ _, _) => False | Ok (RNorm, st2) => calm st1 st2 | _ => True end).
  { unfold m. destruct (c_unwind (ctxs st1 id) && hook_unwind st1).
    { pose proof (fun i v s' => free_no_jump f (c_data (ctxs st1 id)) st1 i v s' U) as Nj. pose proof (fun s' => calm_free (ex_throw f) (c_data (ctxs st1 id)) st1 s' (fun ex => throw_ends f ex 0)) as Cf.
      destruct (deferred_free _ _ _) as [[[| |] s2]| | |]; auto. exact (Nj _ _ _ eq_refl). }
    destruct (c_unwind (ctxs st1 id) && c_raii (ctxs st1 id) && (ready st1 && (c_data (ctxs st1 id) =? root))).
    { pose proof (fun i v s' => free_no_jump f root st1 i v s' U) as Nj. pose proof (fun s' => calm_free (ex_throw f) root st1 s' (fun ex => throw_ends f ex 0)) as Cf.
      destruct (deferred_free _ _ _) as [[[| |] s2]| | |]; auto. exact (Nj _ _ _ eq_refl). }
    destruct (unwind_ptrs _ _ _ _) as [s2| | |] eqn:E; cbn [bind]; auto. exact (calm_ptrs _ _ _ _ _ E). }
  destruct m as [[[| |] st2]| | |]; cbn [andthen]; intros E; try discriminate; try contradiction; injection E as <- <-; (split; [discriminate|]); [|discriminate].
  intros _. destruct Q as [Q1 Q2 Q3 Q4 Q5 Q6]. ctx_tac. split; [exact Q1|]. split; [exact Q2|]. split; [exact Q3|]. split; [exact Q4|]. split; [|exact Q6].
  intros i. destruct (Q5 i) as [Q _]. rewrite <- C1, <- Q. unfold upd. destruct (Z.eqb_spec i id) as [->|_]; reflexivity.
Qed.

(** Every throw that reaches a handler: which handler, and what the two queries give there. *)
Theorem message_thrown : forall fuel ex pm st id v st', ex_throw fuel ex pm st = Ok (RJump id v, st') ->
  id = cur st /\ cur st' = id /\
  (hook_set st = true -> ready st = true -> s_live (scopes st (arena st)) = true -> get_message st' = Ok (reason ex pm)) /\
  (hook_set st = false -> c_raii (ctxs st id) = true -> raii_message st' = Ok (reason ex pm)) /\
  (ready st = true -> (hook_set st = true /\ arena st <> root) \/ (hook_set st = false /\ c_raii (ctxs st id) = false) ->
     raii_message st' = Ok (if s_pending (scopes st root) =? 0 then ex else s_pending (scopes st root))).
Proof.
  intros [|f] ex pm st id v st' E; cbn [ex_throw] in E; [discriminate|]. destruct (c_unstack _); [discriminate|]. set (c := cur st) in *.
  destruct (setup _ _ _ _) as [st1| | |] eqn:E1; cbn [bind] in E; try discriminate.
  assert (C1 : cur st1 = c).
  { revert E1. unfold setup. ctx_tac. destruct (hook_set st); [destruct (arena st =? 0); [discriminate|]|destruct (c_raii _)]; intros Q; injection Q as <-; try reflexivity.
    unfold record_err, raii_init. ctx_tac. destruct (ready st); reflexivity. }
  destruct (unwind _ _ _ _) as [[x st2]| | |] eqn:E2; cbn [andthen] in E; try discriminate.
  destruct (unwind_calm _ _ _ _ _ _ (eq_sym C1) E2) as [Nj Q]. destruct x as [|i w|]; [|destruct (Nj i w eq_refl)|discriminate].
  destruct (Q eq_refl) as (Q1 & Q2 & Q3 & Q4 & Q5 & Q6). destruct (c =? root); [discriminate|]. injection E as <- _ <-.
  split; [reflexivity|]. split; [congruence|].
  unfold get_message, raii_message, raii_message_by. rewrite Q1, Q2, Q3, C1, Q5. destruct (Q6 root) as [-> _], (Q6 (arena st1)) as [-> ->].
  revert E1. unfold setup. ctx_tac. rewrite upd_same. cbn [c_thrown c_raii]. destruct (hook_set st) eqn:Hk.
  - destruct (Z.eqb_spec (arena st) 0) as [|Ha]; [discriminate|]. intros E. injection E as <-. unfold record_err. ctx_tac. rewrite !upd_same. split; [|split; [discriminate|]].
    + intros _ -> L. cbn [negb s_set_err s_live]. rewrite L. apply Z.eqb_neq in Ha. rewrite Ha. reflexivity.
    + intros -> [[_ Hr]|[A _]]; [|discriminate]. cbn [negb]. rewrite upd_other by auto. reflexivity.
  - destruct (c_raii (ctxs st c)) eqn:Ri; intros E; injection E as <-.
    + split; [discriminate|]. split; [|intros _ [[A _]|[_ A]]; discriminate]. intros _ _. unfold record_err, raii_init. ctx_tac. destruct (ready st) eqn:R; ctx_tac; rewrite ?R, !upd_same; fold c; rewrite ?upd_same; rewrite ?pend_set; cbn [negb c_set_unwind c_swap_set c_thrown c_raii_init c_ex]; rewrite reason_pick; reflexivity.
    + split; [discriminate|]. split; [discriminate|]. ctx_tac. intros -> _. rewrite upd_same. reflexivity.
Qed.

(** ** C85: _get_message() *)

(** Inside a guard whose scope is live, wherever a throw lands. *)
Theorem message_in_guard_partial : forall fuel ex pm st id v st', hook_set st = true -> ready st = true -> s_live (scopes st (arena st)) = true ->
  ex_throw fuel ex pm st = Ok (RJump id v, st') -> get_message st' = Ok (reason ex pm).
Proof. intros fuel ex pm st id v st' H R L E. destruct (message_thrown _ _ _ _ _ _ _ E) as (_ & _ & Q & _). auto. Qed.
(** Every deferred function called after that, until one throws, is given the same message: running any number of them does not change it. *)
Theorem message_during_release : forall f sc ran l st st', run_entries (ex_throw f) sc ran l st = Ok (RNorm, st') -> get_message st' = get_message st /\ raii_message st' = raii_message st.
Proof. intros f sc ran l st st' E. destruct (calm_message _ _ (calm_entries _ _ _ (fun ex => throw_ends f ex 0) _ _ _ E)). auto. Qed.

From Verif Require Import ReturnModel.
(** A panic in a guard with one deferred function: the guard is entered, the panic thrown; then the deferred function runs. *)
Example message_in_guard_case :
  let st := defer_on 2 [(DFun 4 None None, 9)] (snd (enter_guard (start zeros))) in
  hook_set st = true /\ ready st = true /\ s_live (scopes st (arena st)) = true /\
  exists st' st'', ex_throw 5 ex_panic 77 st = Ok (RJump 3 1, st') /\ get_message st' = Ok 77 /\
    run_entries (ex_throw 5) 2 [] (s_defers (scopes st' 2)) st' = Ok (RNorm, st'') /\ trace st'' = [EDefer 4 9] /\ get_message st'' = Ok 77.
Proof. cbn zeta. split; [reflexivity|]. split; [reflexivity|]. split; [reflexivity|]. eexists. eexists. split; [vm_compute; reflexivity|]. split; [vm_compute; reflexivity|]. split; [vm_compute; reflexivity|]. split; vm_compute; reflexivity. Qed.
(** An exception caught inside the guard stays its message: at the end of the guard no exception is pending and the deferred functions are given the old one. *)
Theorem message_handled_refuted : exists st st', st = snd (enter_guard (start zeros)) /\ exec 9 3 2 (Try (Throw 5) (CatchAny Skip CNil) false Skip) st = Ok (RNorm, st') /\ cur st' = cur st /\ get_message st' = Ok 5.
Proof. eexists. eexists. split; [reflexivity|]. split; [vm_compute; reflexivity|]. split; vm_compute; reflexivity. Qed.
(** In the handler around a guard whose exception it receives there is no guard: NULL is dereferenced. *)
Theorem message_outside_refuted : exists st st' id, st = snd (enter_try (start zeros)) /\ exec 9 id root (Guard (Throw 5)) st = Ok (RJump id 1, st') /\ id = cur st' /\ get_message st' = Undef NullDeref.
Proof. exists (snd (enter_try (start zeros))). eexists. exists 2. split; [reflexivity|]. split; [vm_compute; reflexivity|]. split; vm_compute; reflexivity. Qed.

(** ** C86: raii_message() *)

(** Outside guards, when the context is that of the thread or is_raii of the local one happens to be set. *)
Theorem message_current_partial : forall fuel ex pm st id v st', hook_set st = false -> c_raii (ctxs st id) = true -> ex_throw fuel ex pm st = Ok (RJump id v, st') -> raii_message st' = Ok (reason ex pm).
Proof. intros fuel ex pm st id v st' H R E. destruct (message_thrown _ _ _ _ _ _ _ E) as (_ & _ & _ & Q & _). auto. Qed.
(** In every other case: the error last recorded for the thread, and if there is none the name of the exception, never its text. *)
Theorem message_otherwise : forall fuel ex pm st id v st', ready st = true -> (hook_set st = true /\ arena st <> root) \/ (hook_set st = false /\ c_raii (ctxs st id) = false) ->
  ex_throw fuel ex pm st = Ok (RJump id v, st') -> raii_message st' = Ok (if s_pending (scopes st root) =? 0 then ex else s_pending (scopes st root)).
Proof. intros fuel ex pm st id v st' R H E. destruct (message_thrown _ _ _ _ _ _ _ E) as (_ & _ & _ & _ & Q). auto. Qed.
Definition ones : Z -> Z := fun _ => 1.
Example message_current_case :
  let st := snd (enter_try (start ones)) in hook_set st = false /\ c_raii (ctxs st 2) = true /\ exists st', ex_throw 5 ex_panic 77 st = Ok (RJump 2 1, st') /\ raii_message st' = Ok 77.
Proof. cbn zeta. split; [reflexivity|]. split; [reflexivity|]. eexists. split; vm_compute; reflexivity. Qed.
Example message_otherwise_case :
  let st := snd (enter_guard (start zeros)) in ready st = true /\ hook_set st = true /\ arena st <> root /\ exists st', ex_throw 5 7 0 st = Ok (RJump 3 1, st') /\ raii_message st' = Ok 7.
Proof. cbn zeta. split; [reflexivity|]. split; [reflexivity|]. split; [discriminate|]. eexists. split; vm_compute; reflexivity. Qed.
(** A panic in a guard is reported as the word "panic", not as its text. *)
Theorem message_panic_refuted : exists st st' id, st = snd (enter_guard (start zeros)) /\ ex_throw 5 ex_panic 77 st = Ok (RJump id 1, st') /\ raii_message st' = Ok ex_panic /\ get_message st' = Ok 77.
Proof. eexists. eexists. eexists. split; [reflexivity|]. split; [vm_compute; reflexivity|]. split; vm_compute; reflexivity. Qed.
(** The first exception of the thread is reported for a later one: try { guard{} throw 10 } catch_any; try { throw 11 } catch_any, the uninitialised is_raii being 0. *)
Theorem message_stale_refuted : exists st0 st st' id, exec 9 0 root (Try (Seq (Guard Skip) (Throw 10)) (CatchAny Skip CNil) false Skip) (start zeros) = Ok (RNorm, st0) /\
  st = snd (enter_try st0) /\ ex_throw 5 11 0 st = Ok (RJump id 1, st') /\ raii_message st' = Ok 10.
Proof. eexists. eexists. eexists. eexists. split; [vm_compute; reflexivity|]. split; [reflexivity|]. split; [vm_compute; reflexivity|]. vm_compute; reflexivity. Qed.
(** In a thread that has not used the library before, NULL is dereferenced. *)
Theorem message_fresh_refuted : exists st st' id, st = snd (enter_try (start zeros)) /\ ex_throw 5 11 0 st = Ok (RJump id 1, st') /\ raii_message st' = Undef NullDeref.
Proof. eexists. eexists. eexists. split; [reflexivity|]. split; [vm_compute; reflexivity|]. vm_compute; reflexivity. Qed.

Print Assumptions message_in_guard_partial.
Print Assumptions message_during_release.
Print Assumptions message_handled_refuted.
Print Assumptions message_outside_refuted.
Print Assumptions message_current_partial.
Print Assumptions message_otherwise.
Print Assumptions message_panic_refuted.
Print Assumptions message_stale_refuted.
Print Assumptions message_fresh_refuted.

(** Before raii_init both are undefined, and the message of a scope that was released is too. *)
Theorem message_too_early : forall st, 
  (ready st = false -> raii_message st = Undef NullDeref /\ get_message st = Undef NullDeref) /\
  (ready st = true -> arena st = 0 -> get_message st = Undef NullDeref) /\
  (ready st = true -> arena st <> 0 -> s_live (scopes st (arena st)) = false -> get_message st = Undef UseAfterFree) /\
  (ready st = true -> arena st <> 0 -> s_live (scopes st (arena st)) = true -> exists m, get_message st = Ok m) /\
  (ready st = true -> exists m, raii_message st = Ok m).
Proof.
  intros st. unfold raii_message, get_message, raii_message_by. repeat split; intros; repeat match goal with H : _ = _ |- _ => rewrite H; clear H end; cbn [negb]; try reflexivity; try (eexists; reflexivity).
  - replace (arena st =? 0) with false by lia. reflexivity.
  - replace (arena st =? 0) with false by lia. eexists; reflexivity.
Qed.
Example message_too_early_met : get_message (start (fun _ => 0)) = Undef NullDeref /\ exists m, raii_message (raii_init (start (fun _ => 0))) = Ok m.
Proof. split; [vm_compute; reflexivity|apply (message_too_early (raii_init (start (fun _ => 0)))); reflexivity]. Qed.
Print Assumptions message_too_early.
