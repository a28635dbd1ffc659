(** Every statement leaves the current context, the chain of contexts and the hooks as they were. *)
From Verif Require Import BaseLemmas ExcModel SpecExc ExcProofs.

Definition hooks (st : est) := (hook_set st, hook_unwind st, arena st).
Record frame (st st' : est) : Prop := Frame { f_cur : cur st' = cur st; f_fresh : fresh st <= fresh st'; f_next : forall i, i < fresh st -> c_next (ctxs st' i) = c_next (ctxs st i); f_hooks : hooks st' = hooks st }.
Definition stable (st : est) (m : out (res * est)) : Prop :=
  forall x st', m = Ok (x, st') -> (match x with RExit _ _ => True | _ => frame st st' end) /\ (forall i v, x = RJump i v -> i = cur st /\ i <> root).

Lemma frame_refl st : frame st st.
Proof. constructor; auto; lia. Qed.
Lemma frame_trans a b c : frame a b -> frame b c -> frame a c.
Proof. intros [A1 A2 A3 A4] [B1 B2 B3 B4]. constructor; [congruence|lia| |congruence]. intros i Hi. rewrite B3 by lia. apply A3; lia. Qed.
Lemma stable_norm st st' : frame st st' -> stable st (Ok (RNorm, st')).
Proof. intros F x y [= <- <-]. split; [exact F|discriminate]. Qed.
Lemma stable_from st st' m : frame st st' -> stable st' m -> stable st m.
Proof. intros F S x y E. destruct (S x y E) as [G J]. split; [destruct x; [exact (frame_trans _ _ _ F G)..|exact I]|]. intros i v Q. destruct (J i v Q) as [-> J2]. split; [apply (f_cur _ _ F)|exact J2]. Qed.
Lemma stable_andthen st m k : stable st m -> (forall st', frame st st' -> stable st' (k st')) -> stable st (andthen m k).
Proof.
  intros S K x y E. destruct m as [[r s]| | |]; cbn [andthen] in E; try discriminate. destruct (S r s eq_refl) as [F J].
  destruct r; [|exact (S _ _ E)..]. exact (stable_from st s (k s) F (K s F) x y E).
Qed.
Lemma stable_bind {A} st (m : out A) k : (forall a, m = Ok a -> stable st (k a)) -> stable st (bind m k).
Proof. intros H x y E. destruct m as [a| | |]; cbn [bind] in E; try discriminate. exact (H a eq_refl x y E). Qed.

Lemma frame_ctx i f st : (forall c, c_next (f c) = c_next c) -> frame st (with_ctx i f st).
Proof. intros H. constructor; ctx_tac; auto; [lia|]. intros j _. unfold upd. destruct (Z.eqb_spec j i) as [->|_]; auto. Qed.
Lemma frame_scope i f st : frame st (with_scope i f st).
Proof. constructor; ctx_tac; auto; lia. Qed.
Lemma frame_node i f st : frame st (with_node i f st).
Proof. constructor; ctx_tac; auto; lia. Qed.
Lemma frame_emit e st : frame st (emit e st).
Proof. constructor; ctx_tac; auto; lia. Qed.
Lemma frame_init st : frame st (raii_init st).
Proof. unfold raii_init. destruct (ready st); [apply frame_refl|]. apply (frame_trans _ (set_ready (with_scope root (fun _ => Scope true [] 0 0 false false 0 true) st))); [constructor; ctx_tac; auto; lia|apply frame_ctx; reflexivity]. Qed.

Lemma release_frame n st st' : release n st = Ok st' -> frame st st'.
Proof. unfold release. destruct (n_free n); [destruct (n_val n =? 0); [|discriminate]|]; intros [= <-]; apply frame_emit. Qed.
Lemma is_caught_frame sc n st : frame st (snd (is_caught sc n st)).
Proof.
  unfold is_caught. cbn [snd]. destruct (_ && _); [|apply frame_scope]. eapply frame_trans; [apply frame_scope|]. apply frame_ctx. reflexivity.
Qed.

Definition thr_stable (thr : Z -> Z -> est -> out (res * est)) : Prop := forall ex pm st, stable st (thr ex pm st).

Lemma run_entry_stable thr e st : thr_stable thr -> stable st (run_entry thr e st).
Proof.
  intros T. unfold run_entry. destruct (e_kind e) as [f|]; [|apply stable_norm, frame_emit].
  apply stable_bind. intros st1 E.
  assert (F : frame st st1).
  { destruct (d_recover f) as [n|]; [|injection E as <-; apply frame_emit].
    destruct (arena _ =? 0); [discriminate|]. set (s0 := emit _ st) in *. assert (F0 : frame st s0) by apply frame_emit. pose proof (is_caught_frame (arena s0) n s0) as F1.
    destruct (is_caught (arena s0) n s0) as [b s1]. cbn [snd] in F1. assert (Q : st1 = if b then emit (ECaught n) s1 else s1) by congruence. rewrite Q.
    eapply frame_trans; [exact F0|]. eapply frame_trans; [exact F1|]. destruct b; [apply frame_emit|apply frame_refl]. }
  destruct (d_throw f); [|apply stable_norm; exact F]. apply (stable_from _ _ _ F), T.
Qed.
Lemma run_entries_stable thr sc todo : thr_stable thr -> forall ran st, stable st (run_entries thr sc ran todo st).
Proof.
  intros T. induction todo as [|e rest IH]; intros ran st; cbn [run_entries]; [apply stable_norm, frame_refl|].
  set (st1 := if _ && _ then _ else st). assert (F : frame st st1) by (unfold st1; destruct (_ && _); [apply frame_scope|apply frame_refl]).
  apply (stable_from _ _ _ F). apply stable_andthen; [apply run_entry_stable; exact T|]. intros st2 _. eapply stable_from; [|apply IH]. apply frame_scope.
Qed.
Lemma settle_frame sc b st st' : settle_protector sc b st = Ok st' -> frame st st'.
Proof.
  unfold settle_protector. destruct (_ && _); [|intros [= <-]; apply frame_refl]. destruct b; [intros [= <-]; apply frame_scope|].
  destruct (release _ _) as [s1| | |] eqn:E; cbn [bind]; try discriminate. intros [= <-]. apply release_frame in E. eapply frame_trans; [apply frame_scope|]. eapply frame_trans; [exact E|]. apply frame_node.
Qed.
Lemma drop_frame sc st : frame st (drop_protector sc st).
Proof.
  unfold drop_protector. destruct (_ =? 0); [apply frame_refl|]. destruct (n_ok _).
  - eapply frame_trans; [|apply frame_scope]. eapply frame_trans; [|apply frame_node]. eapply frame_trans; [apply frame_node|]. apply frame_ctx. reflexivity.
  - eapply frame_trans; [|apply frame_scope]. apply frame_node.
Qed.
Lemma deferred_stable thr sc st : thr_stable thr -> stable st (deferred_free thr sc st).
Proof.
  intros T. unfold deferred_free. destruct (s_live _); cbn [negb]; [|discriminate]. destruct (s_arr _); cbn [negb]; [|apply stable_norm, frame_refl].
  eapply stable_from; [apply frame_scope|]. apply stable_andthen; [apply run_entries_stable; exact T|]. intros st1 _. apply stable_bind. intros st2 E. apply settle_frame in E. apply stable_norm.
  eapply frame_trans; [exact E|]. eapply frame_trans; [apply drop_frame|]. apply frame_scope.
Qed.
Lemma fold_emit_frame l : forall st, frame st (fold_left (fun st e => emit (EFree (e_data e)) st) l st).
Proof. induction l as [|e l IH]; intros st; [apply frame_refl|]. cbn [fold_left]. eapply frame_trans; [apply (frame_emit (EFree (e_data e)))|apply IH]. Qed.
Lemma free_root_frame st : frame st (free_root st).
Proof. unfold free_root. destruct (_ && _); [|apply frame_refl]. eapply frame_trans; [apply fold_emit_frame|apply frame_scope]. Qed.
Lemma terminate_stable st : stable st (terminate st).
Proof. unfold terminate. intros x y [= <- <-]. split; [exact I|discriminate]. Qed.
Lemma unwind_ptrs_frame fuel : forall p temp st st', unwind_ptrs fuel p temp st = Ok st' -> frame st st'.
Proof.
  induction fuel as [|f IH]; intros p temp st st'; cbn [unwind_ptrs]; [discriminate|].
  destruct (p =? 0); [intros [= <-]; apply frame_refl|]. destruct (n_live _); cbn [negb]; [|discriminate]. destruct (n_ok _); cbn [negb]; [|intros [= <-]; apply frame_refl].
  destruct (temp =? _); [intros [= <-]; apply frame_refl|].
  destruct (n_val (nodes st p) =? 0); cbn [bind].
  - intros E. apply IH in E. exact E.
  - destruct (release _ _) as [s1| | |] eqn:E; cbn [bind]; try discriminate. intros E2. apply IH in E2. apply release_frame in E. eapply frame_trans; [apply frame_node|]. eapply frame_trans; [exact E|exact E2].
Qed.
Lemma unwind_stable fuel thr id st : thr_stable thr -> stable st (unwind fuel thr id st).
Proof.
  intros T. unfold unwind. eapply stable_from; [apply (frame_ctx id (c_set_unstack true)); reflexivity|].
  apply stable_andthen; [|intros st1 _; apply stable_norm, frame_ctx; reflexivity].
  destruct (_ && hook_unwind _); [apply deferred_stable; exact T|]. destruct (_ && _ && _); [apply deferred_stable; exact T|].
  apply stable_bind. intros st1 E. apply unwind_ptrs_frame in E. apply stable_norm, E.
Qed.
Lemma setup_frame id ex pm st st' : setup id ex pm st = Ok st' -> frame st st'.
Proof.
  assert (R : forall sc s, frame s (record_err id sc ex pm s)) by (intros; unfold record_err; eapply frame_trans; [apply frame_scope|]; apply frame_ctx; reflexivity).
  unfold setup. destruct (hook_set st); [destruct (arena st =? 0); [discriminate|]; intros [= <-]; apply R|].
  destruct (c_raii _); intros [= <-]; [|apply frame_refl]. eapply frame_trans; [apply frame_init|apply R].
Qed.
Lemma throw_stable fuel : thr_stable (ex_throw fuel).
Proof.
  induction fuel as [|f IH]; intros ex pm st; cbn [ex_throw]; [discriminate|].
  destruct (c_unstack _); [apply terminate_stable|].
  assert (F : frame st (with_ctx (cur st) (c_thrown ex pm) st)) by (apply frame_ctx; reflexivity).
  apply (stable_from _ _ _ F). apply stable_bind. intros st1 E. apply setup_frame in E. pose proof (f_cur _ _ E) as C.
  apply (stable_from _ _ _ E). apply stable_andthen; [apply unwind_stable; exact IH|]. intros st2 F2.
  destruct (Z.eqb_spec (cur st) root) as [_|Hr]; [apply terminate_stable|]. intros x y [= <- <-]. split; [apply frame_refl|]. intros i v [= <- _]. rewrite (f_cur _ _ F2). rewrite C. auto.
Qed.

(** ** blocks *)

(** Inside a block entered from [st0] with context [id]. *)
Record within (st0 : est) (id : Z) (st : est) : Prop := Within { w_fresh : id < fresh st; w_next : c_next (ctxs st id) = cur st0; w_ctx : forall i, i < id -> c_next (ctxs st i) = c_next (ctxs st0 i); w_hooks : hooks st = hooks st0 }.
Lemma within_frame st0 id st st' : within st0 id st -> frame st st' -> within st0 id st'.
Proof. intros [A B C H] [D E F G]. constructor; [lia| | |congruence]; [rewrite F by lia; exact B|]. intros i Hi. rewrite F by lia. auto. Qed.
Lemma within_cur st0 id st v : within st0 id st -> within st0 id (set_cur v st).
Proof. intros [A B C]. constructor; assumption. Qed.
(** Left: the enclosing context is current again and the hooks are [hk]. *)
Definition popped (st0 : est) (hk : bool * bool * Z) (st : est) : est := set_arena (snd hk) (set_hooks (fst (fst hk)) (snd (fst hk)) (set_cur (cur st0) st)).
Record beyond (st0 : est) (hk : bool * bool * Z) (id : Z) (st : est) : Prop := Beyond { b_fresh : id < fresh st; b_next : c_next (ctxs st id) = cur st0; b_ctx : forall i, i < id -> c_next (ctxs st i) = c_next (ctxs st0 i); b_hooks : hooks st = hk; b_cur : cur st = cur st0 }.
Lemma popped_beyond st0 hk id st : within st0 id st -> beyond st0 hk id (popped st0 hk st).
Proof. intros [A B C H]. constructor; auto. destruct hk as [[? ?] ?]. reflexivity. Qed.
Lemma beyond_frame st0 hk id st st' : beyond st0 hk id st -> frame st st' -> beyond st0 hk id st'.
Proof. intros [A B C H H2] [D E F G]. constructor; [lia| | |congruence|congruence]; [rewrite F by lia; exact B|]. intros i Hi. rewrite F by lia. auto. Qed.

Lemma landing_stable fuel id st0 hk body hand fin :
  fresh st0 <= id -> cur st0 < id ->
  (forall st, within st0 id st -> cur st = id -> stable st (body st)) ->
  (forall st, within st0 id st -> cur st = id -> stable st (hand st)) ->
  (forall st, within st0 id st -> cur st = id -> (stable st (fin st) /\ hk = hooks st0) \/ stable (popped st0 hk st) (fin st)) ->
  forall n v st, within st0 id st -> cur st = id -> (n <= fuel)%nat ->
  forall x st', landing n id body hand fin v st = Ok (x, st') -> (forall i w, x = RJump i w -> i = cur st0 /\ i <> root) /\ (match x with RExit _ _ => True | _ => beyond st0 hk id st' end).
Proof.
  intros Hf Hc Hb Hh Hfin. induction n as [|n IH]; intros v st W C Hn x st'; cbn [landing]; [discriminate|].
  assert (F1 : frame st (with_ctx id (c_set_state v) st)) by (apply frame_ctx; reflexivity).
  set (st1 := with_ctx id (c_set_state v) st) in *. pose proof (within_frame _ _ _ _ W F1) as W1.
  assert (C1 : cur st1 = id) by (rewrite (f_cur _ _ F1); exact C).
  set (Goal := fun (x : res) (st' : est) => (forall i w, x = RJump i w -> i = cur st0 /\ i <> root) /\ match x with RExit _ _ => True | _ => beyond st0 hk id st' end) in *.
  assert (Exit : forall a b s, Ok (RExit a b, s) = Ok (x, st') -> Goal x st') by (intros a b s [= <- <-]; split; [discriminate|exact I]).
  (* a jump to the block itself *)
  assert (Back : forall w s, within st0 id s -> cur s = id -> landing n id body hand fin w s = Ok (x, st') -> Goal x st') by (intros w s Ws Cs; apply IH; auto; lia).
  assert (Sb : stable st1 (if v =? 0 then body st1 else Ok (RNorm, st1))) by (destruct (v =? 0); [apply Hb; auto|apply stable_norm, frame_refl]).
  destruct (if v =? 0 then body st1 else Ok (RNorm, st1)) as [[y2 st2]| | |]; cbn [andthen]; try discriminate.
  destruct (Sb y2 st2 eq_refl) as [F2 J2].
  destruct y2 as [|j v'|a b]; [| |apply Exit]; pose proof (within_frame _ _ _ _ W1 F2) as W2; (assert (C2 : cur st2 = id) by (rewrite (f_cur _ _ F2); exact C1)).
  2: { destruct (J2 j v' eq_refl) as [-> _]. rewrite C1, Z.eqb_refl. apply Back; auto. }
  pose proof (Hh st2 W2 C2) as Sh. destruct (hand st2) as [[y3 st3]| | |]; cbn [andthen]; try discriminate.
  destruct (Sh y3 st3 eq_refl) as [F3 J3].
  destruct y3 as [|j v'|a b]; [| |apply Exit]; pose proof (within_frame _ _ _ _ W2 F3) as W3; (assert (C3 : cur st3 = id) by (rewrite (f_cur _ _ F3); exact C2)).
  2: { destruct (J3 j v' eq_refl) as [-> _]. rewrite C2, Z.eqb_refl. apply Back; auto. }
  (* the end of the block *)
  assert (Et : forall s, (within st0 id s /\ cur s = id /\ hk = hooks st0) \/ beyond st0 hk id s -> forall z s', end_try (S n) id s = Ok (z, s') ->
     (forall i w, z = RJump i w -> i = cur st0 /\ i <> root) /\ match z with RExit _ _ => True | _ => beyond st0 hk id s' end).
  { intros s Ws z s'. unfold end_try. set (s1 := if cur s =? id then _ else s).
    assert (Q : beyond st0 hk id s1).
    { unfold s1. destruct Ws as [(Ws & -> & ->)|Ws].
      - rewrite Z.eqb_refl. destruct Ws as [A B D H]. constructor; auto.
      - rewrite (b_cur _ _ _ _ Ws). replace (cur st0 =? id) with false by lia. exact Ws. }
    destruct (Z.odd _).
    - intros E. destruct (throw_stable _ _ _ _ _ _ E) as [G J]. split; [intros i w X; destruct (J i w X) as [-> ?]; split; [apply (b_cur _ _ _ _ Q)|assumption]|]. destruct z; [| |exact I]; exact (beyond_frame _ _ _ _ _ Q G).
    - intros [= <- <-]. split; [discriminate|exact Q]. }
  assert (Fin : forall s, (within st0 id s /\ cur s = id /\ hk = hooks st0) \/ beyond st0 hk id s ->
     match end_try (S n) id s with Ok (RJump j v', s') => if j =? id then landing n id body hand fin v' s' else end_try (S n) id s | _ => end_try (S n) id s end = Ok (x, st') -> Goal x st').
  { intros s Ws. destruct (end_try (S n) id s) as [[z s']| | |] eqn:E; try discriminate. destruct (Et s Ws z s' E) as (A & B).
    destruct z as [|j v'|a b]; [intros [= <- <-]; split; assumption| |apply Exit]. destruct (A j v' eq_refl) as [-> _]. replace (cur st0 =? id) with false by lia. intros [= <- <-]. split; assumption. }
  destruct (Hfin st3 W3 C3) as [[Sf Hk]|Sf]; destruct (fin st3) as [[y4 st4]| | |]; cbn [andthen]; try discriminate; destruct (Sf y4 st4 eq_refl) as [F4 J4].
  - destruct y4 as [|j v'|a b]; [| |apply Exit]; pose proof (within_frame _ _ _ _ W3 F4) as W4; (assert (C4 : cur st4 = id) by (rewrite (f_cur _ _ F4); exact C3)); [apply Fin; left; auto|].
    destruct (J4 j v' eq_refl) as [-> _]. rewrite C3, Z.eqb_refl. apply Back; auto.
  - destruct y4 as [|j v'|a b]; [| |apply Exit]; pose proof (beyond_frame _ _ _ _ _ (popped_beyond _ hk _ _ W3) F4) as W4; [apply Fin; auto|].
    destruct (J4 j v' eq_refl) as [-> J5]. change (cur (popped st0 hk st3)) with (cur st0) in *. replace (cur st0 =? id) with false by lia.
    intros [= <- <-]. split; [intros i w [= <- _]; auto|assumption].
Qed.

Definition wf (st : est) : Prop := 0 <= cur st < fresh st.
Lemma wf_frame st st' : wf st -> frame st st' -> wf st'.
Proof. unfold wf. intros W [A B C]. lia. Qed.

(** [sts]: the state at ex_try; for a guard the hooks have been changed since [st]. *)
Lemma block_stable fuel sts st body hand fin : wf st -> frame st (popped sts (hooks st) sts) ->
  let '(id, st1) := new_ctx sts in
  (forall s, within sts id s -> cur s = id -> stable s (body s)) ->
  (forall s, within sts id s -> cur s = id -> stable s (hand s)) ->
  (forall s, within sts id s -> cur s = id -> (stable s (fin s) /\ hooks st = hooks sts) \/ stable (popped sts (hooks st) s) (fin s)) ->
  stable st (landing fuel id body hand fin 0 st1).
Proof.
  intros W [F1 F2 F3 F4]. unfold new_ctx. set (id := fresh sts). set (st1 := set_cur id _). intros Hb Hh Hfin x st' E. unfold popped in F1, F2, F3. cbn [set_arena set_hooks set_cur cur fresh ctxs] in F1, F2, F3. unfold wf in W.
  assert (W1 : within sts id st1). { constructor; unfold st1; ctx_tac; [unfold id; lia|rewrite upd_same; reflexivity| |reflexivity]. intros i Hi. rewrite upd_other by lia. reflexivity. }
  destruct (landing_stable fuel id sts (hooks st) body hand fin ltac:(unfold id; lia) ltac:(unfold id; lia) Hb Hh Hfin fuel 0 st1 W1 eq_refl (le_n _) x st' E) as (B & C).
  split; [|intros j w Q; destruct (B _ _ Q) as [-> ?]; split; assumption].
  destruct x as [|i v|a b]; [| |exact I]; destruct C as [A1 A2 A3 A4 A5]; (constructor; [congruence|unfold id in *; lia| |congruence]); intros i' Hi; rewrite A3 by (unfold id; lia); auto.
Qed.

Lemma within_wf st0 id st : wf st0 -> fresh st0 <= id -> within st0 id st -> cur st = id -> wf st.
Proof. unfold wf. intros W H [A B C D] E. lia. Qed.

(** Every statement. *)
Lemma exec_stable :
  (forall s fuel lx sc st, wf st -> stable st (exec fuel lx sc s st)) /\
  (forall cs fuel id sc st, wf st -> stable st (handle fuel id sc cs st)).
Proof.
  apply stmt_clauses_ind.
  - intros fuel lx sc st _. apply stable_norm, frame_refl.
  - intros a fuel lx sc st _. apply stable_norm, frame_emit.
  - intros s1 IH1 s2 IH2 fuel lx sc st W. cbn [exec]. apply stable_andthen; [auto|]. intros st' F. apply IH2. exact (wf_frame _ _ W F).
  - intros e fuel lx sc st _. apply throw_stable.
  - intros m fuel lx sc st _. apply throw_stable.
  - intros fuel lx sc st _. apply throw_stable.
  - intros b IHb cs IHc hf f IHf fuel lx sc st W. cbn [exec].
    pose proof (block_stable fuel st st (fun s => exec fuel (fresh st) sc b s) (fun s => handle fuel (fresh st) sc cs s) (fun s => if hf then exec fuel (fresh st) sc f (set_cur (c_next (ctxs s (fresh st))) s) else Ok (RNorm, s)) W) as B. assert (Fp : frame st (popped st (hooks st) st)) by (constructor; auto; cbn; lia). specialize (B Fp).
    unfold new_ctx in *. apply B.
    + intros s Ws Cs. apply IHb. apply (within_wf st (fresh st)); auto. lia.
    + intros s Ws Cs. apply IHc. apply (within_wf st (fresh st)); auto. lia.
    + intros s Ws Cs. destruct hf; [right|left; split; [apply stable_norm, frame_refl|reflexivity]]. rewrite (w_next _ _ _ Ws).
      assert (Ps : frame (popped st (hooks st) s) (set_cur (cur st) s)) by (constructor; [reflexivity|cbn; lia|reflexivity|]; exact (w_hooks _ _ _ Ws)).
      apply (stable_from _ _ _ Ps). apply IHf. unfold wf in *. ctx_tac. destruct Ws. lia.
  - intros b IHb fuel lx sc st W. cbn [exec]. cbv zeta.
    set (g := fresh (raii_init st)). set (sts := set_arena g _).
    assert (Fi := frame_init st).
    assert (F : frame st (popped sts (hooks st) sts)). { destruct Fi as [I1 I2 I3 I4]. unfold popped, sts. constructor; ctx_tac; auto. unfold g. lia. }
    pose proof (block_stable fuel sts st (fun s => andthen (exec fuel (fresh sts) g b s) (fun s => deferred_free (ex_throw fuel) g s)) (fun s => if c_state (ctxs s (fresh sts)) =? 1 then deferred_free (ex_throw fuel) g s else Ok (RNorm, s))
      (fun s => Ok (RNorm, with_scope g s_dead (set_hooks (hook_set (raii_init st)) (hook_unwind (raii_init st)) (with_ctx (cur (set_cur (c_next (ctxs s (fresh sts))) s)) c_swap_reset (set_arena (arena (raii_init st)) (set_cur (c_next (ctxs s (fresh sts))) s)))))) W F) as B.
    unfold new_ctx in *. assert (W0 : wf sts) by (pose proof (wf_frame _ _ W F) as W0; exact W0). apply B.
    + intros s Ws Cs. apply stable_andthen; [apply IHb; apply (within_wf sts (fresh sts)); auto; lia|]. intros s' _. apply deferred_stable, throw_stable.
    + intros s Ws Cs. destruct (_ =? 1); [apply deferred_stable, throw_stable|apply stable_norm, frame_refl].
    + intros s Ws Cs. right. apply stable_norm. rewrite (w_next _ _ _ Ws). destruct Fi as [_ _ _ I4]. unfold hooks in I4. injection I4 as -> -> ->. constructor; unfold popped, hooks; ctx_tac; try reflexivity; try lia. intros i _. unfold upd. destruct (Z.eqb_spec i (cur sts)) as [->|_]; reflexivity.
  - intros f d fuel lx sc st _. apply stable_norm. eapply frame_trans; [apply frame_init|apply frame_scope].
  - intros w fuel lx sc st _. cbn [exec]. apply stable_norm. eapply frame_trans; [apply frame_init|]. generalize (raii_init st). clear st. intros st. unfold malloc_full. cbv zeta.
    eapply frame_trans; [|apply frame_scope]. unfold protect. eapply frame_trans; [|apply frame_ctx; reflexivity]. eapply frame_trans; [|apply frame_node].
    destruct (_ =? 0); constructor; ctx_tac; auto; lia.
  - intros a v s IH fuel lx sc st W. cbn [exec]. cbv zeta.
    assert (F : frame st (protect (fresh st) false a v (set_fresh (fresh st + 1) st))).
    { unfold protect. eapply frame_trans; [|apply frame_ctx; reflexivity]. eapply frame_trans; [|apply frame_node]. constructor; ctx_tac; auto; lia. }
    apply (stable_from _ _ _ F). apply stable_andthen; [apply IH; exact (wf_frame _ _ W F)|]. intros s' _. apply stable_norm, frame_ctx. reflexivity.
  - intros n s1 IH1 s2 IH2 fuel lx sc st W. cbn [exec]. apply stable_bind. intros [b st1] E. unfold raii_caught in E. destruct (negb (ready st)); [discriminate|].
    assert (F : frame st st1).
    { destruct ((s_pending (scopes st root) =? 0) && _) eqn:Q in E.
      - assert (X : st1 = with_ctx (cur st) (c_set_state 2) st) by congruence. rewrite X. apply frame_ctx. reflexivity.
      - assert (X : st1 = snd (is_caught root n st)) by (destruct (is_caught root n st); cbn [snd]; congruence). rewrite X. apply is_caught_frame. }
    apply (stable_from _ _ _ F). pose proof (wf_frame _ _ W F). destruct b; auto.
  - intros fuel id sc st _. apply stable_norm, frame_refl.
  - intros e s IHs cs IHc fuel id sc st W. cbn [handle]. apply stable_andthen.
    + destruct (_ && _); [|apply stable_norm, frame_refl]. assert (F : frame st (with_ctx id (c_set_state 2) st)) by (apply frame_ctx; reflexivity). apply (stable_from _ _ _ F), IHs. exact (wf_frame _ _ W F).
    + intros s' F. apply IHc. exact (wf_frame _ _ W F).
  - intros s IHs cs IHc fuel id sc st W. cbn [handle]. apply stable_andthen.
    + destruct (_ =? 1); [|apply stable_norm, frame_refl]. assert (F : frame st (with_ctx id (c_set_state 2) st)) by (apply frame_ctx; reflexivity). apply (stable_from _ _ _ F), IHs. exact (wf_frame _ _ W F).
    + intros s' F. apply IHc. exact (wf_frame _ _ W F).
  - intros s IHs cs IHc fuel id sc st W. cbn [handle]. apply stable_andthen.
    + destruct (_ =? 1); [|apply stable_norm, frame_refl]. apply IHs. exact W.
    + intros s' F. apply IHc. exact (wf_frame _ _ W F).
Qed.
