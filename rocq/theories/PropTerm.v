(** C90-C93: what is called when an exception nobody catches ends the program. *)
From Verif Require Import BaseLemmas TermModel.

(** The calls of a list of deferred functions, in order; the same functions with NULL. *)
Definition calls (l : list (Z * Z)) : list tev := map (fun x => TCall (fst x) (snd x)) l.
Definition nulls (l : list (Z * Z)) : list (Z * Z) := map (fun x => (fst x, 0)) l.
(** [h] contains a signal after its last reset of the flags; a SIGINT. *)
Definition signal_pending (h : list before) : Prop := exists a sig b, h = a ++ Signal sig :: b /\ ~ In FlagsReset b.
Definition ctrl_c_pending (h : list before) : Prop := exists a b, h = a ++ Signal 2 :: b /\ ~ In FlagsReset b.
(** Whether an exception of the program's was ever thrown by what is called at the end. *)
Definition quiet (P : program) : Prop := forall l e, throws P l e = false.
(** Events of one kind. *)
Definition is_term (e : tev) : bool := match e with TTerminate => true | _ => false end.
Definition is_ctrl_c (e : tev) : bool := match e with TCtrlC => true | _ => false end.
Definition times (p : tev -> bool) (l : list tev) : nat := length (filter p l).

(** ** The flags *)
Lemma flags_snoc h b : flags (h ++ [b]) = flag_step (flags h) b.
Proof. unfold flags. now rewrite fold_left_app. Qed.
Lemma flags_signal h : fst (flags h) = true <-> signal_pending h.
Proof.
  induction h as [|b h IH] using rev_ind.
  - split; [discriminate|]. intros (a & s & b & E & _). now destruct a.
  - rewrite flags_snoc. destruct b as [s| |]; cbn [flag_step fst].
    + split; [|reflexivity]. intros _. exists h, s, []. split; [reflexivity|auto].
    + split; [discriminate|]. intros (a & s & b & E & N). exfalso. apply N. destruct b as [|y b _] using rev_ind; [apply app_inj_tail in E as [_ E]; discriminate|].
      rewrite app_comm_cons, app_assoc in E. apply app_inj_tail in E as [_ <-]. apply in_or_app. right. now left.
    + rewrite IH. split; intros (a & s & b & E & N).
      * exists a, s, (b ++ [Nothing]). split; [rewrite E; rewrite <- app_assoc; reflexivity|]. intros I. apply in_app_or in I as [I|[I|[]]]; [auto|discriminate].
      * destruct b as [|y b _] using rev_ind; [apply app_inj_tail in E as [_ E]; discriminate|]. rewrite app_comm_cons, app_assoc in E. apply app_inj_tail in E as [E _].
        exists a, s, b. split; [exact E|]. intros I. apply N, in_or_app. now left.
Qed.
Lemma flags_ctrl_c h : snd (flags h) = true <-> ctrl_c_pending h.
Proof.
  induction h as [|b h IH] using rev_ind.
  - split; [discriminate|]. intros (a & b & E & _). now destruct a.
  - assert (K : forall b, b <> FlagsReset -> b <> Signal 2 -> ctrl_c_pending (h ++ [b]) <-> ctrl_c_pending h).
    { intros x X1 X2. split; intros (a & y & E & N).
      - destruct y as [|z y _] using rev_ind; [apply app_inj_tail in E as [_ E]; contradiction|]. rewrite app_comm_cons, app_assoc in E. apply app_inj_tail in E as [E _].
        exists a, y. split; [exact E|]. intros I. apply N, in_or_app. now left.
      - exists a, (y ++ [x]). split; [rewrite E; rewrite <- app_assoc; reflexivity|]. intros I. apply in_app_or in I as [I|[I|[]]]; auto. }
    rewrite flags_snoc. destruct b as [s| |]; cbn [flag_step snd].
    + unfold SIGINT. destruct (Z.eqb_spec s 2) as [->|N]; [|rewrite K by congruence; exact IH]. split; [|reflexivity]. intros _. exists h, []. split; [reflexivity|auto].
    + split; [discriminate|]. intros (a & b & E & N). exfalso. apply N. destruct b as [|y b _] using rev_ind; [apply app_inj_tail in E as [_ E]; discriminate|].
      rewrite app_comm_cons, app_assoc in E. apply app_inj_tail in E as [_ <-]. apply in_or_app. right. now left.
    + rewrite K by discriminate. exact IH.
Qed.

(** ** Running the deferred functions *)
(** The state after [ran ++ todo] has run without a throw. *)
Lemma run_defers_quiet P thr todo : forall ran st, (forall a x b, todo = a ++ x :: b -> throws P (log st ++ calls a) (TCall (fst x) (snd x)) = false) ->
  defers st = ran ++ todo ->
  run_defers P thr ran todo st = Back (Tst (ran ++ nulls todo) (arr st) (prot st) (owned st) (unstack st) (got_signal st) (got_ctrl_c st) (can_term st) (exiting st) (log st ++ calls todo)).
Proof.
  induction todo as [|[f d] todo IH]; intros ran st Q D; cbn [run_defers nulls calls map].
  - rewrite app_nil_r in D. rewrite !app_nil_r. destruct st; cbn in *. now subst.
  - unfold call. specialize (Q [] (f, d) todo eq_refl) as Q0. cbn [calls map fst snd] in Q0. rewrite app_nil_r in Q0. rewrite Q0. cbn [next].
    rewrite IH; [cbn|intros a x b E|].
    + rewrite <- !app_assoc. reflexivity.
    + cbn. rewrite <- app_assoc. cbn. specialize (Q ((f, d) :: a) x b). cbn in Q. apply Q. now rewrite E.
    + cbn. now rewrite <- app_assoc.
Qed.
(** Up to the first function that throws. *)
Lemma run_defers_throw P thr pre f d old : forall ran st, (forall a x b, pre = a ++ x :: b -> throws P (log st ++ calls a) (TCall (fst x) (snd x)) = false) ->
  throws P (log st ++ calls pre) (TCall f d) = true -> defers st = ran ++ pre ++ (f, d) :: old -> (forall s s', thr s = Back s' -> False) ->
  run_defers P thr ran (pre ++ (f, d) :: old) st =
    thr (Tst (ran ++ nulls pre ++ (f, d) :: old) (arr st) (prot st) (owned st) (unstack st) (got_signal st) (got_ctrl_c st) (can_term st) (exiting st) (log st ++ calls pre ++ [TCall f d])).
Proof.
  induction pre as [|[g e] pre IH]; intros ran st Q T D NB; cbn [run_defers nulls calls map app].
  - unfold call. rewrite app_nil_r in T. rewrite T. replace (note (TCall f d) st) with (Tst (ran ++ (f, d) :: old) (arr st) (prot st) (owned st) (unstack st) (got_signal st) (got_ctrl_c st) (can_term st) (exiting st) (log st ++ [TCall f d])).
    + match goal with |- context [thr ?s] => destruct (thr s) eqn:E end; [exfalso; eauto|reflexivity|reflexivity|reflexivity].
    + unfold note. cbn in D. now rewrite D.
  - unfold call. specialize (Q [] (g, e) pre eq_refl) as Q0. cbn [calls map fst snd] in Q0. rewrite app_nil_r in Q0. rewrite Q0. cbn [next].
    rewrite IH; [cbn|intros a x b E| |cbn; now rewrite <- app_assoc|exact NB].
    + rewrite <- !app_assoc. reflexivity.
    + cbn. rewrite <- app_assoc. cbn. specialize (Q ((g, e) :: a) x b). cbn in Q. apply Q. now rewrite E.
    + cbn. rewrite <- app_assoc. exact T.
Qed.
(** ex_throw does not return here. *)
Lemma terminate_ends P thr st s : (forall s s', thr s = Back s' -> False) -> terminate P thr st <> Back s.
Proof.
  intros NB E. unfold terminate, do_exit, next in E.
  repeat match type of E with context [match ?y with _ => _ end] => destruct y eqn:? end; discriminate.
Qed.
Lemma throw_ends P fuel : forall st s, throw_out P fuel st = Back s -> False.
Proof.
  induction fuel as [|fuel IH]; intros st s E; [discriminate|]. cbn [throw_out] in E. destruct (unstack st); [now apply terminate_ends in E|].
  unfold next in E at 1. match type of E with match ?y with _ => _ end = _ => destruct y eqn:Q; try discriminate end. now apply terminate_ends in E.
Qed.

(** ** C90 *)
(** What ends a program in which nothing throws any more, from a state in which the functions of the scope are still there or have run. *)
Definition last_calls (P : program) (st : tst) : list tev :=
  (if owned st && arr st then calls (defers st) else []) ++
  (if got_ctrl_c st && has_ctrl_c P then [TCtrlC] else []) ++ (if can_term st && has_term P then [TTerminate] else []) ++
  (if got_signal st then [] else THandlers :: if negb (owned st) && arr st then calls (defers st) else []).
Lemma run_quiet P thr ran todo st : quiet P -> defers st = ran ++ todo ->
  run_defers P thr ran todo st = Back (Tst (ran ++ nulls todo) (arr st) (prot st) (owned st) (unstack st) (got_signal st) (got_ctrl_c st) (can_term st) (exiting st) (log st ++ calls todo)).
Proof. intros Q D. apply run_defers_quiet; [intros; apply Q|exact D]. Qed.
Lemma free_later P thr st : (forall k e, throws P (log st ++ k) e = false) ->
  free_scope P thr st = Back (if arr st then Tst [] false false (owned st) (unstack st) (got_signal st) (got_ctrl_c st) (can_term st) (exiting st) (log st ++ calls (defers st)) else st).
Proof. intros Q. unfold free_scope. destruct (arr st); [|reflexivity]. rewrite run_defers_quiet; [reflexivity|intros; apply Q|reflexivity]. Qed.
Lemma terminate_later P thr st : (forall k e, throws P (log st ++ k) e = false) -> exiting st = false ->
  terminate P thr st = Ended (got_signal st) (log st ++ last_calls P st).
Proof.
  intros Q X. unfold terminate, last_calls. destruct st as [ds a p o u gs gc ct x l]. cbn [defers arr prot owned unstack got_signal got_ctrl_c can_term exiting log] in *. subst x.
  set (c := if o && a then calls ds else []). set (st1 := Tst (if o && a then [] else ds) (negb o && a) (if o && a then false else p) o u gs gc ct false (l ++ c)).
  replace (if o then free_scope P thr _ else _) with (Back st1).
  2:{ subst st1 c. destruct o; [rewrite free_later by exact Q; cbn; destruct a; cbn; rewrite ?app_nil_r; reflexivity|cbn; now rewrite app_nil_r]. }
  cbn [next]. unfold st1 at 1 2 3. cbn [got_ctrl_c]. set (c2 := if gc && has_ctrl_c P then [TCtrlC] else []).
  set (st2 := Tst (defers st1) (negb o && a) (prot st1) o u gs (gc && negb (has_ctrl_c P)) ct false (l ++ c ++ c2)).
  replace (if gc && has_ctrl_c P then _ else _) with (Back st2).
  2:{ subst st2 c2. unfold call. cbn [log set_no_ctrl_c st1]. rewrite Q. destruct gc, (has_ctrl_c P); cbn; unfold note; cbn; rewrite <- ?app_assoc, ?app_nil_r; reflexivity. }
  cbn [next]. unfold st2 at 1 2 3. cbn [can_term]. set (c3 := if ct && has_term P then [TTerminate] else []).
  set (st3 := Tst (defers st1) (negb o && a) (prot st1) o u gs (gc && negb (has_ctrl_c P)) (ct && negb (has_term P)) false (l ++ c ++ c2 ++ c3)).
  replace (if ct && has_term P then _ else _) with (Back st3).
  2:{ subst st3 c3. unfold call. cbn [log set_no_term st2]. rewrite Q. destruct ct, (has_term P); cbn; unfold note; cbn; rewrite <- ?app_assoc, ?app_nil_r; reflexivity. }
  cbn [next]. unfold st3 at 1. cbn [got_signal]. destruct gs; [cbn; now rewrite app_nil_r|]. unfold do_exit. cbn [exiting st3].
  rewrite free_later by (cbn; intros; rewrite <- !app_assoc; apply Q). cbn. destruct o, a; cbn; rewrite <- ?app_assoc; cbn; reflexivity.
Qed.
Lemma throw_later P fuel st : (0 < fuel)%nat -> (forall k e, throws P (log st ++ k) e = false) -> exiting st = false ->
  throw_out P fuel st = Ended (got_signal st) (log st ++ last_calls P st).
Proof.
  intros F Q X. destruct fuel as [|fuel]; [lia|]. cbn [throw_out]. destruct (unstack st); [now apply terminate_later|].
  destruct (owned st && prot st) eqn:OP.
  - rewrite free_later by exact Q. apply andb_true_iff in OP as [O _]. cbn [next arr set_unstack]. rewrite terminate_later.
    + unfold last_calls. destruct (arr st) eqn:A; cbn; rewrite ?A, ?O; cbn; rewrite <- ?app_assoc; reflexivity.
    + destruct (arr st); cbn; intros; rewrite <- ?app_assoc; apply Q.
    + destruct (arr st); exact X.
  - cbn [next]. rewrite terminate_later; [reflexivity|exact Q|exact X].
Qed.
(** The program's last calls: the functions of the scope newest first, the Ctrl-C callback when a SIGINT is pending, the terminate callback,
    then _Exit when a signal is pending and otherwise exit, with the program's exit handlers. *)
Theorem last_words_partial : forall P h ds p fuel, quiet P -> (0 < fuel)%nat ->
  exists k l, throw_out P fuel (at_throw h ds true p) = Ended k l /\ (k = true <-> signal_pending h) /\
    exists c t x, l = calls ds ++ c ++ t ++ x /\
      (ctrl_c_pending h /\ has_ctrl_c P = true -> c = [TCtrlC]) /\ (~ (ctrl_c_pending h /\ has_ctrl_c P = true) -> c = []) /\
      t = (if has_term P then [TTerminate] else []) /\ x = (if k then [] else [THandlers]).
Proof.
  intros P h ds p fuel Q F. eexists _, _. split; [apply throw_later; [exact F|intros; apply Q|reflexivity]|]. cbn [at_throw got_signal]. split; [apply flags_signal|].
  exists (if snd (flags h) && has_ctrl_c P then [TCtrlC] else []), (if has_term P then [TTerminate] else []), (if fst (flags h) then [] else [THandlers]).
  split; [reflexivity|]. rewrite <- flags_ctrl_c. split; [intros [-> ->]; reflexivity|]. split; [|split; reflexivity].
  intros N. destruct (snd (flags h)), (has_ctrl_c P); try reflexivity. exfalso. apply N. now split.
Qed.
(** raii_init first ran inside a try block: the scope's functions run only in exit, after the callbacks, and with a signal pending not at all. *)
Theorem last_words_inside_try : forall P h ds p fuel, quiet P -> (0 < fuel)%nat ->
  exists k l, throw_out P fuel (at_throw h ds false p) = Ended k l /\ (k = true <-> signal_pending h) /\
    exists c t, l = c ++ t ++ (if k then [] else THandlers :: calls ds) /\
      (ctrl_c_pending h /\ has_ctrl_c P = true -> c = [TCtrlC]) /\ (~ (ctrl_c_pending h /\ has_ctrl_c P = true) -> c = []) /\
      t = (if has_term P then [TTerminate] else []).
Proof.
  intros P h ds p fuel Q F. eexists _, _. split; [apply throw_later; [exact F|intros; apply Q|reflexivity]|]. cbn [at_throw got_signal]. split; [apply flags_signal|].
  exists (if snd (flags h) && has_ctrl_c P then [TCtrlC] else []), (if has_term P then [TTerminate] else []).
  split; [reflexivity|]. rewrite <- flags_ctrl_c. split; [intros [-> ->]; reflexivity|]. split; [|reflexivity].
  intros N. destruct (snd (flags h)), (has_ctrl_c P); try reflexivity. exfalso. apply N. now split.
Qed.
(** So there is a program whose deferred function is never called. *)
Theorem last_words_refuted : exists P h ds fuel l k, quiet P /\ In (7, 70) ds /\
  throw_out P fuel (at_throw h ds false false) = Ended k l /\ ~ In (TCall 7 70) l.
Proof.
  exists (Program (fun _ _ => false) true true), [Signal 11], [(7, 70)], 9%nat, [TTerminate], true. split; [intros l e; reflexivity|]. split; [now left|].
  split; [vm_compute; reflexivity|]. intros [E|[]]. discriminate.
Qed.
Example last_words_case : throw_out (Program (fun _ _ => false) true true) 5 (at_throw [Signal 2; Nothing] [(3, 30); (1, 10)] true true) =
  Ended true [TCall 3 30; TCall 1 10; TCtrlC; TTerminate].
Proof. reflexivity. Qed.
Example last_words_case2 : throw_out (Program (fun _ _ => false) true true) 5 (at_throw [Signal 2; FlagsReset] [(3, 30); (1, 10)] true false) =
  Ended false [TCall 3 30; TCall 1 10; TTerminate; THandlers].
Proof. reflexivity. Qed.

(** ** C91 *)
(** What every step of the run keeps. *)
Section Kept.
  Variable P : program.
  Variable I : tst -> Prop.
  Hypothesis I_defers : forall l st, I st -> I (set_defers l st).
  Hypothesis I_wiped : forall st, I st -> I (set_wiped st).
  Hypothesis I_unstack : forall b st, I st -> I (set_unstack b st).
  Hypothesis I_exiting : forall st, I st -> I (set_exiting st).
  Hypothesis I_call : forall f d st, I st -> I (note (TCall f d) st).
  Hypothesis I_handlers : forall st, I st -> I (note THandlers st).
  Hypothesis I_ctrl_c : forall st, got_ctrl_c st = true -> has_ctrl_c P = true -> I st -> I (note TCtrlC (set_no_ctrl_c st)).
  Hypothesis I_term : forall st, can_term st = true -> has_term P = true -> I st -> I (note TTerminate (set_no_term st)).
  (** Seen in a state with [I]. *)
  Definition kept (r : tres) : Prop := match r with Back st => I st | Ended _ l | Twice l | More l => exists st, I st /\ log st = l end.
  Lemma kept_next r k : kept r -> (forall st, I st -> kept (k st)) -> kept (next r k).
  Proof. destruct r; cbn; auto. Qed.
  Lemma kept_throw fuel : forall st, I st -> kept (throw_out P fuel st).
  Proof.
    induction fuel as [|fuel IH]; intros st F; [cbn; eauto|]. cbn [throw_out]. set (thr := throw_out P fuel) in *.
    assert (C : forall e st, I (note e st) -> kept (call P thr e st)) by (intros e s Fs; unfold call; destruct (throws _ _ _); [now apply IH|exact Fs]).
    assert (R : forall todo ran st, I st -> kept (run_defers P thr ran todo st)).
    { induction todo as [|[f d] todo IHt]; intros ran s Fs; [exact Fs|]. cbn [run_defers]. apply kept_next; auto. }
    assert (D : forall st, I st -> kept (free_scope P thr st)).
    { intros s Fs. unfold free_scope. destruct (arr s); [|exact Fs]. apply kept_next; [auto|]. intros s' F'. cbn. auto. }
    assert (T : forall st, I st -> kept (terminate P thr st)).
    { clear st F. intros st F. unfold terminate. apply kept_next; [destruct (owned st); [now apply D|exact F]|]. clear st F. intros st F.
      apply kept_next; [destruct (got_ctrl_c st) eqn:G; [destruct (has_ctrl_c P) eqn:Hc; [apply C; auto|exact F]|exact F]|]. clear st F. intros st F.
      apply kept_next; [destruct (can_term st) eqn:G; [destruct (has_term P) eqn:Ht; [apply C; auto|exact F]|exact F]|]. clear st F. intros st F.
      destruct (got_signal st); [cbn; eauto|]. unfold do_exit. destruct (exiting st); [cbn; eauto|].
      apply kept_next; [auto|]. intros s F'. cbn. eauto. }
    destruct (unstack st); [auto|]. apply kept_next; [destruct (owned st && prot st); auto|]. auto.
  Qed.
End Kept.
Lemma times_app p l l' : times p (l ++ l') = (times p l + times p l')%nat.
Proof. unfold times. now rewrite filter_app, app_length. Qed.
(** Whatever the functions and callbacks do, at every moment of the run. *)
Theorem callbacks_once : forall P h ds own p fuel, let l := seen (throw_out P fuel (at_throw h ds own p)) in
  (times is_term l <= 1)%nat /\ (times is_ctrl_c l <= 1)%nat /\ (In TTerminate l -> has_term P = true) /\ (In TCtrlC l -> has_ctrl_c P = true /\ ctrl_c_pending h).
Proof.
  intros P h ds own p fuel l.
  set (I := fun st => (times is_term (log st) + (if can_term st then 1 else 0) <= 1)%nat /\ (times is_ctrl_c (log st) + (if got_ctrl_c st then 1 else 0) <= 1)%nat /\
    (In TTerminate (log st) -> has_term P = true) /\ (In TCtrlC (log st) -> has_ctrl_c P = true /\ ctrl_c_pending h) /\ (got_ctrl_c st = true -> ctrl_c_pending h)).
  assert (N : forall e st, is_term e = false -> is_ctrl_c e = false -> I st -> I (note e st)).
  { intros e st E1 E2 (A & B & C & D & F). unfold I. cbn [log note can_term got_ctrl_c set_no_ctrl_c set_no_term]. rewrite !times_app. unfold times at 2 4. cbn. rewrite E1, E2. cbn. split; [lia|]. split; [lia|].
    split; [intros X; apply in_app_or in X as [X|[X|[]]]; [auto|subst e; discriminate]|]. split; [intros X; apply in_app_or in X as [X|[X|[]]]; [auto|subst e; discriminate]|exact F]. }
  assert (K : kept I (throw_out P fuel (at_throw h ds own p))).
  { apply kept_throw; try (intros; apply N; [reflexivity|reflexivity|assumption]); try (intros; assumption).
    - intros st G Hc (A & B & C & D & F). unfold I. cbn [log note can_term got_ctrl_c set_no_ctrl_c set_no_term]. rewrite !times_app. rewrite G in B. unfold times at 2 4. cbn. split; [lia|]. split; [lia|].
      split; [intros X; apply in_app_or in X as [X|[X|[]]]; [auto|discriminate]|]. split; [intros _; split; [exact Hc|now apply F]|discriminate].
    - intros st G Ht (A & B & C & D & F). unfold I. cbn [log note can_term got_ctrl_c set_no_ctrl_c set_no_term]. rewrite !times_app. rewrite G in A. unfold times at 2 4. cbn. split; [lia|]. split; [lia|].
      split; [intros _; exact Ht|]. split; [intros X; apply in_app_or in X as [X|[X|[]]]; [auto|discriminate]|exact F].
    - unfold I. cbn. split; [lia|]. split; [destruct (snd (flags h)); lia|]. split; [intros []|]. split; [intros []|]. apply flags_ctrl_c. }
  subst l. destruct (throw_out P fuel (at_throw h ds own p)) as [st|k l|l|l] eqn:E; cbn [kept seen] in *; [now apply throw_ends in E| | |];
    destruct K as (st & (A & B & C & D & _) & <-); (split; [lia|]); (split; [lia|]); (split; [exact C|exact D]).
Qed.
Example callbacks_once_case : seen (throw_out (Program (fun _ e => negb (is_term e && false)) true true) 40 (at_throw [Signal 2] [] true false)) = [TCtrlC; TTerminate].
Proof. reflexivity. Qed.

(** ** C92 *)
(** Every deferred function is called with its data before the program ends, whatever they and the callbacks do. *)
Section Least.
  Variable P : program.
  Variable L : list (Z * Z).
  Definition done (l : list tev) : Prop := forall x, In x L -> In (TCall (fst x) (snd x)) l.
  Definition due (st : tst) : Prop := owned st = true /\ forall x, In x L -> In (TCall (fst x) (snd x)) (log st) \/ (arr st = true /\ In x (defers st)).
  Definition due_res (r : tres) : Prop := match r with Back st => owned st = true /\ done (log st) | Ended _ l | Twice l => done l | More _ => True end.
  Lemma due_next r k : due_res r -> (forall st, owned st = true -> done (log st) -> due_res (k st)) -> due_res (next r k).
  Proof. destruct r; cbn; auto. intros [A B] H. auto. Qed.
  Lemma done_due st : owned st = true -> done (log st) -> due st.
  Proof. intros O D. split; [exact O|]. intros x X. left. auto. Qed.
  Lemma done_app l k : done l -> done (l ++ k).
  Proof. intros D x X. apply in_or_app. left. auto. Qed.
  Lemma due_throw fuel : forall st, due st -> due_res (throw_out P fuel st).
  Proof.
    induction fuel as [|fuel IH]; intros st F; [exact I|]. cbn [throw_out]. set (thr := throw_out P fuel) in *.
    assert (C : forall e st, owned st = true -> done (log st) -> due_res (call P thr e st)).
    { intros e s O D. unfold call. destruct (throws _ _ _); [apply IH, done_due; [exact O|now apply done_app]|]. split; [exact O|now apply done_app]. }
    assert (R : forall todo ran st, owned st = true -> arr st = true -> defers st = ran ++ todo ->
      (forall x, In x L -> In (TCall (fst x) (snd x)) (log st) \/ In x todo) -> due_res (run_defers P thr ran todo st)).
    { induction todo as [|[f d] todo IHt]; intros ran s O A D W; cbn [run_defers].
      - split; [exact O|]. intros x X. destruct (W x X) as [Y|[]]. exact Y.
      - unfold call. destruct (throws _ _ _).
        + assert (K : due_res (thr (note (TCall f d) s))).
          { apply IH. split; [exact O|]. intros x X. cbn [log note arr defers]. destruct (W x X) as [Y|[<- |Y]]; [left; apply in_or_app; now left|left; apply in_or_app; right; now left|].
            right. split; [exact A|]. rewrite D. apply in_or_app. right. now right. }
          destruct (thr (note (TCall f d) s)) eqn:E; [now apply throw_ends in E|exact K|exact K|exact I].
        + cbn [next]. apply IHt; [exact O|exact A|cbn; now rewrite <- app_assoc|]. intros x X. cbn [log note set_defers].
          destruct (W x X) as [Y|[<- |Y]]; [left; apply in_or_app; now left|left; apply in_or_app; right; now left|now right]. }
    assert (D : forall st, due st -> due_res (free_scope P thr st)).
    { intros s [O W]. unfold free_scope. destruct (arr s) eqn:A.
      - apply due_next; [apply R; auto; intros x X; destruct (W x X) as [Y|[_ Y]]; auto|]. intros s' O' D'. split; [exact O'|exact D'].
      - split; [exact O|]. intros x X. destruct (W x X) as [Y|[Y _]]; [exact Y|discriminate]. }
    assert (T : forall st, due st -> due_res (terminate P thr st)).
    { clear st F. intros st F. unfold terminate. apply due_next; [rewrite (proj1 F); now apply D|]. clear st F. intros st O F.
      apply due_next; [destruct (got_ctrl_c st && has_ctrl_c P); [apply C; auto|split; auto]|]. clear st O F. intros st O F.
      apply due_next; [destruct (can_term st && has_term P); [apply C; auto|split; auto]|]. clear st O F. intros st O F.
      destruct (got_signal st); [exact F|]. unfold do_exit. destruct (exiting st); [exact F|].
      apply due_next; [apply D, done_due; [exact O|now apply done_app]|]. intros s O' F'. exact F'. }
    destruct (unstack st); [auto|]. destruct (owned st && prot st).
    - apply due_next; [apply D; exact F|]. intros s O W. apply T, done_due; auto.
    - cbn [next]. apply T. exact F.
  Qed.
End Least.
(** Every function deferred on the thread's scope is called with its own data before the program ends, whatever it and the others do. *)
Theorem deferred_least : forall P h ds p fuel k l, throw_out P fuel (at_throw h ds true p) = Ended k l ->
  forall f d, In (f, d) ds -> In (TCall f d) l.
Proof.
  intros P h ds p fuel k l E f d X. assert (K := due_throw P ds fuel (at_throw h ds true p)). rewrite E in K. apply (K ltac:(split; [reflexivity|intros x Y; right; split; [reflexivity|exact Y]]) (f, d) X).
Qed.
Example deferred_least_met := deferred_least (Program (fun l e => match e with TCall f _ => (f =? 1) && (length l <=? 5)%nat | TTerminate => true | _ => false end) true true) [Signal 2] [(2, 20); (1, 10); (4, 40)] false 9
  true [TCall 2 20; TCall 1 10; TCall 2 0; TCall 1 10; TCall 2 0; TCall 1 10; TCall 2 0; TCall 1 10; TCall 4 40; TCtrlC; TTerminate] eq_refl.
(** One that throws once: the newer ones are called again, with NULL, and it is called again with its own data. *)
Theorem deferred_again : forall P h pre f d old p fuel,
  throws P (calls pre) (TCall f d) = true -> (forall l e, length l <> length pre -> throws P l e = false) -> (2 <= fuel)%nat ->
  exists k l, throw_out P fuel (at_throw h (pre ++ (f, d) :: old) true p) = Ended k l /\
    exists rest, l = calls pre ++ [TCall f d] ++ calls (nulls pre) ++ [TCall f d] ++ calls old ++ rest /\ forall g e, ~ In (TCall g e) rest.
Proof.
  intros P h pre f d old p fuel T T' F. destruct fuel as [|fuel]; [lia|].
  assert (Q : forall a x b, pre = a ++ x :: b -> throws P ([] ++ calls a) (TCall (fst x) (snd x)) = false).
  { intros a x b E. apply T'. unfold calls. cbn [app]. rewrite map_length, E, app_length. cbn. lia. }
  assert (Q' : forall k e, throws P ((calls pre ++ [TCall f d]) ++ k) e = false).
  { intros k e. apply T'. unfold calls. rewrite !app_length, map_length. cbn. lia. }
  assert (K : exists u q, throw_out P (S fuel) (at_throw h (pre ++ (f, d) :: old) true p) =
    throw_out P fuel (Tst (nulls pre ++ (f, d) :: old) true q true u (fst (flags h)) (snd (flags h)) true false (calls pre ++ [TCall f d]))).
  { unfold at_throw. destruct p; cbn [throw_out unstack owned prot andb].
    - exists true, true. unfold free_scope. cbn [arr defers set_unstack]. rewrite run_defers_throw; [cbn|exact Q|exact T|reflexivity|apply throw_ends].
      match goal with |- context [throw_out P fuel ?s] => destruct (throw_out P fuel s) eqn:E end; [now apply throw_ends in E|reflexivity|reflexivity|reflexivity].
    - exists false, false. cbn [next]. unfold terminate, free_scope. cbn [owned arr defers set_unstack]. rewrite run_defers_throw; [cbn|exact Q|exact T|reflexivity|apply throw_ends].
      match goal with |- context [throw_out P fuel ?s] => destruct (throw_out P fuel s) eqn:E end; [now apply throw_ends in E|reflexivity|reflexivity|reflexivity]. }
  destruct K as (u & q & K). rewrite K, throw_later; [|lia|exact Q'|reflexivity]. eexists _, _. split; [reflexivity|]. unfold last_calls. cbn [owned arr andb defers negb got_ctrl_c can_term got_signal log].
  eexists. split.
  - unfold calls at 2. rewrite map_app. cbn [map fst snd]. fold (calls (nulls pre)). fold (calls old). rewrite <- !app_assoc. cbn [app]. reflexivity.
  - intros g e. rewrite !in_app_iff. intros [X|[X|X]].
    + destruct (snd (flags h) && has_ctrl_c P); [destruct X as [X|[]]; discriminate|destruct X].
    + destruct (has_term P); [destruct X as [X|[]]; discriminate|destruct X].
    + destruct (fst (flags h)); [destruct X|destruct X as [X|[]]; discriminate].
Qed.
(** One that always throws: the program never ends. *)
Theorem deferred_forever : forall P h pre f d old p, (forall l, throws P l (TCall f d) = true) ->
  (forall l g e, In g (map fst pre) -> throws P l (TCall g e) = false) ->
  forall fuel, exists l, throw_out P fuel (at_throw h (pre ++ (f, d) :: old) true p) = More l.
Proof.
  intros P h pre f d old p T Q fuel. set (Iv := fun st => owned st = true /\ arr st = true /\ exists pre', defers st = pre' ++ (f, d) :: old /\ map fst pre' = map fst pre).
  assert (K : forall fuel st, Iv st -> exists l, throw_out P fuel st = More l).
  { clear fuel. induction fuel as [|fuel IH]; intros st (O & A & pre' & D & M); [cbn; eauto|]. cbn [throw_out].
    assert (R : forall st, Iv st -> exists l, free_scope P (throw_out P fuel) st = More l).
    { clear st O A pre' D M. intros st (O & A & pre' & D & M). unfold free_scope. rewrite A, D. rewrite run_defers_throw; [|intros a x b E; apply Q; rewrite <- M, E, map_app; apply in_or_app; right; now left|apply T|exact D|apply throw_ends].
      match goal with |- context [throw_out P fuel ?s] => destruct (IH s) as [l ->] end; [|exists l; reflexivity]. split; [exact O|]. split; [exact A|]. exists (nulls pre'). split; [reflexivity|]. rewrite <- M. unfold nulls. now rewrite map_map. }
    assert (Tm : forall st, Iv st -> exists l, terminate P (throw_out P fuel) st = More l).
    { intros s Is. unfold terminate. rewrite (proj1 Is). destruct (R s Is) as [l ->]. cbn. eauto. }
    assert (Is : forall b, Iv (set_unstack b st)) by (intros b; split; [exact O|]; split; [exact A|]; exists pre'; auto).
    destruct (unstack st); [apply Tm; split; [exact O|]; split; [exact A|]; exists pre'; auto|].
    destruct (owned st && prot st); [destruct (R _ (Is true)) as [l ->]; cbn; eauto|]. cbn [next]. apply Tm, Is. }
  apply K. split; [reflexivity|]. split; [reflexivity|]. exists pre. auto.
Qed.
Example deferred_again_met := deferred_again (Program (fun l e => match e with TCall f _ => (f =? 1) && (length l =? 1)%nat | _ => false end) true true) [Signal 2] [(2, 20)] 1 10 [(4, 40)] true 7
  eq_refl ltac:(intros l [f d| | |] N; cbn in *; try reflexivity; apply Nat.eqb_neq in N; rewrite N; apply andb_false_r) ltac:(lia).
Example deferred_forever_met := deferred_forever (Program (fun l e => match e with TCall f _ => f =? 1 | _ => false end) true true) [] [(2, 20)] 1 10 [(4, 40)] true
  (fun _ => eq_refl) ltac:(intros l g e [<- |[]]; reflexivity).
(** A program in which a deferred function that never throws is called twice because another one threw. *)
Theorem deferred_at_most_once_refuted : exists P h ds fuel k l, throw_out P fuel (at_throw h ds true false) = Ended k l /\
  In (2, 20) ds /\ (forall t d, throws P t (TCall 2 d) = false) /\ times (fun e => match e with TCall 2 _ => true | _ => false end) l = 2%nat.
Proof.
  exists (Program (fun l e => match e with TCall f _ => (f =? 1) && (length l =? 1)%nat | _ => false end) false false), [], [(2, 20); (1, 10)], 9%nat, false, [TCall 2 20; TCall 1 10; TCall 2 0; TCall 1 10; THandlers].
  split; [vm_compute; reflexivity|]. split; [now left|]. split; [|reflexivity]. reflexivity.
Qed.

(** ** C93 *)
Lemma run_exiting P thr todo : (forall s s', thr s = Back s' -> False) -> forall ran st s, run_defers P thr ran todo st = Back s -> exiting s = exiting st.
Proof.
  intros NB. induction todo as [|[f d] todo IH]; intros ran st s E; [injection E as <-; reflexivity|]. cbn [run_defers] in E. unfold call in E. destruct (throws _ _ _).
  - destruct (thr _) eqn:Q; try discriminate. exfalso. eauto.
  - cbn [next] in E. apply IH in E. exact E.
Qed.
Lemma free_exiting P thr st s : (forall s s', thr s = Back s' -> False) -> free_scope P thr st = Back s -> exiting s = exiting st.
Proof.
  intros NB E. unfold free_scope in E. destruct (arr st); [|injection E as <-; reflexivity]. destruct (run_defers _ _ _ _ _) eqn:Q; try discriminate. injection E as <-. cbn. now apply run_exiting in Q.
Qed.
Section Kind.
  Variable P : program.
  Variable g : bool.
  Definition even (st : tst) : Prop := got_signal st = g /\ (In THandlers (log st) <-> exiting st = true) /\ (exiting st = true -> g = false).
  Definition even_res (r : tres) : Prop := match r with Back st => even st | Ended k l => k = g /\ (In THandlers l <-> g = false) | _ => True end.
  Lemma even_next r k : even_res r -> (forall st, even st -> even_res (k st)) -> even_res (next r k).
  Proof. destruct r; cbn; auto. Qed.
  Lemma even_note e st : e <> THandlers -> even st -> even (note e st).
  Proof.
    intros N (A & B & C). split; [exact A|]. split; [|exact C]. cbn [log note exiting]. rewrite <- B. split; [|intros X; apply in_or_app; now left].
    intros X. apply in_app_or in X as [X|[X|[]]]; [exact X|contradiction].
  Qed.
  Lemma even_throw fuel : forall st, even st -> even_res (throw_out P fuel st).
  Proof.
    induction fuel as [|fuel IH]; intros st F; [exact I|]. cbn [throw_out]. set (thr := throw_out P fuel) in *.
    assert (C : forall e st, e <> THandlers -> even st -> even_res (call P thr e st)) by (intros e s N Fs; unfold call; destruct (throws _ _ _); [apply IH|]; now apply even_note).
    assert (R : forall todo ran st, even st -> even_res (run_defers P thr ran todo st)).
    { induction todo as [|[f d] todo IHt]; intros ran s Fs; [exact Fs|]. cbn [run_defers]. apply even_next; [now apply C|]. intros s' F'. apply IHt. exact F'. }
    assert (D : forall st, even st -> even_res (free_scope P thr st)).
    { intros s Fs. unfold free_scope. destruct (arr s); [|exact Fs]. apply even_next; [auto|]. intros s' F'. exact F'. }
    assert (T : forall st, even st -> even_res (terminate P thr st)).
    { clear st F. intros st F. unfold terminate. apply even_next; [destruct (owned st); [now apply D|exact F]|]. clear st F. intros st F.
      apply even_next; [destruct (got_ctrl_c st && has_ctrl_c P); [now apply C|exact F]|]. clear st F. intros st F.
      apply even_next; [destruct (can_term st && has_term P); [now apply C|exact F]|]. clear st F. intros st (A & B & E).
      destruct (got_signal st) eqn:G.
      - split; [exact A|]. rewrite B. split; [exact E|]. intros ->. discriminate.
      - unfold do_exit. destruct (exiting st) eqn:X; [exact I|].
        set (st' := note THandlers (set_exiting st)). assert (W : even_res (free_scope P thr st')).
        { apply D. split; [unfold st'; cbn; now rewrite G|]. split; [|intros _; now rewrite <- A]. cbn. split; [reflexivity|]. intros _. apply in_or_app. right. now left. }
        destruct (free_scope P thr st') as [s|k l|l|l] eqn:Y; cbn [next even_res] in *; auto. apply free_exiting in Y; [|apply throw_ends]. destruct W as (A' & B' & C').
        split; [now rewrite <- A|]. split; [intros _; now rewrite <- A|]. intros _. apply B'. rewrite Y. reflexivity. }
    destruct (unstack st); [auto|]. apply even_next; [destruct (owned st && prot st); [apply D|]; exact F|]. intros s F'. apply T. exact F'.
  Qed.
End Kind.
(** The program's exit handlers are skipped exactly when some signal was handled since the flags were last reset, however long ago and
    whatever exception ends the program. *)
Theorem handlers_skipped_partial : forall P h ds own p fuel k l, throw_out P fuel (at_throw h ds own p) = Ended k l ->
  (In THandlers l <-> ~ signal_pending h) /\ (k = true <-> signal_pending h).
Proof.
  intros P h ds own p fuel k l E. assert (K := even_throw P (fst (flags h)) fuel (at_throw h ds own p)). rewrite E in K. destruct K as [-> K].
  - split; [reflexivity|]. split; [|discriminate]. cbn. split; [intros []|discriminate].
  - rewrite K. rewrite <- flags_signal. split; [|reflexivity]. destruct (fst (flags h)); split; intuition congruence.
Qed.
(** A signal handled long ago: an ordinary exception ends the program without its exit handlers. *)
Theorem handlers_skipped_refuted : exists P h ds fuel k l, throw_out P fuel (at_throw h ds true false) = Ended k l /\ quiet P /\
  h = Signal 8 :: repeat Nothing 100 /\ ~ In THandlers l.
Proof.
  exists (Program (fun _ _ => false) false false), (Signal 8 :: repeat Nothing 100), [(1, 10)], 5%nat, true, [TCall 1 10]. split; [vm_compute; reflexivity|]. split; [intros l e; reflexivity|]. split; [reflexivity|].
  intros [X|[]]. discriminate.
Qed.
Example handlers_skipped_met := handlers_skipped_partial (Program (fun l e => match e with TTerminate => true | _ => false end) true true) [Signal 2; FlagsReset] [(1, 10)] true true 9
  false [TCall 1 10; TTerminate; THandlers] eq_refl.
Print Assumptions last_words_partial.
Print Assumptions last_words_inside_try.
Print Assumptions last_words_refuted.
Print Assumptions callbacks_once.
Print Assumptions deferred_least.
Print Assumptions deferred_again.
Print Assumptions deferred_forever.
Print Assumptions deferred_at_most_once_refuted.
Print Assumptions handlers_skipped_partial.
Print Assumptions handlers_skipped_refuted.
