(** C33-C41, C67-C69: exceptions, protected pointers and guards. *)
From Verif Require Import ExcModel SpecExc ExcProofs ExcRun ExcStable ExcMore.

Local Ltac more fuel := destruct fuel as [|[|[|fuel]]]; [exfalso; lia|exfalso; lia|exfalso; lia|].
Definition zeros : Z -> Z := fun _ => 0.
Definition ones : Z -> Z := fun _ => 1.

(** ** C33: structured semantics *)

(** Whole programs, any depth, any junk in the contexts. Missing for the full property: rethrow used inside a further block of the
    handler (next theorem) or in a finally part. *)
Theorem try_structured_partial : forall s fuel j, try_only false s -> (3 <= fuel)%nat ->
  run fuel s j = Ok (fst (sref s (0, 0)), fin_of (snd (sref s (0, 0)))).
Proof.
  intros s fuel j H Hf. more fuel. rewrite run_ref by exact (proj1 try_core s false false H). rewrite (proj1 try_ref s false (0, 0) ([], 0) H). reflexivity.
Qed.
Definition nested : stmt :=
  Try (Seq (Act 1) (Try (Throw 10) (Catch 20 (Act 2) (Catch 10 (Seq (Act 3) (Throw 30)) CNil)) true (Act 4)))
      (Catch 30 (Seq (Act 5) Rethrow) CNil) true (Try (Throw 40) (CatchAny (Act 6) CNil) false Skip).
Example try_structured_case : try_only false nested /\ sref nested (0, 0) = ([EAct 1; EAct 3; EAct 4; EAct 5; EAct 6], Raised (30, 0)).
Proof. split; [cbn; intuition discriminate|reflexivity]. Qed.

(** The full statement fails: rethrow in a try block inside the handler throws the inner block's own, empty exception, so the clause
    for the exception being handled does not match. *)
Theorem try_structured_refuted : exists s, sref s (0, 0) = ([EAct 1], Done) /\ run 9 s zeros = Ok ([EAct 2], Finished).
Proof. exists (Try (Throw 10) (CatchAny (Try Rethrow (Catch 10 (Act 1) (CatchAny (Act 2) CNil)) false Skip) CNil) false Skip). vm_compute. auto. Qed.

(** ** C34: finally runs exactly once *)
Theorem finally_once : forall E F s fuel j, E <> F -> core false false s -> marked E F s -> (3 <= fuel)%nat ->
  exists t x, run fuel s j = Ok (t, x) /\ balanced E F t.
Proof.
  intros E F s fuel j N C M Hf. more fuel. rewrite run_ref by exact C. eexists _, _. split; [reflexivity|]. apply (proj1 (ref_balanced E F N) s). exact M.
Qed.
Example finally_once_case :
  let s := Try (Seq (Act 7) (Try (Seq (Act 7) (Throw 10)) (Catch 10 (Throw 30) CNil) true (Seq (Act 8) (Act 4)))) (CatchAny (Act 5) CNil) true (Seq (Act 8) (Throw 50)) in
  core false false s /\ marked 7 8 s /\ run 5 s zeros = Ok ([EAct 7; EAct 7; EAct 8; EAct 4; EAct 5; EAct 8], Uncaught 50 0).
Proof. split; [cbn; intuition discriminate|]. split; [cbn; intuition lia|]. vm_compute. reflexivity. Qed.
(** [balanced] means equally many entries and finally parts, and never more finally parts than entries so far. *)
Theorem balanced_count E F t : E <> F -> balanced E F t -> count_occ Z.eq_dec (flat_map (fun e => match e with EAct a => [a] | _ => [] end) t) E = count_occ Z.eq_dec (flat_map (fun e => match e with EAct a => [a] | _ => [] end) t) F.
Proof.
  intros N H. induction H as [|e t A B H IH|t1 t2 H1 IH1 H2 IH2]; [reflexivity| |].
  - cbn [flat_map]. rewrite !count_occ_app, IH. f_equal. destruct e as [a| | | |]; try reflexivity. cbn [count_occ]. destruct (Z.eq_dec a E); [congruence|]. destruct (Z.eq_dec a F); [congruence|reflexivity].
  - cbn [flat_map]. rewrite flat_map_app. cbn [flat_map]. rewrite !count_occ_app, IH1, IH2. cbn [count_occ]. destruct (Z.eq_dec E E); [|congruence]. destruct (Z.eq_dec F F); [|congruence]. destruct (Z.eq_dec E F); [congruence|]. destruct (Z.eq_dec F E); [congruence|]. lia.
Qed.

(** ** C35: the enclosing handler is restored *)

(** Every statement of the language, in any state: however a statement ends, the current context is the one before it, the chain of
    contexts below is unchanged, and an exception leaving it goes to that context. *)
Theorem context_restored : forall s fuel lx sc st x st', 0 <= cur st < fresh st -> exec fuel lx sc s st = Ok (x, st') ->
  match x with
  | RNorm => cur st' = cur st /\ forall i, i < fresh st -> c_next (ctxs st' i) = c_next (ctxs st i)
  | RJump i _ => i = cur st /\ i <> root /\ cur st' = cur st /\ forall i, i < fresh st -> c_next (ctxs st' i) = c_next (ctxs st i)
  | RExit _ _ => True
  end.
Proof.
  intros s fuel lx sc st x st' W E. destruct (proj1 exec_stable s fuel lx sc st W x st' E) as [F J]. destruct x as [|i v|a b]; [| |exact I].
  - destruct F as [A _ B _]. auto.
  - destruct F as [A _ B _]. destruct (J i v eq_refl). auto.
Qed.
(** In particular no jump ever goes to a block that has ended. *)
Theorem no_dead_jump : forall s fuel j i v st, exec fuel 0 root s (start j) <> Ok (RJump i v, st).
Proof.
  intros s fuel j i v st E. assert (W : wf (start j)) by (unfold wf, start; cbn [cur fresh]; unfold root; lia). destruct (proj1 exec_stable s fuel 0 root (start j) W _ _ E) as [_ J]. destruct (J i v eq_refl) as [A B]. apply B. exact A.
Qed.
Example context_restored_case : let s := Try (Throw 10) (CatchIf (Caught 10 (Throw 11) Skip) CNil) true (Malloc 0) in
  match exec 5 0 root (Seq (Guard Skip) s) (start zeros) with Ok (RExit 11 0, _) => True | _ => False end /\
  match exec 5 0 root (Try s (CatchAny (Act 1) CNil) false Skip) (start ones) with Ok (RNorm, st) => cur st = root /\ trace st = [EFree 4; EAct 1] | _ => False end.
Proof. vm_compute. auto. Qed.

(** ** C36: a throw inside catch_if *)

(** Whatever the body and the handler, if the body raises and the catch_if block throws, the block is entered again and again and the
    program never ends. *)
Theorem catch_if_throw_diverges : forall b s hf f e fuel j, try_only false b -> snd (sref b (0, 0)) = Raised e -> try_only true s ->
  (forall h, exists e', snd (sref s h) = Raised e') -> (3 <= fuel)%nat -> run fuel (Try b (CatchIf s CNil) hf f) j = NoFuel.
Proof. intros b s hf f e fuel j Hb He Hs Hr Hf. more fuel. exact (catch_if_loops b s hf f e fuel j Hb He Hs Hr). Qed.
Theorem catch_if_throw_refuted : exists b s, try_only false b /\ try_only true s /\ snd (sref b (0, 0)) = Raised (10, 0) /\ snd (sref s (10, 0)) = Raised (11, 0) /\
  forall fuel j, (3 <= fuel)%nat -> run fuel (Try (Try b (CatchIf s CNil) false Skip) (CatchAny (Act 1) CNil) false Skip) j <> Ok ([EAct 1], Finished) /\ run fuel (Try b (CatchIf s CNil) false Skip) j = NoFuel.
Proof.
  exists (Throw 10), (Throw 11). split; [cbn; lia|]. split; [cbn; lia|]. split; [reflexivity|]. split; [reflexivity|].
  intros fuel j Hf. split.
  - more fuel. set (F := S (S (S fuel))). unfold run. set (inner := Try (Throw 10) (CatchIf (Throw 11) CNil) false Skip).
    assert (K : forall lx sc st g, inv st sc g -> 2 <= fresh st -> exec F lx sc inner st = NoFuel).
    { intros lx sc st g I Hfr. unfold inner. cbn [exec]. destruct (new_ctx_inside sc st g Hfr I) as (st1 & -> & In & _). set (id := fresh st) in *.
      pose proof (inside_state sc st id st1 _ 0 Hfr In) as In1. set (st2 := with_ctx id (c_set_state 0) st1) in *.
      assert (S1 : c_state (ctxs st2 id) = 0) by (unfold st2; ctx_tac; rewrite upd_same; reflexivity). pose proof In1 as [A1 A2 _ _ _ _ _ _ A9].
      pose proof (throw_post (S (S fuel)) st2 sc g 10 0 A9) as P. destruct (inside_post sc st id st2 _ _ _ _ _ Hfr In1 P) as (x & st' & E & T & In' & -> & C).
      unfold F. rewrite (landing_jump (S (S fuel)) id _ _ _ 0 st1 1 st').
      - exact (catch_if_spins fuel sc (Throw 11) st id _ (Throw 10) ltac:(cbn; lia) ltac:(intros h; exists (11, 0); reflexivity) Hfr _ _ _ In').
      - unfold pass. fold st2. replace (0 =? 0) with true by reflexivity. cbn [andthen]. rewrite E, S1. reflexivity. }
    cbn [exec]. destruct (new_ctx_inside root (start j) ([], 0) ltac:(cbn; lia) (start_inv j)) as (st1 & -> & In & _).
    pose proof (inside_state root (start j) _ st1 _ 0 ltac:(cbn; lia) In) as [B1 B2 _ _ _ _ _ _ B9].
    unfold F at 1. cbn [landing]. replace (0 =? 0) with true by reflexivity. rewrite (K _ _ _ _ B9) by (pose proof (i_cur _ _ _ B9); cbn [start fresh] in *; lia). cbn [andthen]. discriminate.
  - apply catch_if_throw_diverges with (e := (10, 0)); auto; [cbn; lia|cbn; lia|]. intros h. exists (11, 0). reflexivity.
Qed.
(** What holds: once a caught() test in the block has matched, the block is an ordinary catch clause (C33 covers it). The full statement
    would not need the test, nor the thread to be initialised and to have no older pending error. *)
Theorem catch_if_caught_partial : forall fuel id sc n s s2 cs st, ready st = true -> s_pending (scopes st root) = 0 -> cur st = id -> c_state (ctxs st id) = 1 ->
  n <> 0 -> c_ex (ctxs st id) = n -> handle fuel id sc (CatchIf (Caught n s s2) cs) st = handle fuel id sc (Catch n s cs) st.
Proof.
  intros fuel id sc n s s2 cs st R P C S N E. cbn [handle exec]. unfold raii_caught. rewrite R, P, C, S, E. cbn [negb andb]. rewrite Z.eqb_refl. replace (0 =? 0) with true by reflexivity. replace (n =? 0) with false by lia. replace (1 =? 1) with true by reflexivity. cbn [negb andb bind]. rewrite Z.eqb_refl. reflexivity.
Qed.
Example catch_if_caught_case : run 5 (Seq (Guard Skip) (Try (Throw 10) (CatchIf (Caught 10 (Throw 11) Skip) CNil) true (Act 3))) zeros = Ok ([EAct 3], Uncaught 11 0).
Proof. vm_compute. reflexivity. Qed.

(** ** C37: protected pointers *)

(** Any pointers.  The releases end at the first pointer whose value is that of its predecessor (NULL, for the newest); everything
    is released just when only NULL pointers follow. *)
Theorem protected_exact : forall ps e a fuel j, (length ps < fuel)%nat -> (1 < fuel)%nat ->
  exists r rest, rev ps = r ++ rest /\ differ (0 :: map snd r) /\
    (rest = [] \/ exists q l, rest = q :: l /\ snd q = last (map snd r) 0) /\
    run fuel (Try (nest ps (Throw e)) (CatchAny (Act a) CNil) false Skip) j = Ok (releases (rev r) ++ [EAct a], Finished) /\
    (run fuel (Try (nest ps (Throw e)) (CatchAny (Act a) CNil) false Skip) j = Ok (releases ps ++ [EAct a], Finished) <-> Forall (fun q => snd q = 0) rest).
Proof.
  intros ps e a fuel j Hl Hf.
  assert (U : forall l t, exists r rest, l = r ++ rest /\ differ (t :: map snd r) /\ (rest = [] \/ exists q k, rest = q :: k /\ snd q = last (map snd r) t) /\ upto t l = filter (fun p => negb (snd p =? 0)) r).
  { induction l as [|[b v] l IH]; intros t; [exists [], []; cbn; auto|]. cbn [upto]. destruct (Z.eqb_spec t v) as [E|N].
    - exists [], ((b, v) :: l). split; [reflexivity|]. split; [exact I|]. split; [right; exists (b, v), l; cbn; auto|reflexivity].
    - destruct (IH v) as (r & rest & E1 & E2 & E3 & E4). exists ((b, v) :: r), rest. split; [cbn; congruence|]. split; [cbn [map snd differ] in *; tauto|]. split.
      + destruct E3 as [E3|(q & k & E3 & E5)]; [left; exact E3|right; exists q, k; split; [exact E3|]]. rewrite E5. cbn [map snd]. clear. destruct (map snd r) as [|x m]; [reflexivity|]. cbn [last]. revert x. induction m; intros x; cbn in *; auto.
      + cbn [filter snd]. rewrite E4. destruct (v =? 0); reflexivity. }
  destruct (U (rev ps) 0) as (r & rest & E1 & E2 & E3 & E4). exists r, rest. split; [exact E1|]. split; [exact E2|]. split; [exact E3|].
  rewrite protected_run, E4 by assumption. unfold releases. rewrite rev_involutive, E1. split; [reflexivity|]. rewrite filter_app, map_app. split.
  - intros H. injection H as H. apply app_inv_tail in H. rewrite <- (app_nil_r (map _ (filter _ r))) in H at 1. apply app_inv_head in H.
    apply Forall_forall. intros q Hq. destruct (Z.eqb_spec (snd q) 0) as [|N]; [assumption|exfalso].
    assert (In q (filter (fun p => negb (snd p =? 0)) rest)) as Hi by (apply filter_In; split; [exact Hq|]; replace (snd q =? 0) with false by lia; reflexivity).
    destruct (filter _ rest); [contradiction|discriminate].
  - intros F. replace (filter (fun p => negb (snd p =? 0)) rest) with (@nil (Z * Z)); [cbn [map]; rewrite app_nil_r; reflexivity|].
    clear -F. induction F as [|q l Hq F IH]; [reflexivity|]. cbn [filter]. rewrite Hq. exact IH.
Qed.
(** In particular any number of pointers, none NULL and no two neighbours equal. *)
Theorem protected_released_partial : forall ps e a fuel j, (length ps < fuel)%nat -> (1 < fuel)%nat -> Forall (fun q => snd q <> 0) ps -> differ (map snd (rev ps)) ->
  run fuel (Try (nest ps (Throw e)) (CatchAny (Act a) CNil) false Skip) j = Ok (releases ps ++ [EAct a], Finished).
Proof.
  intros ps e a fuel j Hl Hf Hz Hd. rewrite protected_run by assumption. unfold releases. f_equal. f_equal. f_equal. f_equal.
  assert (Fr : Forall (fun q => snd q <> 0) (rev ps)) by (apply Forall_rev; exact Hz).
  assert (K : forall l t, Forall (fun q => snd q <> 0) l -> differ (t :: map snd l) -> upto t l = filter (fun p => negb (snd p =? 0)) l).
  { induction l as [|[b v] l IH]; intros t F D; [reflexivity|]. cbn [upto filter snd]. cbn [map snd differ] in D. destruct D as [D1 D2]. inversion F as [|? ? Hv F']; subst. cbn [snd] in Hv.
    replace (t =? v) with false by lia. replace (v =? 0) with false by lia. cbn [negb app]. f_equal. apply IH; assumption. }
  apply K; [exact Fr|]. destruct (rev ps) as [|[b v] l]; [exact I|]. cbn [map snd differ] in *. split; [|exact Hd]. inversion Fr; subst. cbn [snd] in *. lia.
Qed.
Example protected_released_case : let ps := [(1, 5); (2, 6); (3, 5)] in Forall (fun q => snd q <> 0) ps /\ differ (map snd (rev ps)) /\ releases ps = [ERelease 3 5; ERelease 2 6; ERelease 1 5].
Proof. split; [repeat constructor; discriminate|]. split; [cbn; lia|reflexivity]. Qed.
(** A newest pointer that is NULL stops the loop at once: nothing is released. *)
Theorem protected_null_refuted : exists ps, releases ps = [ERelease 1 5] /\ run 9 (Try (nest ps (Throw 10)) (CatchAny (Act 9) CNil) false Skip) zeros = Ok ([EAct 9], Finished).
Proof. exists [(1, 5); (2, 0)]. split; [reflexivity|vm_compute; reflexivity]. Qed.
(** So do two neighbours with the same value. *)
Theorem protected_equal_refuted : exists ps, releases ps = [ERelease 3 6; ERelease 2 6; ERelease 1 5] /\ run 9 (Try (nest ps (Throw 10)) (CatchAny (Act 9) CNil) false Skip) zeros = Ok ([ERelease 3 6; EAct 9], Finished).
Proof. exists [(1, 5); (2, 6); (3, 6)]. split; [reflexivity|vm_compute; reflexivity]. Qed.

(** ** C38: nested guards *)

(** Every program of guards, deferred functions, panics and try blocks runs as the reference semantics says. *)
Theorem guards_structured : forall s fuel j, core false false s -> (3 <= fuel)%nat ->
  run fuel s j = Ok (fst (fst (ref s (0, 0) ([], 0))), fin_of (snd (fst (ref s (0, 0) ([], 0))))).
Proof. intros s fuel j H Hf. more fuel. apply run_ref. exact H. Qed.
(** One guard spelt out: the body, then its deferred functions newest first, each once; then what was not recovered goes on. *)
Theorem guard_unwinds : forall b t r D err fuel j, core false true b -> ref b (0, 0) ([], 0) = (t, r, (D, err)) -> (3 <= fuel)%nat ->
  run fuel (Guard b) j = Ok (t ++ drain D err, match r with Done => Finished | Raised e => if existsb (hits err) D then Finished else Uncaught (fst e) (snd e) end).
Proof. intros b t r D err fuel j C R Hf. more fuel. rewrite run_ref by exact C. cbn [ref]. rewrite R. cbn [fst snd]. destruct r; [reflexivity|]. destruct (existsb _ _); reflexivity. Qed.
Definition plain (a : Z) : dfun := DFun a None None.
Definition recovers (a n : Z) : dfun := DFun a (Some n) None.
Example guards_structured_case :
  let s := Guard (Seq (Defer (plain 1) 11) (Seq (Defer (plain 2) 12) (Seq (Guard (Seq (Defer (plain 3) 13) (Seq (Act 1) (Seq (Defer (plain 4) 14) (Panic 5))))) (Act 2)))) in
  core false false s /\ run 7 s zeros = Ok ([EAct 1; EDefer 4 14; EDefer 3 13; EDefer 2 12; EDefer 1 11], Uncaught ex_panic 5).
Proof. split; [cbn; tauto|]. vm_compute. reflexivity. Qed.

(** ** C39: _recover *)

(** Bodies without _malloc: if a deferred function recovers what the body raised, execution goes on after the guard. *)
Theorem recover_stops_partial : forall b t e D err fuel j a f d, core false true b -> ref b (0, 0) ([], 0) = (t, Raised e, (D, err)) -> pend e <> 0 -> In (f, d) D -> d_recover f = Some (pend e) -> (3 <= fuel)%nat ->
  run fuel (Seq (Guard b) (Act a)) j = Ok ((t ++ drain D (pend e)) ++ [EAct a], Finished).
Proof.
  intros b t e D err fuel j a f d C R P Hin Hr Hf. more fuel. rewrite run_ref by (cbn [core]; auto). pose proof (proj1 ref_err _ _ _ _ _ _ R) as Q. cbn [snd] in Q. subst err. cbn [ref]. rewrite R. cbn [fst snd].
  replace (existsb (hits (pend e)) D) with true; [reflexivity|]. symmetry. apply existsb_exists. exists (f, d). split; [exact Hin|]. unfold hits. cbn [fst]. rewrite Hr, Z.eqb_refl. replace (pend e =? 0) with false by lia. reflexivity.
Qed.
Example recover_stops_case : let b := Seq (Defer (recovers 1 5) 7) (Seq (Defer (plain 2) 8) (Panic 5)) in
  core false true b /\ ref b (0, 0) ([], 0) = ([], Raised (ex_panic, 5), ([(plain 2, 8); (recovers 1 5, 7)], 5)) /\
  run 5 (Seq (Guard b) (Act 9)) zeros = Ok ([EDefer 2 8; EDefer 1 7; ECaught 5; EAct 9], Finished).
Proof. split; [cbn; tauto|]. split; [reflexivity|vm_compute; reflexivity]. Qed.
(** With one _malloc in the body the same recover does not stop the panic. *)
Theorem recover_stops_refuted : exists b, run 9 (Seq (Guard (Seq (Malloc 3) b)) (Act 9)) zeros = Ok ([EDefer 2 8; EDefer 1 7; ECaught 5; EFree 4], Uncaught ex_panic 5) /\
  run 9 (Seq (Guard b) (Act 9)) zeros = Ok ([EDefer 2 8; EDefer 1 7; ECaught 5; EAct 9], Finished).
Proof. exists (Seq (Defer (recovers 1 5) 7) (Seq (Defer (plain 2) 8) (Panic 5))). vm_compute. auto. Qed.

(** ** C40: a handled exception leaves the surrounding guard alone *)

(** Bodies without _malloc and without guards of their own: no deferred function runs before the end, whatever is thrown and caught inside;
    all run at the end. *)
Theorem handled_keeps_guard_partial : forall b t r D err fuel j, core false true b -> no_guard b -> ref b (0, 0) ([], 0) = (t, r, (D, err)) -> (3 <= fuel)%nat ->
  existsb is_defer t = false /\ exists x, run fuel (Guard b) j = Ok (t ++ drain D err, x).
Proof.
  intros b t r D err fuel j C N R Hf. split; [pose proof (proj1 ref_no_defer b (0, 0) ([], 0) N) as Q; rewrite R in Q; exact Q|].
  eexists. exact (guard_unwinds b t r D err fuel j C R Hf).
Qed.
Example handled_keeps_guard_case : let b := Seq (Defer (plain 1) 7) (Seq (Try (Throw 10) (CatchAny (Act 1) CNil) false Skip) (Seq (Act 2) (Defer (plain 3) 9))) in
  core false true b /\ no_guard b /\ run 5 (Guard b) zeros = Ok ([EAct 1; EAct 2; EDefer 3 9; EDefer 1 7], Finished).
Proof. split; [cbn; intuition lia|]. split; [cbn; tauto|vm_compute; reflexivity]. Qed.
(** With one _malloc before the try: the guard's memory is freed and its functions run at the throw, while the body goes on and
    uses the memory; what is deferred later never runs. *)
Theorem handled_keeps_guard_refuted : exists b, run 9 (Guard b) zeros = Ok ([EFree 4; EDefer 1 7; EAct 1; EAct 2], Finished).
Proof. exists (Seq (Defer (plain 1) 7) (Seq (Malloc 3) (Seq (Try (Throw 10) (CatchAny (Act 1) CNil) false Skip) (Seq (Act 2) (Defer (plain 3) 9))))). vm_compute. reflexivity. Qed.
(** A panic after that reads the freed protector. *)
Theorem handled_then_panic_refuted : exists b, run 9 (Guard b) zeros = Undef UseAfterFree.
Proof. exists (Seq (Malloc 3) (Seq (Try (Throw 10) (CatchAny (Act 1) CNil) false Skip) (Panic 2))). vm_compute. reflexivity. Qed.

(** ** C41: the process-wide hooks *)

(** One thread, every statement: the hooks and the arena are as before unless the process exits. *)
Theorem hooks_restored_partial : forall s fuel lx sc st x st', 0 <= cur st < fresh st -> exec fuel lx sc s st = Ok (x, st') ->
  match x with RExit _ _ => True | _ => hook_set st' = hook_set st /\ hook_unwind st' = hook_unwind st /\ arena st' = arena st end.
Proof.
  intros s fuel lx sc st x st' W E. destruct (proj1 exec_stable s fuel lx sc st W x st' E) as [F J]. destruct x as [|i v|a b]; [| |exact I]; destruct F as [_ _ _ H]; unfold hooks in H; injection H as -> -> ->; auto.
Qed.
(** One thread alone, any sequence of entries and exits: inside a guard the hooks are a guard's, outside they are as at the start. *)
Theorem hooks_one_thread_partial : forall t l h', Forall (fun o => fst o = t) l -> hook_run l (Hooks false (fun _ => [])) = Some h' ->
  h_glob h' = match h_saved h' t with [] => false | _ => true end.
Proof.
  intros t l h' Ht E. destruct (hook_single t l _ h' Ht E) as [A B]; [intros Q; exfalso; apply Q; reflexivity|]. cbn [h_glob h_saved last] in B.
  destruct (h_saved h' t) as [|b r] eqn:S; [exact B|]. apply A. discriminate.
Qed.
Example hooks_one_thread_case : option_map (fun h => (h_glob h, h_saved h 1)) (hook_run [(1, Enter); (1, Enter); (1, Leave)] (Hooks false (fun _ => []))) = Some (true, [false]).
Proof. reflexivity. Qed.
(** Two threads: one leaves while the other is inside, so the hooks are NULL during its guard; and in the end they are a guard's though
    no guard is open. *)
Theorem hooks_threads_refuted : exists l1 l2 h1 h2,
  hook_run l1 (Hooks false (fun _ => [])) = Some h1 /\ h_saved h1 2 <> [] /\ h_glob h1 = false /\
  hook_run l2 h1 = Some h2 /\ (forall t, t = 1 \/ t = 2 -> h_saved h2 t = []) /\ h_glob h2 = true.
Proof.
  eexists [(1, Enter); (2, Enter); (1, Leave)], [(2, Leave)], _, _. split; [reflexivity|]. split; [vm_compute; discriminate|]. split; [reflexivity|]. split; [reflexivity|].
  split; [|reflexivity]. intros t [-> | -> ]; reflexivity.
Qed.
(** What a stale hook does: the next throw outside any guard writes through the NULL arena. *)
Theorem stale_hook_crash : forall fuel ex pm st, hook_set st = true -> arena st = 0 -> c_unstack (ctxs st (cur st)) = false -> ex_throw (S fuel) ex pm st = Undef NullDeref.
Proof. intros fuel ex pm st H A U. cbn [ex_throw]. rewrite U. unfold setup. cbn [with_ctx set_ctxs hook_set arena]. rewrite H, A. reflexivity. Qed.
Example stale_hook_case : let st := set_hooks true true (start zeros) in hook_set st = true /\ arena st = 0 /\ c_unstack (ctxs st (cur st)) = false.
Proof. auto. Qed.

(** ** C67: uninitialised context fields *)

(** ex_try leaves is_raii, data, prev, panic and is_unwind of the context uninitialised. Programs without allocation, protected pointers and
    caught() do not depend on them. *)
Theorem context_junk_partial : forall s fuel j j', core false false s -> (3 <= fuel)%nat -> run fuel s j = run fuel s j'.
Proof. intros s fuel j j' H Hf. more fuel. rewrite !run_ref by exact H. reflexivity. Qed.
(** Others do: a block allocated on the thread's scope is released at the first handled exception or only at exit. *)
Theorem context_junk_refuted : exists s, run 9 s zeros = Ok ([EAct 1; EFree 2], Finished) /\ run 9 s ones = Ok ([EFree 2; EAct 1], Finished).
Proof. exists (Seq (Malloc 3) (Try (Throw 10) (CatchAny (Act 1) CNil) false Skip)). vm_compute. auto. Qed.

(** ** C68: unwinding frees blocks only *)

(** The protector of _malloc holds the block itself as the address of the pointer to free: unwinding calls free on the first word stored in the block. *)
Theorem unwind_frees_wild_refuted : exists s, run 9 s zeros = Undef WildPointer.
Proof. exists (Seq (Malloc 3) (Try (Seq (Malloc 3) (Throw 10)) (CatchAny (Act 1) CNil) false Skip)). vm_compute. reflexivity. Qed.
(** With one allocation made in the block itself the block is freed, once. *)
Theorem unwind_frees_block_partial : forall w e a j, run 9 (Try (Seq (Malloc w) (Throw e)) (CatchAny (Act a) CNil) false Skip) j = Ok ([EFree 3; EAct a], Finished).
Proof. intros w [|e|e] a j; vm_compute; reflexivity. Qed.

(** ** C69: caught names the exception being handled *)
Theorem caught_current_partial : forall n st, ready st = true -> s_pending (scopes st root) = 0 -> n <> 0 -> exists st', raii_caught n st = Ok (c_ex (ctxs st (cur st)) =? n, st').
Proof.
  intros n st R P N. unfold raii_caught. rewrite R, P. cbn [negb andb]. replace (0 =? 0) with true by reflexivity. cbn [andb]. destruct (Z.eqb_spec (c_ex (ctxs st (cur st))) n) as [->|Hn].
  - replace (n =? 0) with false by lia. cbn [negb andb]. eauto.
  - rewrite andb_false_r. unfold is_caught. rewrite P. replace (0 =? 0) with true by reflexivity. cbn [negb andb]. eauto.
Qed.
(** With an error still on the thread's scope, caught answers about that one, whatever is being handled. *)
Theorem caught_otherwise : forall n st, ready st = true -> s_pending (scopes st root) <> 0 -> exists st', raii_caught n st = Ok (s_pending (scopes st root) =? n, st').
Proof.
  intros n st R P. unfold raii_caught. rewrite R. apply Z.eqb_neq in P. rewrite P. cbn [negb andb]. unfold is_caught. rewrite P. cbn [negb andb]. eauto.
Qed.
Example caught_current_case : run 5 (Seq (Guard Skip) (Try (Throw 10) (CatchIf (Caught 11 (Act 1) (Caught 10 (Act 2) (Act 3))) CNil) false Skip)) zeros = Ok ([EAct 2], Finished).
Proof. vm_compute. reflexivity. Qed.
(** An error left on the thread's scope by an earlier, handled exception hides the current one. *)
Theorem caught_stale_refuted : exists s, run 9 s zeros = Ok ([EAct 1; EAct 4], Uncaught 11 0) /\
  s = Seq (Try (Seq (Guard Skip) (Throw 10)) (CatchIf (Caught 10 (Act 1) (Act 3)) CNil) false Skip) (Try (Throw 11) (CatchIf (Caught 11 (Act 2) (Act 4)) CNil) false Skip).
Proof. eexists. split; [|reflexivity]. vm_compute. reflexivity. Qed.
(** In a thread that has not used the library before, caught() reads through NULL. *)
Theorem caught_fresh_thread_refuted : exists s, s = Try (Throw 11) (CatchIf (Caught 11 (Act 2) (Act 4)) CNil) false Skip /\ run 9 s zeros = Undef NullDeref.
Proof. eexists. split; [reflexivity|]. vm_compute. reflexivity. Qed.

(** * The theorems above on concrete values: their hypotheses can be met. *)
Example catch_if_throw_diverges_met := catch_if_throw_diverges (Seq (Act 1) (Throw 10)) (Seq (Act 2) (Throw 11)) true (Act 3) (10, 0) 9 zeros
  ltac:(cbn; intuition discriminate) eq_refl ltac:(cbn; intuition discriminate) ltac:(intros h; cbn; eauto) ltac:(lia).
Example protected_exact_met := protected_exact [(1, 5); (2, 6); (3, 6); (4, 0)] 10 9 9 zeros ltac:(cbn; lia) ltac:(lia).

Print Assumptions try_structured_partial.
Print Assumptions try_structured_refuted.
Print Assumptions finally_once.
Print Assumptions context_restored.
Print Assumptions no_dead_jump.
Print Assumptions catch_if_throw_diverges.
Print Assumptions catch_if_throw_refuted.
Print Assumptions catch_if_caught_partial.
Print Assumptions protected_exact.
Print Assumptions protected_released_partial.
Print Assumptions protected_null_refuted.
Print Assumptions protected_equal_refuted.
Print Assumptions guards_structured.
Print Assumptions guard_unwinds.
Print Assumptions recover_stops_partial.
Print Assumptions recover_stops_refuted.
Print Assumptions handled_keeps_guard_partial.
Print Assumptions handled_keeps_guard_refuted.
Print Assumptions handled_then_panic_refuted.
Print Assumptions hooks_restored_partial.
Print Assumptions hooks_one_thread_partial.
Print Assumptions hooks_threads_refuted.
Print Assumptions stale_hook_crash.
Print Assumptions context_junk_partial.
Print Assumptions context_junk_refuted.
Print Assumptions unwind_frees_wild_refuted.
Print Assumptions unwind_frees_block_partial.
Example caught_otherwise_met := caught_otherwise 11 (with_scope root (s_set_err 10 0) (raii_init (start zeros))) eq_refl ltac:(cbn; lia).
Print Assumptions caught_current_partial. Print Assumptions caught_otherwise.
Print Assumptions caught_stale_refuted.
Print Assumptions caught_fresh_thread_refuted.
Print Assumptions balanced_count.
