(** C103: what a thread reports to the future that started it. *)
From Verif Require Import BaseLemmas ExcModel SpecExc ExcProofs ExcRun ThreadFnModel ThreadFnProofs.

Local Ltac more fuel := destruct fuel as [|[|[|fuel]]]; [exfalso; lia|exfalso; lia|exfalso; lia|].
Local Definition zeros : Z -> Z := fun _ => 0.
Local Definition plain (a : Z) : dfun := DFun a None None.
Local Definition recovers (a n : Z) : dfun := DFun a (Some n) None.

Lemma core_in : (forall s inh ing, core inh ing s -> core inh true s) /\ (forall cs ing, core_c ing cs -> core_c true cs).
Proof. apply stmt_clauses_ind; intros; cbn [core core_c] in *; intuition eauto. Qed.

(** Every thread function of actions, try blocks, guards and functions deferred in those guards, whatever the uninitialised memory holds,
    whether or not a guard is open elsewhere in the process, and whatever the creator's scope held before: the function's events, then the
    thread goes on; the creator's scope holds the exception that left the function, name and message, or no name. *)
Theorem thread_reports : forall b t r g fuel j hs hu e0 p0, core false false b -> ref b (0, 0) ([], 0) = (t, r, g) -> (3 <= fuel)%nat ->
  thread fuel b j hs hu e0 p0 = Ok (t, match r with Done => Goes 0 p0 | Raised e => Goes (fst e) (snd e) end).
Proof.
  intros b t r [D err] fuel j hs hu e0 p0 C R Hf. more fuel. pose proof (proj1 ref_undeferred b false (0, 0) ([], 0) C) as Q. rewrite R in Q. cbn [fst snd] in Q. subst D.
  rewrite (thread_ref b t r [] err fuel j hs hu e0 p0 (proj1 core_in _ _ _ C) R). cbn [drain flat_map]. rewrite app_nil_r. destruct r; reflexivity.
Qed.
Example thread_reports_case :
  let b := Seq (Act 1) (Seq (Try (Throw 10) (Catch 10 (Act 2) CNil) true (Act 3)) (Guard (Seq (Defer (plain 4) 7) (Panic 5)))) in
  core false false b /\ ref b (0, 0) ([], 0) = ([EAct 1; EAct 2; EAct 3; EDefer 4 7], Raised (ex_panic, 5), ([], 5)) /\
  thread 5 b zeros true true 12 13 = Ok ([EAct 1; EAct 2; EAct 3; EDefer 4 7], Goes ex_panic 5) /\
  thread 5 (Act 1) zeros true true 12 13 = Ok ([EAct 1], Goes 0 13).
Proof. vm_compute. intuition discriminate. Qed.

(** With functions [D] deferred in the thread's own guard (newest first): they run, and an exception is reported unless the one deferred
    first, which runs last, recovers it. *)
Theorem thread_deferred_exact : forall b t r D err fuel j hs hu e0 p0, core false true b -> ref b (0, 0) ([], 0) = (t, r, (D, err)) -> (3 <= fuel)%nat ->
  thread fuel b j hs hu e0 p0 = Ok (t ++ drain D err,
    match r with
    | Done => Goes 0 p0
    | Raised e => if match rev D with [] => false | p :: _ => hits err p end then Goes 0 p0 else Goes (fst e) (snd e)
    end).
Proof. intros b t r D err fuel j hs hu e0 p0 C R Hf. more fuel. exact (thread_ref b t r D err fuel j hs hu e0 p0 C R). Qed.
Example thread_deferred_case :
  let b := Seq (Defer (recovers 2 5) 8) (Seq (Defer (plain 1) 7) (Panic 5)) in
  core false true b /\ thread 5 b zeros false false 0 0 = Ok ([EDefer 1 7; EDefer 2 8; ECaught 5], Goes 0 0).
Proof. vm_compute. intuition discriminate. Qed.

(** Refuted: an exception that a deferred function recovered, as it would in any other guard, is reported all the same when an older
    deferred function runs after it: it resets is_recovered (raii.c 407-408). *)
Theorem recovered_reported_refuted : exists b, core false true b /\ run 5 (Guard b) zeros = Ok ([EDefer 2 8; ECaught 5; EDefer 1 7], Finished) /\
  thread 5 b zeros false false 0 0 = Ok ([EDefer 2 8; ECaught 5; EDefer 1 7], Goes ex_panic 5).
Proof. exists (Seq (Defer (plain 1) 7) (Seq (Defer (recovers 2 5) 8) (Panic 5))). vm_compute. intuition discriminate. Qed.
(** Refuted: with one block of memory in the thread's guard the recovered exception ends the whole process instead (C39). *)
Theorem recovered_exits_refuted : exists b,
  thread 9 b zeros false false 0 0 = Ok ([EDefer 1 7; ECaught 5], Goes 0 0) /\
  thread 9 (Seq (Malloc 3) b) zeros false false 0 0 = Ok ([EDefer 1 7; ECaught 5; EFree 5], Exits ex_panic 5).
Proof. exists (Seq (Defer (recovers 1 5) 7) (Panic 5)). vm_compute. auto. Qed.

(** Why the name in the context can be trusted, for every program of the model: when an exception jumps out of a statement while a guard is
    open, the guard's scope and the context jumped to hold the same name and message. *)
Theorem jump_agrees : forall s fuel lx sc st i v st', exec fuel lx sc s st = Ok (RJump i v, st') -> hook_set st' = true ->
  s_err (scopes st' (arena st')) = c_ex (ctxs st' i) /\ s_panic (scopes st' (arena st')) = c_panic (ctxs st' i).
Proof. intros s fuel lx sc st i v st' E. exact (proj1 exec_tells s fuel lx sc st i v st' E). Qed.
Example jump_agrees_case : match exec 9 0 3 (Seq (Malloc 0) (Panic 5)) (set_cur 4 (set_arena 3 (set_hooks true true (with_scope 3 (fun _ => Scope true [] 0 0 false false 0 true) (set_fresh 5 (start zeros)))))) with
  Ok (RJump i v, st') => (i, v, hook_set st', s_err (scopes st' (arena st')), s_panic (scopes st' (arena st')), c_ex (ctxs st' i)) | _ => (0, 0, false, 0, 0, 0) end = (4, 1, true, ex_panic, 5, ex_panic).
Proof. vm_compute. reflexivity. Qed.

Print Assumptions thread_reports.
Print Assumptions thread_deferred_exact.
Print Assumptions recovered_reported_refuted.
Print Assumptions recovered_exits_refuted.
Print Assumptions jump_agrees.
