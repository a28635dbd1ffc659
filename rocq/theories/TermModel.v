(** The end of a program with an uncaught exception: ex_throw in the outermost context, src/except.c 379-415, ex_terminate, 354-377,
    with raii_unwind_set, src/raii.c 91-97, raii_deferred_run and raii_deferred_free, 395-443, raii_destroy, 310-312, the flags set by ex_handler,
    except.c 520-530, and ex_flags_reset, 313-316.

    One thread; no block is open, so the context is thrd_except_buffer, and exception_setup_func and exception_unwind_func are NULL.  A
    function of the program (deferred function or callback) returns or throws; which, may depend on everything called before.  Since
    ex_throw never returns here, what follows a call that throws is never reached.  Simplified: the deferred functions do not defer
    again (C32) and do not call exit; the program's own exit handlers are one event and return. *)
From Verif Require Export Base.

(** What can be seen: a deferred function called with its data, 0 for NULL; exception_ctrl_c_func; exception_terminate_func; the program's exit handlers. *)
Inductive tev := TCall (f d : Z) | TCtrlC | TTerminate | THandlers.
(** [defers]: the functions on the thread's scope, newest first; [arr]: the array's type is RAII_DEF_ARR; [prot]: scope->is_protected, considered only
    when [owned] (else the protecting pointer is released instead: ExcModel);
    [owned]: is_raii of thrd_except_buffer; [unstack]: its unstack; [got_signal], [got_ctrl_c], [can_term]: except.c 61-64;
    [exiting]: exit has been called; [log]: what has been called, in order. *)
Record tst := Tst { defers : list (Z * Z); arr : bool; prot : bool; owned : bool; unstack : bool; got_signal : bool; got_ctrl_c : bool; can_term : bool; exiting : bool; log : list tev }.
(** [Back]: control returns; [Ended k]: the process ends, by _Exit when [k]; [Twice]: exit is called during exit, which is undefined (C11 7.22.4.4);
    [More]: not finished within the fuel. *)
Inductive tres := Back (st : tst) | Ended (k : bool) (l : list tev) | Twice (l : list tev) | More (l : list tev).
(** What was called, in every case. *)
Definition seen (r : tres) : list tev := match r with Back st => log st | Ended _ l | Twice l | More l => l end.

(** Field updates (no counterpart in the source). *)
Definition set_defers (l : list (Z * Z)) (st : tst) := Tst l (arr st) (prot st) (owned st) (unstack st) (got_signal st) (got_ctrl_c st) (can_term st) (exiting st) (log st).
(** raii_array_reset, raii.c 16-26, and is_protected = false, 415-416. *)
Definition set_wiped (st : tst) := Tst [] false false (owned st) (unstack st) (got_signal st) (got_ctrl_c st) (can_term st) (exiting st) (log st).
(** Field update (no counterpart in the source). *)
Definition set_unstack (b : bool) (st : tst) := Tst (defers st) (arr st) (prot st) (owned st) b (got_signal st) (got_ctrl_c st) (can_term st) (exiting st) (log st).
(** got_ctrl_c = false, except.c 364. *)
Definition set_no_ctrl_c (st : tst) := Tst (defers st) (arr st) (prot st) (owned st) (unstack st) (got_signal st) false (can_term st) (exiting st) (log st).
(** can_terminate = false, except.c 369. *)
Definition set_no_term (st : tst) := Tst (defers st) (arr st) (prot st) (owned st) (unstack st) (got_signal st) (got_ctrl_c st) false (exiting st) (log st).
(** exit has begun (libc). *)
Definition set_exiting (st : tst) := Tst (defers st) (arr st) (prot st) (owned st) (unstack st) (got_signal st) (got_ctrl_c st) (can_term st) true (log st).
(** Records an event (bookkeeping). *)
Definition note (e : tev) (st : tst) := Tst (defers st) (arr st) (prot st) (owned st) (unstack st) (got_signal st) (got_ctrl_c st) (can_term st) (exiting st) (log st ++ [e]).
(** Sequencing: what follows when control returns (no counterpart in the source). *)
Definition next (r : tres) (k : tst -> tres) : tres := match r with Back st => k st | _ => r end.

(** [throws before e]: does the call [e] throw, when [before] is what was called before it? [has_ctrl_c], [has_term]: the two callbacks are set. *)
Record program := Program { throws : list tev -> tev -> bool; has_ctrl_c : bool; has_term : bool }.

(** A function of the program is called; [thr] is ex_throw. *)
Definition call (P : program) (thr : tst -> tres) (e : tev) (st : tst) : tres :=
  if throws P (log st) e then thr (note e st) else Back (note e st).
(** The loop of raii_deferred_run, raii.c 403-412: the data of a function that has returned is cleared. *)
Fixpoint run_defers (P : program) (thr : tst -> tres) (ran todo : list (Z * Z)) (st : tst) : tres :=
  match todo with
  | [] => Back st
  | (f, d) :: rest =>
      next (call P thr (TCall f d) st) (fun st => run_defers P thr (ran ++ [(f, 0)]) rest (set_defers (ran ++ (f, 0) :: rest) st))
  end.
(** raii_deferred_free, raii.c 436-443, on the thread's scope. *)
Definition free_scope (P : program) (thr : tst -> tres) (st : tst) : tres :=
  if arr st then next (run_defers P thr [] (defers st) st) (fun st => Back (set_wiped st)) else Back st.
(** exit: the handlers, among them raii_destroy, registered by raii_init (raii.c 125). *)
Definition do_exit (P : program) (thr : tst -> tres) (st : tst) : tres :=
  if exiting st then Twice (log st)
  else next (free_scope P thr (note THandlers (set_exiting st))) (fun st => Ended false (log st)).
(** ex_terminate, except.c 354-377. *)
Definition terminate (P : program) (thr : tst -> tres) (st : tst) : tres :=
  next (if owned st then free_scope P thr st else Back st) (fun st =>
  next (if got_ctrl_c st && has_ctrl_c P then call P thr TCtrlC (set_no_ctrl_c st) else Back st) (fun st =>
  next (if can_term st && has_term P then call P thr TTerminate (set_no_term st) else Back st) (fun st =>
  if got_signal st then Ended true (log st) else do_exit P thr st))).
(** ex_throw, except.c 379-415, in the outermost context: raii_unwind_set marks it for unwinding when the scope is protected, then
    ex_unwind_stack (106-134) runs raii_deferred_clean with unstack set. *)
Fixpoint throw_out (P : program) (fuel : nat) (st : tst) : tres :=
  match fuel with
  | O => More (log st)
  | S f =>
      if unstack st then terminate P (throw_out P f) st
      else
        next (if owned st && prot st then free_scope P (throw_out P f) (set_unstack true st) else Back st) (fun st =>
        terminate P (throw_out P f) (set_unstack false st))
  end.

(** What a program does with signals before: [Signal sig], delivered, converted to an exception and handled; [FlagsReset], ex_flags_reset. *)
Inductive before := Signal (sig : Z) | FlagsReset | Nothing.
(** SIGINT on Linux. *)
Definition SIGINT : Z := 2.
(** ex_handler, except.c 520-530; ex_flags_reset, 313-316: got_signal and got_ctrl_c. *)
Definition flag_step (f : bool * bool) (b : before) : bool * bool :=
  match b with Signal sig => (true, if sig =? SIGINT then true else snd f) | FlagsReset => (false, false) | Nothing => f end.
(** The flags after a history (no single place in the code). *)
Definition flags (h : list before) : bool * bool := fold_left flag_step h (false, false).
(** The state in which a program with history [h] throws an exception nobody catches; [ds]: the functions on the thread's scope, newest first;
    [own]: raii_init ran outside any try block, [p]: memory was obtained from the scope. *)
Definition at_throw (h : list before) (ds : list (Z * Z)) (own p : bool) : tst := Tst ds true (own && p) own false (fst (flags h)) (snd (flags h)) true false [].
