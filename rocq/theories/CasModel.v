(** Compare and exchange built from a compare-and-swap: c89atomic_compare_exchange_strong_explicit_8/16/32/64 without native support (include/catomic.h 1915-1991; the weak forms
    are the same, 1993-1996), c89atomic_cas_32, c89atomic_cas_64 and c89atomic_swap of the Windows build (2581-2620).

    Threads are numbered, one step is one access to memory, any thread may take the next step (sequential consistency).  Simplified: each thread has one variable for the expected
    value, which no other thread uses (the caller's obligation in C11, too); values are what fits the width; the variants for TinyCC are left out. *)
From Verif Require Export AtomicModel.
Import ListNotations.

(** A call: whether the caller assigns the expected value before it (or leaves what an earlier call stored), and the desired value as a function of the expected one. *)
Record cas_call := Call { set_expected : option Z; desired : Z -> Z }.
(** Where a thread is: between calls; behind the load of *expected (1925, 2599) with the desired value; behind a failed compare-and-swap, at the store (1930, 2603). *)
Inductive cas_place := Idle (todo : list cas_call) | Loaded (e d : Z) (todo : list cas_call) | Failed (e d seen : Z) (todo : list cas_call).
(** A call that has returned: thread, expected and desired value, the result. *)
Record cas_done := Done { d_thread : nat; d_expected : Z; d_desired : Z; d_result : bool }.
(** The variable, the expected values, the threads, the calls that have returned. *)
Record cas_state := CS { cas_var : Z; cas_exp : nat -> Z; cas_at : nat -> cas_place; cas_log : list cas_done }.
(** One step of thread [i], include/catomic.h 1925-1932, 2598-2605. *)
Inductive cas_step : nat -> cas_state -> cas_state -> Prop :=
| cas_load i c todo s : cas_at s i = Idle (c :: todo) ->
    let e := match set_expected c with Some e => e | None => cas_exp s i end in
    cas_step i s (CS (cas_var s) (upd (cas_exp s) i e) (upd (cas_at s) i (Loaded e (desired c e) todo)) (cas_log s))
| cas_hit i e d todo s : cas_at s i = Loaded e d todo -> cas_var s = e ->
    cas_step i s (CS d (cas_exp s) (upd (cas_at s) i (Idle todo)) (cas_log s ++ [Done i e d true]))
| cas_miss i e d todo s : cas_at s i = Loaded e d todo -> cas_var s <> e ->
    cas_step i s (CS (cas_var s) (cas_exp s) (upd (cas_at s) i (Failed e d (cas_var s) todo)) (cas_log s))
| cas_store i e d seen todo s : cas_at s i = Failed e d seen todo ->
    cas_step i s (CS (cas_var s) (upd (cas_exp s) i seen) (upd (cas_at s) i (Idle todo)) (cas_log s ++ [Done i e d false])).
(** Runs: the threads that took the steps, in order (no counterpart in the source). *)
Inductive cas_run : cas_state -> list nat -> cas_state -> Prop :=
| cas_run_nil s : cas_run s [] s
| cas_run_snoc s l t i u : cas_run s l t -> cas_step i t u -> cas_run s (l ++ [i]) u.
(** The start: the variable has the value [v], thread [i] will make the calls [prog i], with arbitrary expected values. *)
Definition cas_init (v : Z) (exp : nat -> Z) (prog : nat -> list cas_call) : cas_state := CS v exp (fun i => Idle (prog i)) [].
