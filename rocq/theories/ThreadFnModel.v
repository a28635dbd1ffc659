(** The body of a thread: thrd_raii_wrapper, src/future.c 70-91, with the guard around the thread function that ends in
    guarded_exception, include/raii.h 531-547 and 576-593.

    The thread function is a program of [ExcModel]; [Defer] and [Malloc] outside its own guards act on the wrapper's scope, which
    the function reaches as raii_local()->arena (raii_recover_by, malloc_full).  Simplified as in [ExcModel]; promise_set and the
    release of the argument (future.c 81-85) are in [FutureModel]; the words is_recovered and err are those of the wrapper's own scope. *)
From Verif Require Export ExcModel.

(** Identity of the scope of the thread that created the future, f->value->scope, future.c 74 and 79. *)
Definition creator : Z := 2.
(** The new thread: nothing initialised but ex_init (except.c 331-348); [hs], [hu]: the process-wide hooks are those of a guard
    open in some thread; [err], [panic]: what the creator's scope holds. *)
Definition thread_start (j : Z -> Z) (hs hu : bool) (err panic : Z) : est :=
  with_scope creator (fun _ => Scope true [] err panic false false 0 true) (set_fresh 3 (set_hooks hs hu (start j))).
(** guarded_exception after raii_deferred_free, raii.h 583-587; raii_message_by, raii.c 512-514. *)
Definition report (id g : Z) (st : est) : est :=
  if negb (s_rec (scopes st g)) then
    let '(b, st) := is_caught g (s_pending (scopes st g)) st in
    if b then with_scope creator (s_set_err (c_ex (ctxs st id)) (c_panic (ctxs st id))) st else st
  else st.
(** thrd_raii_wrapper up to promise_set, future.c 70-79. *)
Definition wrapper (fuel : nat) (b : stmt) (st : est) : out (res * est) :=
  let st := with_scope creator (fun s => s_set_err 0 (s_panic s) s) st in                          (* future.c 74 *)
  let st := raii_init st in                                                                        (* raii.h 531-547 *)
  let a0 := arena st in let hs := hook_set st in let hu := hook_unwind st in
  let g := fresh st in
  let st := set_arena g (set_fresh (g + 1) (with_scope g (fun _ => Scope true [] 0 0 false false 0 true) (set_hooks true true st))) in
  let '(id, st) := new_ctx st in
  landing fuel id
    (fun st => andthen (exec fuel id g b st) (fun st => deferred_free (ex_throw fuel) g st))       (* future.c 78, raii.h 580-581 *)
    (fun st => if c_state (ctxs st id) =? 1
               then andthen (deferred_free (ex_throw fuel) g st) (fun st => Ok (RNorm, report id g st)) else Ok (RNorm, st))
    (fun st =>
       let st := set_cur (c_next (ctxs st id)) st in
       let st := set_hooks hs hu (with_ctx (cur st) c_swap_reset (set_arena a0 st)) in             (* guard_reset, raii.c 533-539 *)
       Ok (RNorm, with_scope g s_dead st))                                                         (* guard_delete, raii.c 541-547 *)
    0 st.
(** How the wrapper ends: it goes on to promise_set with these words in the creator's scope, or the process exits (ex_terminate). *)
Inductive wend := Goes (err panic : Z) | Exits (ex pm : Z).
(** A whole thread, future.c 70-91, with raii_destroy, 87. *)
Definition thread (fuel : nat) (b : stmt) (j : Z -> Z) (hs hu : bool) (err panic : Z) : out (list event * wend) :=
  match wrapper fuel b (thread_start j hs hu err panic) with
  | Ok (RNorm, st) => Ok (trace (free_root st), Goes (s_err (scopes st creator)) (s_panic (scopes st creator)))
  | Ok (RJump _ _, _) => Undef DeadJump
  | Ok (RExit ex pm, st) => Ok (trace (free_root st), Exits ex pm)
  | Undef u => Undef u
  | Panics => Panics
  | NoFuel => NoFuel
  end.
