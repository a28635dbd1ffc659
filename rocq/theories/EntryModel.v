(** Signals that arrive while a guard is entered or left: the macros guard and guarded, include/raii.h 531-575, with ex_try, ex_finally and ex_end_try,
    include/exception.h 297-348, store by store, inside any nesting of guards and try blocks.  A signal becomes a throw in the current context
    (ex_handler, src/except.c 520-547; ex_throw, 379-416).

    One thread, initialised, without thread pool: outside guards raii_local()->arena is NULL.  The scopes are numbered; what they have deferred is the
    business of AsyncModel.  The guards have no _malloc, so that is_unwind is false and ex_throw releases nothing.  A handler, once entered, runs to its end. *)
From Verif Require Export BaseLemmas.

(** A context: of a try block, or of a guard with its scope and what it saved (s##__FUNCTION__, sf##__FUNCTION__, uf##__FUNCTION__, raii.h 535-537). *)
Inductive frame := FTry | FGuard (u a : Z) (hs hu : bool).
(** exception_setup_func is guard_set; exception_unwind_func is raii_deferred_free; raii_local()->arena; the contexts from the current one outwards, each with
    whether its buf was filled; the scopes not released; the next scope; the scopes whose err was set, newest first. *)
Record est := Est { setup : bool; unwind : bool; arena : Z; cur : list (frame * bool); live : list Z; fresh : Z; errs : list Z }.

(** Field updates (no counterpart in the source). *)
Definition set_hooks (s u : bool) (st : est) := Est s u (arena st) (cur st) (live st) (fresh st) (errs st).
(** raii_local()->arena. *)
Definition set_arena (a : Z) (st : est) := Est (setup st) (unwind st) a (cur st) (live st) (fresh st) (errs st).
(** ex_update. *)
Definition set_cur (c : list (frame * bool)) (st : est) := Est (setup st) (unwind st) (arena st) c (live st) (fresh st) (errs st).
(** RAII_FREE of a scope. *)
Definition drop (u : Z) (st : est) := Est (setup st) (unwind st) (arena st) (cur st) (remove Z.eq_dec u (live st)) (fresh st) (errs st).
(** unique_init, raii.c 200-210. *)
Definition unique_init (st : est) := Est (setup st) (unwind st) (arena st) (cur st) (fresh st :: live st) (fresh st + 1) (errs st).

(** exception_setup_func(ctx, ...) in ex_throw, except.c 396-399, with guard_set, raii.c 524-531. *)
Definition setup_func (st : est) : out est :=
  if setup st then
    if arena st =? 0 then Undef NullDeref
    else if existsb (Z.eqb (arena st)) (live st) then Ok (Est (setup st) (unwind st) (arena st) (cur st) (live st) (fresh st) (arena st :: errs st))
    else Undef UseAfterFree
  else Ok st.
(** Entering a guard: what was done after [j] steps. *)
Definition enter (j : nat) (st : est) : est :=
  let a := arena st in let hs := setup st in let hu := unwind st in let u := fresh st in let c := cur st in                (* raii.h 535-537 *)
  let st := if (1 <=? j)%nat then set_hooks (setup st) true st else st in                                       (* raii.h 538 *)
  let st := if (2 <=? j)%nat then set_hooks true (unwind st) st else st in                                      (* raii.h 539 *)
  let st := if (3 <=? j)%nat then unique_init st else st in                                                     (* raii.h 540-541 *)
  let st := if (4 <=? j)%nat then set_arena u st else st in                                                     (* raii.h 542 *)
  let st := if (5 <=? j)%nat then set_cur ((FGuard u a hs hu, false) :: c) st else st in                        (* exception.h 301-309 *)
  if (6 <=? j)%nat then set_cur ((FGuard u a hs hu, true) :: c) st else st.                                     (* exception.h 310 *)
(** Leaving the innermost guard, after its scope was released: what was done after [j] steps. *)
Definition leave (j : nat) (u a : Z) (hs hu : bool) (c : list (frame * bool)) (st : est) : est :=
  let st := if (1 <=? j)%nat then set_cur c st else st in                                                       (* exception.h 336 *)
  let st := if (2 <=? j)%nat then set_arena a st else st in                                                     (* raii.c 534 *)
  let st := if (3 <=? j)%nat then set_hooks hs (unwind st) st else st in                                        (* raii.c 537 *)
  let st := if (4 <=? j)%nat then set_hooks (setup st) hu st else st in                                         (* raii.c 538 *)
  if (5 <=? j)%nat then drop u st else st.                                                                      (* raii.c 541-547 *)
(** ex_throw in the current context and what follows: the exception passes [k] try blocks and is handled in the next one; every guard on the way
    is left and throws again (exception.h 346-347).  [None]: the program ends in ex_terminate.  The list is [cur st]. *)
Fixpoint throw (k : nat) (c : list (frame * bool)) (st : est) : out (option est) :=
  let* st := setup_func st in
  match c with
  | [] => Ok None
  | (_, false) :: _ => Undef UninitRead
  | (FTry, true) :: c => match k with O => Ok (Some (set_cur c st)) | S k => throw k c (set_cur c st) end
  | (FGuard u a hs hu, true) :: c => throw k c (leave 5 u a hs hu c st)
  end.
(** A signal. *)
Definition signal (k : nat) (st : est) : out (option est) := throw k (cur st) st.
