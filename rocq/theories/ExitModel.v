(** Exit handlers: raii_init, src/raii.c 103-129 with thrd_local_get, include/cthread.h 500-507 (native form); raii_destroy and raii_delete,
    raii.c 276-292, 310-312; ex_terminate, src/except.c 354-377; exit runs the handlers newest first in the thread that calls it.

    A deferred function is a number; what it does is not modelled here (C32: one that defers again is dropped).  A scope counts
    only through the functions deferred on it. *)
From Verif Require Export Base.

(** The functions registered with atexit: raii_del and except_del (cthread.h 500-507), raii_destroy (raii.c 125). *)
Inductive handler := HRaiiDel | HExceptDel | HRaiiDestroy.
(** A thread: thrd_raii_tls is not NULL; thrd_except_tls is not NULL; how far raii_init has come (0: not started, 1: after raii(), 2: after
    ex_init(), 3: finished); the functions deferred, newest first; the array's type tag is set. *)
Record xthread := XT { x_tls : bool; x_except : bool; x_stage : nat; x_defers : list Z; x_arr : bool }.
(** [x_room]: registrations atexit still accepts; [None]: no limit. *)
Record xstate := XS { x_handlers : list handler; x_room : option nat; x_threads : nat -> xthread }.
(** Update of a table (no counterpart in the source). *)
Definition updx (f : nat -> xthread) (t : nat) (x : xthread) : nat -> xthread := fun u => if (u =? t)%nat then x else f u.
(** atexit; its result is ignored everywhere. *)
Definition atexit (h : handler) (s : xstate) : xstate :=
  match x_room s with
  | None => XS (h :: x_handlers s) None (x_threads s)
  | Some O => s
  | Some (S n) => XS (h :: x_handlers s) (Some n) (x_threads s)
  end.
(** Update of a thread (no counterpart in the source). *)
Definition set_xt (t : nat) (x : xthread) (s : xstate) : xstate := XS (x_handlers s) (x_room s) (updx (x_threads s) t x).

(** [Init]: the next part of raii_init; [TryFirst]: ex_init; [Deferred d]: raii_defer after raii_init. *)
Inductive xop := Init | TryFirst | Deferred (d : Z).
(** ex_init, except.c 331-348: except() registers except_del. *)
Definition ex_init_reg (t : nat) (s : xstate) : xstate :=
  let x := x_threads s t in
  if x_except x then s else atexit HExceptDel (set_xt t (XT (x_tls x) true (x_stage x) (x_defers x) (x_arr x)) s).
(** One operation of a thread: raii_init, raii.c 103-129; ex_init, except.c 331-348; raii_defer, raii.c 471-473. *)
Definition xstep (t : nat) (o : xop) (s : xstate) : option xstate :=
  let x := x_threads s t in
  match o with
  | Init =>
      match x_stage x with
      | 0%nat => Some (atexit HRaiiDel (set_xt t (XT true (x_except x) 1 [] true) s))          (* 105-115 *)
      | 1%nat => Some (ex_init_reg t (set_xt t (XT (x_tls x) (x_except x) 2 (x_defers x) (x_arr x)) s))   (* 118 *)
      | 2%nat => Some (atexit HRaiiDestroy (set_xt t (XT (x_tls x) (x_except x) 3 (x_defers x) (x_arr x)) s))   (* 125 *)
      | _ => Some s
      end
  | TryFirst => match x_stage x with 0%nat | 3%nat => Some (ex_init_reg t s) | _ => None end
  | Deferred d => match x_stage x with 3%nat => Some (set_xt t (XT (x_tls x) (x_except x) 3 (d :: x_defers x) (x_arr x)) s) | _ => None end
  end.
(** Any interleaving of the threads' operations (no single place in the code). *)
Fixpoint xrun (h : list (nat * xop)) (s : xstate) : option xstate :=
  match h with [] => Some s | (t, o) :: h => match xstep t o s with None => None | Some s => xrun h s end end.

(** raii_destroy in thread [t]: the functions called, in order; raii_deferred_free wipes the array's type. *)
Definition raii_destroy (t : nat) (s : xstate) : list Z * xstate :=
  let x := x_threads s t in
  if x_tls x && x_arr x then (x_defers x, set_xt t (XT true (x_except x) (x_stage x) [] false) s) else ([], s).
(** raii_destroy, raii.c 276-280; the _del functions, cthread.h 509-512. *)
Definition run_handler (t : nat) (h : handler) (s : xstate) : list Z * xstate :=
  let x := x_threads s t in
  match h with
  | HRaiiDestroy => raii_destroy t s
  | HRaiiDel => ([], set_xt t (XT false (x_except x) (x_stage x) (x_defers x) (x_arr x)) s)
  | HExceptDel => ([], set_xt t (XT (x_tls x) false (x_stage x) (x_defers x) (x_arr x)) s)
  end.
(** exit: the handlers, newest first (libc). *)
Fixpoint run_handlers (t : nat) (l : list handler) (s : xstate) : list Z * xstate :=
  match l with
  | [] => ([], s)
  | h :: l => let '(a, s) := run_handler t h s in let '(b, s) := run_handlers t l s in (a ++ b, s)
  end.
(** exit, or falling off the end of main, in thread [t]. *)
Definition xexit (t : nat) (s : xstate) : list Z * xstate := run_handlers t (x_handlers s) s.
(** ex_terminate: raii_destroy when the thread's context belongs to a scope, then exit. *)
Definition xterminate (t : nat) (s : xstate) : list Z * xstate :=
  let '(a, s) := (if (2 <=? x_stage (x_threads s t))%nat then raii_destroy t s else ([], s)) in
  let '(b, s) := xexit t s in (a ++ b, s).
(** The process at its start: nothing registered. *)
Definition xstart (room : option nat) : xstate := XS [] room (fun _ => XT false false 0 [] false).
