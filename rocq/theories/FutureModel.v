(** Futures: src/future.c 13-150, include/raii.h 190-300, 576-593.

    One creating thread and its workers, interleaved step by step (sequentially consistent).  Simplified: creating a
    thread and allocating succeed; the guard around the thread function behaves as proved for one thread in PropExc (its
    outcome is the value returned or the exception that ended it), its hooks being global is C41; of the three words
    guarded_exception stores (err, panic, backtrace) only err is kept; raii_deferred on the creator's scope by the worker
    is RaceModel; the creator catches what thrd_get throws. *)
From Verif Require Export MiscModel.

(** How the thread function ends: the pointer it returns (0 is NULL), or an exception (a non-NULL name). *)
Inductive fend := Returns (v : Z) | Throws (e : Z).
(** A call of thrd_async: outcome of the function, the 32-bit words readable at [args] ([None]: NULL) as they are when it
    has ended, and the value.object of the raii_values_t the returned pointer points to, if it points to one. *)
Record job := Job { j_end : fend; j_arg : option (list Z); j_box : option Z }.
(** promise.result: NULL, a block with this value.object, something else. *)
Inductive rptr := RNull | RBox (v : Z) | RWild.

(** is_type(f->arg, RAII_ARGS) && ((args_t)f->arg)->is_returning, future.c 81; is_returning is the third word of
    struct args_s, raii.h 177-180. *)
Definition is_args (j : job) : out bool :=
  match j_arg j with
  | None => Undef NullDeref
  | Some [] => Undef OobRead
  | Some (t :: ws) =>
      let* b := is_type (Some t) (code T_ARGS) in
      if b then match nth_error ws 1 with Some r => Ok (negb (r =? 0)) | None => Undef OobRead end else Ok false
  end.

(** Where a worker is, future.c 70-91 and 23-36. *)
Inductive wpc :=
| W0                      (* 74: f->value->scope->err = nullptr *)
| W1                      (* 77-79: the guarded call *)
| W2 (res : Z)            (* 81: is_args *)
| W3 (res : Z) (b : bool) (* 24: atomic_lock *)
| W4 (res : Z) (b : bool) (* 25-32 *)
| W5                      (* 34: atomic_unlock *)
| W6                      (* 35: done *)
| W7                      (* 82-90: release of f, raii_destroy, exit *)
| WEnd.
(** A future, its promise and its worker; [s_live]: the future has not been freed. *)
Record slot := Slot { s_job : job; s_pc : wpc; s_type : Z; s_done : bool; s_lock : bool; s_res : rptr; s_live : bool }.
(** promise_create, future_create, thrd_start, future.c 13-21, 55-61, 93-109. *)
Definition thrd_async (j : job) : slot := Slot j W0 (code T_PROMISE) false false RNull true.

(** What the creator does with its futures, numbered in the order of creation: thrd_async, thrd_is_done, thrd_get, and
    throwing and catching an exception of its own (raii_unwind_set leaves its name in the scope, raii.c 91-97). *)
Inductive op := Async (j : job) | IsDone (i : nat) | Get (i : nat) | Raise (e : Z).
(** What thrd_get returns or throws, future.c 111-123. *)
Inductive got := GVal (v : Z) | GThrow (e : Z) | GLogic.
(** What the creator sees (bookkeeping). *)
Inductive event := EDone (i : nat) (b : bool) | EGet (i : nat) (g : got).
(** Where the creator is in thrd_get, future.c 111-123. *)
Inductive cpc :=
| Idle
| G1 (i : nat)            (* 113: promise_get *)
| G2 (i : nat) (r : rptr) (* 114: future_close *)
| G3 (i : nat) (r : rptr) (* 115: f->value of the freed future *)
| G4 (i : nat) (r : rptr) (* 115-119: promise_close and the value *) .
(** [err]: scope->err of the creator's scope. *)
Record fstate := FState { slots : list slot; err : Z; todo : list op; cur : cpc; flog : list event }.
(** The creator at its start. *)
Definition finit (prog : list op) : fstate := FState [] 0 prog Idle [].

(** Update of a list (no counterpart in the source). *)
Definition upd (l : list slot) (i : nat) (s : slot) : list slot := firstn i l ++ match skipn i l with [] => [] | _ :: r => s :: r end.
(** The worker's next place, future.c 70-91. *)
Definition at_pc (p : wpc) (s : slot) : slot := Slot (s_job s) p (s_type s) (s_done s) (s_lock s) (s_res s) (s_live s).
(** Store to promise->mutex, future.c 24 and 34. *)
Definition with_lock (b : bool) (s : slot) : slot := Slot (s_job s) (s_pc s) (s_type s) (s_done s) b (s_res s) (s_live s).
(** Store to promise->done, future.c 35. *)
Definition with_done (b : bool) (s : slot) : slot := Slot (s_job s) (s_pc s) (s_type s) b (s_lock s) (s_res s) (s_live s).
(** Store to promise->result, future.c 27-29. *)
Definition with_res (r : rptr) (s : slot) : slot := Slot (s_job s) (s_pc s) (s_type s) (s_done s) (s_lock s) r (s_live s).
(** future_close, future.c 63-68. *)
Definition freed_future (s : slot) : slot := Slot (s_job s) (s_pc s) (s_type s) (s_done s) (s_lock s) (s_res s) false.
(** promise_close, future.c 45-53. *)
Definition closed (s : slot) : slot := Slot (s_job s) (s_pc s) 4294967295 false false (s_res s) (s_live s).

(** promise_set under the lock, future.c 24-33. *)
Definition store_res (j : job) (res : Z) (b : bool) (old : rptr) : rptr :=
  if res =? 0 then old
  else if b then match j_box j with Some v => RBox v | None => RWild end
  else RBox res.
(** One step of a worker: the slot and the creator's scope->err; [None]: it has to wait or has ended. *)
Definition wstep (s : slot) (e : Z) : option (out (slot * Z)) :=
  match s_pc s with
  | W0 => Some (Ok (at_pc W1 s, 0))
  | W1 => match j_end (s_job s) with
          | Returns v => Some (Ok (at_pc (W2 v) s, e))
          | Throws x => Some (Ok (at_pc (W2 0) s, x))
          end
  | W2 r => Some (let* b := is_args (s_job s) in Ok (at_pc (W3 r b) s, e))
  | W3 r b => if s_lock s then None else Some (Ok (with_lock true (at_pc (W4 r b) s), e))
  | W4 r b => Some (Ok (with_res (store_res (s_job s) r b (s_res s)) (at_pc W5 s), e))
  | W5 => Some (Ok (with_lock false (at_pc W6 s), e))
  | W6 => Some (Ok (with_done true (at_pc W7 s), e))
  | W7 => Some (Ok (at_pc WEnd s, e))
  | WEnd => None
  end.

(** One step of the creator.  [keep]: the machine reading where the value field of a future just freed still has its
    contents ([false]: reading it is undefined). *)
Definition cstep (keep : bool) (st : fstate) : option (out fstate) :=
  match cur st with
  | Idle =>
      match todo st with
      | [] => None
      | Async j :: t => Some (Ok (FState (slots st ++ [thrd_async j]) (err st) t Idle (flog st)))
      | Raise e :: t => Some (Ok (FState (slots st) e t Idle (flog st)))
      | IsDone i :: t =>
          match nth_error (slots st) i with
          | None => Some (Undef WildPointer)
          | Some s => if s_live s then Some (Ok (FState (slots st) (err st) t Idle (flog st ++ [EDone i (s_done s)]))) else Some (Undef UseAfterFree)
          end
      | Get i :: t =>
          match nth_error (slots st) i with
          | None => Some (Undef WildPointer)
          | Some s =>
              if s_live s then
                if s_type s =? code T_PROMISE then Some (Ok (FState (slots st) (err st) t (G1 i) (flog st)))
                else Some (Ok (FState (slots st) (err st) t Idle (flog st ++ [EGet i GLogic])))
              else Some (Undef UseAfterFree)
          end
      end
  | G1 i =>
      match nth_error (slots st) i with
      | None => Some (Undef WildPointer)
      | Some s => if s_done s then Some (Ok (FState (slots st) (err st) (todo st) (G2 i (s_res s)) (flog st))) else None
      end
  | G2 i r =>
      match nth_error (slots st) i with
      | None => Some (Undef WildPointer)
      | Some s => match s_pc s with
                  | WEnd => Some (Ok (FState (upd (slots st) i (freed_future s)) (err st) (todo st) (G3 i r) (flog st)))
                  | _ => None
                  end
      end
  | G3 i r => if keep then Some (Ok (FState (slots st) (err st) (todo st) (G4 i r) (flog st))) else Some (Undef UseAfterFree)
  | G4 i r =>
      match nth_error (slots st) i with
      | None => Some (Undef WildPointer)
      | Some s =>
          let sl := if s_type s =? code T_PROMISE then upd (slots st) i (closed s) else slots st in
          if (s_type s =? code T_PROMISE) && negb (err st =? 0)
          then Some (Ok (FState sl (err st) (todo st) Idle (flog st ++ [EGet i (GThrow (err st))])))
          else match r with
               | RNull => Some (Undef NullDeref)
               | RWild => Some (Undef WildPointer)
               | RBox v => Some (Ok (FState sl (err st) (todo st) Idle (flog st ++ [EGet i (GVal v)])))
               end
      end
  end.

(** A step of the creator ([None]) or of a worker. *)
Definition fstep (keep : bool) (t : option nat) (st : fstate) : option (out fstate) :=
  match t with
  | None => cstep keep st
  | Some i =>
      match nth_error (slots st) i with
      | None => None
      | Some s => match wstep s (err st) with
                  | None => None
                  | Some (Ok (s', e)) => Some (Ok (FState (upd (slots st) i s') e (todo st) (cur st) (flog st)))
                  | Some (Undef u) => Some (Undef u)
                  | Some Panics => Some Panics
                  | Some NoFuel => Some NoFuel
                  end
      end
  end.
(** The states some interleaving leads to (no single place in the code). *)
Inductive reach (keep : bool) (a : fstate) : fstate -> Prop :=
| reach_refl : reach keep a a
| reach_step t b c : reach keep a b -> fstep keep t b = Some (Ok c) -> reach keep a c.
(** Runs a schedule. *)
Fixpoint sched (keep : bool) (ts : list (option nat)) (st : fstate) : out fstate :=
  match ts with
  | [] => Ok st
  | t :: ts => match fstep keep t st with Some o => let* st := o in sched keep ts st | None => sched keep ts st end
  end.
(** thrd_pool, future.c 178-201: its workers get a future_arg without promise; thrd_raii_wrapper, future.c 74, up to its first
    access.  [value]: f->value, [None] for NULL. *)
Record future_arg := FArg { fa_value : option nat; fa_func : Z }.
(** thrd_pool, future.c 178-201. *)
Definition thrd_pool (count : nat) : list future_arg := map (fun _ => FArg None 0) (seq 0 count).
(** thrd_raii_wrapper up to its first access, future.c 70-74. *)
Definition wrapper_entry (f : future_arg) : out nat := match fa_value f with None => Undef NullDeref | Some p => Ok p end.
