(** Atomic operations of include/catomic.h as small-step machines: threads are
    numbered, one machine step is one access to shared memory, and any thread
    may take the next step (sequential consistency: the code's memory orders
    are not modelled, they can only be weaker). *)
From Verif Require Export Base.

(** Thread table update (no counterpart in the source). *)
Definition upd {A} (f : nat -> A) (i : nat) (x : A) : nat -> A := fun j => if Nat.eqb j i then x else f j.

(** Zero or more steps of a machine. *)
Inductive steps {A} (R : A -> A -> Prop) : A -> A -> Prop :=
| steps_refl s : steps R s s
| steps_cons s t u : steps R s t -> R t u -> steps R s u.

(** ** spinlock *)

(** Where a thread is in c89atomic_spinlock_lock / unlock, catomic.h 2561-2577.  The
    work done under the lock is a read and a separate write of one shared
    variable, with any update [f]. *)
Inductive place :=
| Outside
| Try (f : Z -> Z)             (* at the test_and_set of line 2564 *)
| Spin (f : Z -> Z)            (* at the load of line 2568         *)
| Inside (f : Z -> Z)          (* lock returned, before the read   *)
| Read (f : Z -> Z) (v : Z)    (* after the read, before the write *)
| Leave.                       (* at the clear of line 2576        *)

(** The lock byte, the protected variable, the threads, and the updates in
    the order in which they were stored. *)
Record lock_state := LS { flag : Z; data : Z; at_ : nat -> place; done : list (Z -> Z) }.

(** One step of thread [i]. *)
Inductive lock_step : lock_state -> lock_state -> Prop :=
| call_lock i f s : at_ s i = Outside -> lock_step s (LS (flag s) (data s) (upd (at_ s) i (Try f)) (done s))
(* 2564-2566: __atomic_test_and_set stores 1 and returns whether it was non-zero *)
| tas_free i f s : at_ s i = Try f -> flag s = 0 -> lock_step s (LS 1 (data s) (upd (at_ s) i (Inside f)) (done s))
| tas_held i f s : at_ s i = Try f -> flag s <> 0 -> lock_step s (LS 1 (data s) (upd (at_ s) i (Spin f)) (done s))
(* 2568-2570 *)
| spin_held i f s : at_ s i = Spin f -> flag s = 1 -> lock_step s (LS (flag s) (data s) (upd (at_ s) i (Spin f)) (done s))
| spin_free i f s : at_ s i = Spin f -> flag s <> 1 -> lock_step s (LS (flag s) (data s) (upd (at_ s) i (Try f)) (done s))
(* the caller's critical section *)
| section_read i f s : at_ s i = Inside f -> lock_step s (LS (flag s) (data s) (upd (at_ s) i (Read f (data s))) (done s))
| section_write i f v s : at_ s i = Read f v -> lock_step s (LS (flag s) (f v) (upd (at_ s) i Leave) (done s ++ [f]))
(* 2576 *)
| unlock i s : at_ s i = Leave -> lock_step s (LS 0 (data s) (upd (at_ s) i Outside) (done s)).

(** A cleared lock and no thread in a call. *)
Definition lock_init (v : Z) : lock_state := LS 0 v (fun _ => Outside) [].

(** ** compare-and-swap loops *)

(** The operations implemented by such loops: catomic.h 468 and 1522 (exchange), 582
    and 1613 (add), 684-730 and 1642-1685 (sub), 750-808 and 1700-1743 (and), 829-887
    and 1758-1801 (xor), 908-966 and 1816-1859 (or), at width [w] = 8, 16, 32 or 64. *)
Inductive rmw := Xchg (src : Z) | Add (src : Z) | Sub (src : Z) | And (src : Z) | Xor (src : Z) | Or (src : Z).
(** newValue as computed from oldValue, with the conversion to the operation's width. *)
Definition new_value (w : Z) (o : rmw) (old : Z) : Z :=
  (match o with
   | Xchg src => src
   | Add src => old + src
   | Sub src => old - src
   | And src => Z.land old src
   | Xor src => Z.lxor old src
   | Or src => Z.lor old src
   end) mod 2 ^ w.

(** A thread in such a function: between calls with the calls still to make; before
    [oldValue = *dst]; before the compare-and-swap. *)
Inductive caller :=
| Between (todo : list rmw)
| Loading (o : rmw) (todo : list rmw)
| Swapping (o : rmw) (old new : Z) (todo : list rmw).
(** The variable, the threads and the completed calls (thread, operation, result). *)
Record rmw_state := RS { var : Z; caller_of : nat -> caller; calls : list (nat * rmw * Z) }.

(** One step.  The plain read of a volatile variable may be torn or stale: it
    yields any number [v].  The compare-and-swap (catomic.h 1127-1134, 1418) compares and
    stores in one step and returns the value it found. *)
Inductive rmw_step (w : Z) : rmw_state -> rmw_state -> Prop :=
| rmw_call i o l s : caller_of s i = Between (o :: l) -> rmw_step w s (RS (var s) (upd (caller_of s) i (Loading o l)) (calls s))
| rmw_load i o l v s : caller_of s i = Loading o l ->
    rmw_step w s (RS (var s) (upd (caller_of s) i (Swapping o v (new_value w o v) l)) (calls s))
| rmw_swap i o l old new s : caller_of s i = Swapping o old new l -> var s = old ->
    rmw_step w s (RS new (upd (caller_of s) i (Between l)) (calls s ++ [(i, o, old)]))
| rmw_fail i o l old new s : caller_of s i = Swapping o old new l -> var s <> old ->
    rmw_step w s (RS (var s) (upd (caller_of s) i (Loading o l)) (calls s)).

(** Thread [i] will make the calls [prog i]. *)
Definition rmw_init (v : Z) (prog : nat -> list rmw) : rmw_state := RS v (fun i => Between (prog i)) [].

(** A loop whose read is not torn: the only difference is that the value read is the value stored. *)
Inductive rmw_step_whole (w : Z) : rmw_state -> rmw_state -> Prop :=
| whole_call i o l s : caller_of s i = Between (o :: l) -> rmw_step_whole w s (RS (var s) (upd (caller_of s) i (Loading o l)) (calls s))
| whole_load i o l s : caller_of s i = Loading o l ->
    rmw_step_whole w s (RS (var s) (upd (caller_of s) i (Swapping o (var s) (new_value w o (var s)) l)) (calls s))
| whole_swap i o l old new s : caller_of s i = Swapping o old new l -> var s = old ->
    rmw_step_whole w s (RS new (upd (caller_of s) i (Between l)) (calls s ++ [(i, o, old)]))
| whole_fail i o l old new s : caller_of s i = Swapping o old new l -> var s <> old ->
    rmw_step_whole w s (RS (var s) (upd (caller_of s) i (Loading o l)) (calls s)).
