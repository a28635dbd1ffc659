(** The spinlock and the flag of a promise with the memory orders the code asks for: c89atomic_spinlock_lock / unlock (include/catomic.h 2561-2577, with the built-ins of 1137-1139),
    promise_set, promise_get, thrd_is_done and thrd_wait (src/future.c 23-43, 125-132).

    Release/acquire memory: the values stored into an atomic variable have positions (its modification order), a load may return any value that is not older than what its thread has
    seen, a store takes any free position behind that, and a read-modify-write takes the position directly behind the value it reads.  A value carries what a thread that
    acquires it learns; a read-modify-write passes on what the value it read carries (release sequence).  Accesses to a plain variable are counted; a thread knows of a number
    of them; an access by a thread that does not know of all the others before it is a data race.

    Simplified: one atomic and one plain variable at a time; sequentially consistent operations are taken as acquire and release (they can only be stronger). *)
From Verif Require Export AtomicModel.
Import ListNotations.

(** A value in the history of an atomic variable and the number of accesses it publishes (no counterpart in the source). *)
Record msg := Msg { m_val : Z; m_pub : nat }.
(** The history, by position. *)
Definition hist := Z -> option msg.
(** Adds a value at a position. *)
Definition put (h : hist) (t : Z) (m : msg) : hist := fun u => if u =? t then Some m else h u.
(** The cleared variable, src/future.c 16-17. *)
Definition cleared : hist := put (fun _ => None) 0 (Msg 0 0).

(** A thread: its place in the code (that of AtomicModel, include/catomic.h 2561-2577), the newest position seen, the accesses known. *)
Record wthread := WT { w_at : place; w_seen : Z; w_know : nat }.
(** The history of the lock, the number of accesses to the protected variable, its value, the threads, the updates stored, whether there was a data race. *)
Record wstate := WS { w_hist : hist; w_acc : nat; w_data : Z; w_thr : nat -> wthread; w_done : list (Z -> Z); w_race : bool }.
(** One step of thread [i], include/catomic.h 2561-2577: test_and_set acquires (2564), the load in the inner loop is relaxed (2568), clear releases (2576). *)
Inductive weak_step (i : nat) (s : wstate) : wstate -> Prop :=
| wcall f g k : w_thr s i = WT Outside g k -> weak_step i s (WS (w_hist s) (w_acc s) (w_data s) (upd (w_thr s) i (WT (Try f) g k)) (w_done s) (w_race s))
| wtas f g k t m : w_thr s i = WT (Try f) g k -> g <= t -> w_hist s t = Some m -> w_hist s (t + 1) = None ->
    weak_step i s (WS (put (w_hist s) (t + 1) (Msg 1 (m_pub m))) (w_acc s) (w_data s) (upd (w_thr s) i (WT (if m_val m =? 0 then Inside f else Spin f) (t + 1) (Nat.max k (m_pub m)))) (w_done s) (w_race s))
| wspin f g k t m : w_thr s i = WT (Spin f) g k -> g <= t -> w_hist s t = Some m ->
    weak_step i s (WS (w_hist s) (w_acc s) (w_data s) (upd (w_thr s) i (WT (if m_val m =? 1 then Spin f else Try f) t k)) (w_done s) (w_race s))
| wread f g k : w_thr s i = WT (Inside f) g k ->
    weak_step i s (WS (w_hist s) (S (w_acc s)) (w_data s) (upd (w_thr s) i (WT (Read f (w_data s)) g (S k))) (w_done s) (w_race s || negb (Nat.eqb k (w_acc s))))
| wwrite f v g k : w_thr s i = WT (Read f v) g k ->
    weak_step i s (WS (w_hist s) (S (w_acc s)) (f v) (upd (w_thr s) i (WT Leave g (S k))) (w_done s ++ [f]) (w_race s || negb (Nat.eqb k (w_acc s))))
| wclear g k t : w_thr s i = WT Leave g k -> g < t -> w_hist s t = None ->
    weak_step i s (WS (put (w_hist s) t (Msg 0 k)) (w_acc s) (w_data s) (upd (w_thr s) i (WT Outside t k)) (w_done s) (w_race s)).
(** A cleared lock and no thread in a call, src/future.c 16. *)
Definition weak_init (v : Z) : wstate := WS cleared 0 v (fun _ => WT Outside 0 0) [] false.

(** Where a thread is with a promise, src/future.c: before the store of the result (28-30), before the test_and_set of done (35), behind it; in the loop of promise_get (39) or, with
    a relaxed load, of thrd_wait (130); before the use of the result (42); behind it. *)
Inductive pplace := Setting | Flagging | Flagged | Waiting (acquires : bool) | Using (acquires : bool) | Used (acquires : bool) (r : Z) | Raced (acquires : bool).
(** A thread with a promise, as [wthread]. *)
Record pthread := PT { p_at : pplace; p_seen : Z; p_know : nat }.
(** The history of done, the stores of the result, the result, the threads. *)
Record pstate := PS { p_hist : hist; p_stores : nat; p_result : Z; p_thr : nat -> pthread }.
(** One step of thread [i]; [v] is the result of the function, src/future.c 23-43, 125-132. *)
Inductive promise_step (v : Z) (i : nat) (s : pstate) : pstate -> Prop :=
| pset g k : p_thr s i = PT Setting g k -> promise_step v i s (PS (p_hist s) (S (p_stores s)) v (upd (p_thr s) i (PT Flagging g (S k))))
| pflag g k t m : p_thr s i = PT Flagging g k -> g <= t -> p_hist s t = Some m -> p_hist s (t + 1) = None ->
    promise_step v i s (PS (put (p_hist s) (t + 1) (Msg 1 (Nat.max k (m_pub m)))) (p_stores s) (p_result s) (upd (p_thr s) i (PT Flagged (t + 1) (Nat.max k (m_pub m)))))
| pload a g k t m : p_thr s i = PT (Waiting a) g k -> g <= t -> p_hist s t = Some m ->
    promise_step v i s (PS (p_hist s) (p_stores s) (p_result s) (upd (p_thr s) i (PT (if m_val m =? 0 then Waiting a else Using a) t (if a then Nat.max k (m_pub m) else k))))
| puse a g k : p_thr s i = PT (Using a) g k ->
    promise_step v i s (PS (p_hist s) (p_stores s) (p_result s) (upd (p_thr s) i (PT (if Nat.ltb k (p_stores s) then Raced a else Used a (p_result s)) g k))).
(** A new promise: thread 0 runs the function, thread [i] waits as [how i] says, src/future.c 12-21. *)
Definition promise_init (how : nat -> bool) : pstate := PS cleared 0 0 (fun i => PT (match i with O => Setting | _ => Waiting (how i) end) 0 0).
(** Runs of either machine: any thread may take the next step (no counterpart in the source). *)
Inductive runs {A} (R : nat -> A -> A -> Prop) : A -> A -> Prop :=
| runs_nil s : runs R s s
| runs_snoc s t i u : runs R s t -> R i t u -> runs R s u.
