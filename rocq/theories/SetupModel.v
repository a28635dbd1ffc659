(** Several threads that enter their first try blocks at the same time: the test of exception_signal_set in ex_try (include/exception.h 299-300) and raii_init (src/raii.c 122-123), and
    ex_signal_setup (src/except.c 608-675) with ex_signal (567-606) one access to the shared variables at a time.

    Simplified: POSIX, sequential consistency, sigaction succeeds; the two members of a slot that the search looks at are read in one step; the shared ex_sig_sa is left out, all
    threads store the same into it. *)
From Verif Require Export SignalModel.
Import ListNotations.

(** Where a thread is: before the test; in the search of ex_signal (src/except.c 570-573) for a signal at a slot; before sigaction (599); before the store of ex, that of sig (603) and
    that of exception_signal_set (604); in the block, having done the set-up itself or not. [rest] are the signals still to come (621-674). *)
Inductive tplace :=
| Before
| Search (sig : Z) (rest : list Z) (k : nat)
| Install (sig : Z) (rest : list Z) (k : nat)
| StoreEx (sig : Z) (rest : list Z) (k : nat)
| StoreSig (sig : Z) (rest : list Z) (k : nat)
| StoreSet (rest : list Z)
| InBlock (did : bool).
(** The call for the next signal of ex_signal_setup, src/except.c 621-674. *)
Definition next_signal (l : list Z) : tplace := match l with [] => InBlock true | sig :: rest => Search sig rest 0 end.
(** A slot of ex_sig (src/except.c 81-87), as ex_signal finds it. *)
Definition slot_at (t : list slot) (k : nat) : slot := nth k t (Slot 0 0).
(** One step of a thread: the shared variables and the place after it, src/except.c 567-675, include/exception.h 299-300. *)
Definition setup_step (st : sigs) (p : tplace) : sigs * tplace :=
  match p with
  | Before => (st, if is_set st then InBlock false else next_signal default_set)
  | Search sig rest k =>
      match nth_error (table st) k with
      | None => (st, next_signal rest)
      | Some s => (st, if (s_ex s =? 0) || (s_sig s =? sig) then Install sig rest k else Search sig rest (S k))
      end
  | Install sig rest k => (Sigs (table st) (set_action (handled st) sig true) (is_set st), StoreEx sig rest k)
  | StoreEx sig rest k => (Sigs (set_slot k (Slot (default_name sig) (s_sig (slot_at (table st) k))) (table st)) (handled st) (is_set st), StoreSig sig rest k)
  | StoreSig sig rest k => (Sigs (set_slot k (Slot (s_ex (slot_at (table st) k)) sig) (table st)) (handled st) (is_set st), StoreSet rest)
  | StoreSet rest => (Sigs (table st) (handled st) true, next_signal rest)
  | InBlock d => (st, InBlock d)
  end.
(** The shared variables and the threads. *)
Record setup_state := Setup { shared : sigs; places : nat -> tplace }.
(** Thread [i] takes a step. *)
Definition thread_step (s : setup_state) (i : nat) : setup_state :=
  let '(st, p) := setup_step (shared s) (places s i) in Setup st (fun j => if Nat.eqb j i then p else places s j).
(** A schedule: the threads that take the steps, in order (no counterpart in the source). *)
Definition schedule (l : list nat) (s : setup_state) : setup_state := fold_left thread_step l s.
(** All threads before their first block. *)
Definition all_before (st : sigs) : setup_state := Setup st (fun _ => Before).
