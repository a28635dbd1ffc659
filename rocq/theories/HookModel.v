(** The two process-wide hooks of guards under several threads, access by access.

    [ExcModel.hook_step] treats entering and leaving a guard as one step each.  Here every load and store of
    exception_setup_func and exception_unwind_func (except.c 66-67, plain globals) is a step of its own, in program order;
    threads interleave freely.  Simplified: sequential consistency; what happens inside a guard is left out. *)
From Verif Require Export ExcModel.

(** The locals sf##__FUNCTION__ and uf##__FUNCTION__ of an open guard, raii.h 536-537 ([true]: the hooks of a guard), and how far
    the guard has come: 0 the setup hook is saved, 1 both are saved, 2 the unwind hook is set, 3 entered, 4 the setup hook is put back. *)
Record gframe := GFrame { g_set : bool; g_unw : bool; g_at : nat }.
(** The globals, except.c 66-67, and each thread's open guards, innermost first. *)
Record gstate := GState { x_set : bool; x_unw : bool; x_open : Z -> list gframe }.
(** Begin: raii.h 536, the first access of a guard; Next: the next access of a guard being entered or left;
    Finish: raii.c 537, the first store of guard_reset. *)
Inductive gop := Begin | Next | Finish.
(** raii.h 536-539 and guard_reset, raii.c 537-538.  [None]: the step is not the thread's next one. *)
Definition gstep (t : Z) (o : gop) (s : gstate) : option gstate :=
  match o, x_open s t with
  | Begin, [] => Some (GState (x_set s) (x_unw s) (upd (x_open s) t [GFrame (x_set s) false 0]))
  | Begin, f :: r =>
      if Nat.eqb (g_at f) 3 then Some (GState (x_set s) (x_unw s) (upd (x_open s) t (GFrame (x_set s) false 0 :: f :: r))) else None
  | Next, f :: r =>
      match g_at f with
      | 0%nat => Some (GState (x_set s) (x_unw s) (upd (x_open s) t (GFrame (g_set f) (x_unw s) 1 :: r)))
      | 1%nat => Some (GState (x_set s) true (upd (x_open s) t (GFrame (g_set f) (g_unw f) 2 :: r)))
      | 2%nat => Some (GState true (x_unw s) (upd (x_open s) t (GFrame (g_set f) (g_unw f) 3 :: r)))
      | 4%nat => Some (GState (x_set s) (g_unw f) (upd (x_open s) t r))
      | _ => None
      end
  | Finish, f :: r =>
      if Nat.eqb (g_at f) 3 then Some (GState (g_set f) (x_unw s) (upd (x_open s) t (GFrame (g_set f) (g_unw f) 4 :: r))) else None
  | Next, [] | Finish, [] => None
  end.
(** Any interleaving (no single place in the code). *)
Fixpoint grun (l : list (Z * gop)) (s : gstate) : option gstate :=
  match l with
  | [] => Some s
  | (t, o) :: l => match gstep t o s with None => None | Some s => grun l s end
  end.
(** Before the first guard, except.c 66-67. *)
Definition gstart : gstate := GState false false (fun _ => []).
