(** Signals turned into exceptions (src/except.c 76-87, 520-732, include/exception.h
    297-313) and the tests for a pending exception (src/raii.c 483-504).

    Not modelled: delivery itself, signal masks (ex_throw leaves through
    siglongjmp, which restores the mask saved on entry), the Windows variants. *)
From Verif Require Export Base StrModel.

(** One slot of ex_sig, except.c 81-87; [s_ex] is 0 for NULL, otherwise the name. *)
Record slot := Slot { s_ex : Z; s_sig : Z }.
(** The table, the signals whose action is ex_handler, and exception_signal_set (except.c 70). *)
Record sigs := Sigs { table : list slot; handled : Z -> bool; is_set : bool }.
(** Program start: zeroed table, default actions. *)
Definition sig_start : sigs := Sigs (repeat (Slot 0 0) 32) (fun _ => false) false.

(** Array store (no counterpart in the source). *)
Fixpoint set_slot (i : nat) (x : slot) (t : list slot) : list slot :=
  match t, i with
  | [], _ => []
  | _ :: t', O => x :: t'
  | y :: t', S i' => y :: set_slot i' x t'
  end.
(** The search loop of ex_signal, except.c 570-573: the index it stops at. *)
Fixpoint free_or_same (sig : Z) (t : list slot) : nat :=
  match t with
  | [] => O
  | s :: t' => if (s_ex s =? 0) || (s_sig s =? sig) then O else S (free_or_same sig t')
  end.
(** The search loop of ex_handler, except.c 538-544: the name found, 0 for NULL. *)
Fixpoint name_of (sig : Z) (t : list slot) : Z :=
  match t with
  | [] => 0
  | s :: t' => if s_sig s =? sig then s_ex s else name_of sig t'
  end.
(** sigaction: installs or removes the handler, except.c 549-606 (POSIX). *)
Definition set_action (f : Z -> bool) (sig : Z) (b : bool) : Z -> bool := fun x => if x =? sig then b else f x.

(** ex_signal, except.c 567-606 (POSIX); [can sig]: sigaction accepts the signal. *)
Definition ex_signal (can : Z -> bool) (sig ex : Z) (st : sigs) : sigs :=
  let i := free_or_same sig (table st) in
  if (i =? length (table st))%nat then st                                       (* 575-581 *)
  else if can sig then Sigs (set_slot i (Slot ex sig) (table st)) (set_action (handled st) sig true) true
  else Sigs (table st) (handled st) true.

(** ex_signal_reset, except.c 549-565 (POSIX). *)
Definition ex_signal_reset (can : Z -> bool) (sig : Z) (st : sigs) : sigs :=
  Sigs (table st) (if can sig then set_action (handled st) sig false else handled st) false.

(** The signals of ex_signal_setup in order, except.c 621-674, with their Linux numbers. The
    exception sig_xxx is named 1000 + number here; 0 is NULL. *)
Definition default_set : list Z := [11; 6; 8; 4; 2; 15; 3; 1; 28; 5; 14; 7].
(** The name EX_NAME(sig_xxx), except.c 621-674. *)
Definition default_name (sig : Z) : Z := 1000 + sig.
(** ex_signal_setup, except.c 608-675. *)
Definition ex_signal_setup (can : Z -> bool) (st : sigs) : sigs :=
  fold_left (fun st sig => ex_signal can sig (default_name sig) st) default_set st.
(** ex_signal_default, except.c 677-732. *)
Definition ex_signal_default (can : Z -> bool) (st : sigs) : sigs :=
  fold_left (fun st sig => ex_signal_reset can sig st) default_set st.
(** The start of ex_try (exception.h 297-300) and of guard (raii.h 531-534). *)
Definition enter_block (can : Z -> bool) (st : sigs) : sigs := if is_set st then st else ex_signal_setup can st.

(** Raising a signal: the exception ex_handler throws (except.c 520-547), None for the default action. *)
Definition raised (sig : Z) (st : sigs) : option Z :=
  if handled st sig then Some (name_of sig (table st)) else None.

(** Histories. *)
Inductive sop := Register (sig ex : Z) | Reset (sig : Z) | ResetAll | Enter.
(** Calls of except.c 549-732 in sequence (the caller, no counterpart in the source). *)
Definition sig_step (can : Z -> bool) (o : sop) (st : sigs) : sigs :=
  match o with
  | Register sig ex => ex_signal can sig ex st
  | Reset sig => ex_signal_reset can sig st
  | ResetAll => ex_signal_default can st
  | Enter => enter_block can st
  end.
(** Calls of except.c 549-732 in sequence (the caller, no counterpart in the source). *)
Definition sig_run (can : Z -> bool) (l : list sop) (st : sigs) : sigs := fold_left (fun st o => sig_step can o st) l st.

(** ** pending exceptions *)

(** is_str_eq with NULL arguments, raii.c 742-744. *)
Definition eq_or_null (S : sem) (err : list Z) (e : option (list Z)) : out bool :=
  match e with None => Ok false | Some b => is_str_eq S err b end.
(** raii.c 485 and 499: the panic message if there is one, else the exception name. *)
Definition pending (panic err : option (list Z)) : option (list Z) := match panic with Some _ => panic | None => err end.
(** raii_caught, raii.c 483-496, and raii_is_caught, 498-504: the result.  The blocks
    hold the zero-terminated strings; [ex] is ex_local()->ex. *)
Definition raii_caught (S : sem) (name : list Z) (panic err ex : option (list Z)) : out bool :=
  match pending panic err with
  | None => let* b := eq_or_null S name ex in if b then Ok true else eq_or_null S name None
  | e => eq_or_null S name e
  end.
(** raii_is_caught, raii.c 498-504. *)
Definition raii_is_caught (S : sem) (name : list Z) (panic err : option (list Z)) : out bool :=
  eq_or_null S name (pending panic err).
