(** What is printed when an exception ends the program: ex_unwind_stack with the flag got_uncaught_exception (src/except.c 62, 106-134), ex_throw (379-415), ex_uncaught_exception
    (350-352) and ex_terminate (354-362).

    Simplified: one thread; release functions may change the variable they are called for, and may throw out of themselves, but contain no exceptions of their own that they handle;
    raii_destroy in ex_terminate throws nothing; no signals. *)
From Verif Require Export Base.
Import ListNotations.

(** A protected pointer as ex_unwind_stack finds it, src/except.c 116-128: whether its type is ex_protected_st, the value of the variable before and after the release function,
    and whether that function throws. *)
Record prot := Prot { p_type : bool; p_value : Z; p_after : Z; p_throws : bool }.
(** The loop, src/except.c 117-128: the flag, the values released, whether a release function threw. *)
Fixpoint unwind_loop (temp : Z) (flag : bool) (l : list prot) : bool * list Z * bool :=
  match l with
  | [] => (flag, [], false)
  | p :: l =>
      if negb (p_type p) then (flag, [], false)
      else if temp =? p_value p then (true, [], false)                              (* 118-119 *)
      else if p_value p =? 0 then unwind_loop 0 false l
      else if p_throws p then (false, [p_value p], true)                            (* 123 *)
      else let '(f, r, t) := unwind_loop (p_after p) false l in (f, p_value p :: r, t)
  end.
(** What an exception unwinds: the deferred functions of a scope (src/except.c 112-115), one of which may throw, or the protected pointers of the current context (116-129). *)
Inductive unwinding := Deferred (throws : bool) | Pointers (l : list prot).
(** ex_unwind_stack, src/except.c 106-134. *)
Definition ex_unwind_stack (flag : bool) (u : unwinding) : bool * list Z * bool :=
  match u with Deferred t => (flag, [], t) | Pointers l => unwind_loop 0 flag l end.
(** The two messages of ex_terminate, src/except.c 358-361. *)
Inductive message := DuringUnwinding | Uncaught.
(** ex_terminate, src/except.c 354-362; [unstack] is what ex_uncaught_exception (350-352) returns. *)
Definition ex_terminate (unstack flag : bool) : message := if unstack || flag then DuringUnwinding else Uncaught.
(** A throw (src/except.c 379-415) with what it unwinds and whether a block takes it. *)
Record throwing := Throwing { t_unwinds : unwinding; t_caught : bool }.
(** The exceptions of a program in order: the flag and the values released, and the message if one of them ends the program. *)
Fixpoint program (flag : bool) (l : list throwing) : bool * list Z * option message :=
  match l with
  | [] => (flag, [], None)
  | t :: l =>
      let '(f, r, threw) := ex_unwind_stack flag (t_unwinds t) in
      if threw then (f, r, Some (ex_terminate true f))                               (* 382-383 *)
      else if t_caught t then let '(f2, r2, m) := program f l in (f2, r ++ r2, m)
      else (f, r, Some (ex_terminate false f))                                       (* 404-409 *)
  end.
