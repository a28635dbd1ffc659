(** The value a guard returns: _return(value), include/raii.h 518-524, and unguarded(result), 549-560: the expression stands after the release of the guard's
    scope, so it is evaluated after it.

    Memory is a set of blocks of one word; an address is a number, 0 is NULL.  What a guard's deferred functions do is a list of effects, in the order in which they run: RAII_FREE of a block
    obtained by _malloc, or a store by a function of the program. *)
From Verif Require Export Base.

(** What an expression after the guard, raii.h 524, 559, can read: local variables and blocks; [None]: not allocated, or released. *)
Record rst := Rst { locals : Z -> Z; heap : Z -> option Z }.
(** The expression given to _return or unguarded, raii.h 518, 549. *)
Inductive expr := Const (z : Z) | Local (x : Z) | Deref (e : expr) | Add (a b : expr).
(** Its value (C11 6.5), raii.h 524, 559: reading a released or unallocated block is undefined. *)
Fixpoint eval (e : expr) (st : rst) : out Z :=
  match e with
  | Const z => Ok z
  | Local x => Ok (locals st x)
  | Deref e => let* a := eval e st in match heap st a with Some v => Ok v | None => Undef UseAfterFree end
  | Add a b => let* x := eval a st in let* y := eval b st in Ok (x + y)
  end.
(** What one deferred function does: free of memory obtained in the guard, raii.c 216-233; a function of the program assigns to a variable through its address, or stores to a block (_defer, include/raii.h 496). *)
Inductive effect := Free (a : Z) | Assign (x v : Z) | Store (a v : Z).
(** One deferred function runs, raii.c 403-412. *)
Definition apply (f : effect) (st : rst) : out rst :=
  match f with
  | Free a => match heap st a with Some _ => Ok (Rst (locals st) (fun b => if b =? a then None else heap st b)) | None => Undef DoubleFree end
  | Assign x v => Ok (Rst (fun y => if y =? x then v else locals st y) (heap st))
  | Store a v => match heap st a with Some _ => Ok (Rst (locals st) (fun b => if b =? a then Some v else heap st b)) | None => Undef UseAfterFree end
  end.
(** raii_delete or raii_deferred_free of the guard's scope, raii.c 276-292, 436-443. *)
Fixpoint release (l : list effect) (st : rst) : out rst := match l with [] => Ok st | f :: l => let* st := apply f st in release l st end.
(** _return(e), raii.h 518-524, and break or the end of the block followed by unguarded(e), 549-560. *)
Definition return_value (l : list effect) (e : expr) (st : rst) : out Z := let* st := release l st in eval e st.
