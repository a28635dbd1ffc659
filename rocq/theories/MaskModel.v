(** Signal masks: ex_try saves the mask (sigsetjmp with 1, include/exception.h 178-180, 310), ex_throw blocks every signal while it releases and
    then puts the mask back (exception.h 284-290, src/except.c 385, 401-402) and leaves through siglongjmp, which installs the saved
    mask (415); ex_handler turns a delivered signal into a throw (520-547).

    One thread of a Linux process, exception_signal_set already true, every signal used has ex_handler installed by ex_signal (586-600: sa_mask empty, no SA_NODEFER).  A
    program is built from try blocks; loops are bounded by a number given in the program (any number).  A handler that throws, and a try
    whose handler does not match, pass through the same sigsetjmp and then throw in the block outside (exception.h 340-348; ExcModel).  Simplified: what is
    released is a list fixed for each try; contexts themselves are not modelled (ExcModel). *)
From Verif Require Export Base.

(** A mask is a sigset_t: bit [s - 1] set when signal [s] is blocked. *)
Definition blocked (m s : Z) : bool := Z.testbit m (s - 1).
(** The bit of a signal (sigaddset). *)
Definition bit (s : Z) : Z := Z.shiftl 1 (s - 1).
(** sigfillset as the kernel applies it: not SIGKILL (9) and SIGSTOP (19). *)
Definition full : Z := Z.ldiff (Z.ones 64) (Z.lor (bit 9) (bit 19)).

(** What a release function does: runs through; faults (the signal is raised by an instruction); sends the thread a signal. *)
Inductive release := ROk (id : Z) | RFault (s : Z) | RSend (s : Z).
(** Programs.  [PMask m]: pthread_sigmask(SIG_SETMASK); [PFault s]: an instruction raises [s]; [PSend s]: [s] is sent to the thread;
    [PTry body rel matches handler]: ex_try with [rel] to be released, and a handler for the exceptions with [matches]. *)
Inductive prog :=
| PNop | PMask (m : Z) | PThrow (e : Z) | PFault (s : Z) | PSend (s : Z) | PSeq (p q : prog) | PRepeat (n : nat) (p : prog)
| PTry (body : prog) (rel : list release) (matches : Z -> bool) (handler : Z -> prog).
(** What is recorded: the [n]-th try entered, with the mask; a release function, with the mask; the handler of the [n]-th try, with the mask and the exception. *)
Inductive mev := EvTry (n : nat) (m : Z) | EvRelease (m : Z) | EvHandler (n : nat) (m e : Z).
(** [pend]: signals pending, in the order they will be delivered; [tries]: try blocks entered so far. *)
Record mst := Mst { mask : Z; pend : list Z; tries : nat; evs : list mev }.
(** The program part ends; an exception leaves it, the mask being the one in force in ex_throw; the kernel kills the process. *)
Inductive mout := Fin (st : mst) | Exc (e : Z) (st : mst) | Killed (st : mst).
(** Field updates (no counterpart in the source). *)
Definition set_mask (m : Z) (st : mst) := Mst m (pend st) (tries st) (evs st).
(** Records an event (bookkeeping). *)
Definition record (e : mev) (st : mst) := Mst (mask st) (pend st) (tries st) (evs st ++ [e]).
(** The exception of a signal: EX_NAME(sig_xxx), except.c 621-674, named 1000 + number as in SignalModel. *)
Definition sig_ex (s : Z) : Z := 1000 + s.
(** A signal becomes pending (kernel): once. *)
Definition send (s : Z) (st : mst) := Mst (mask st) (if existsb (Z.eqb s) (pend st) then pend st else pend st ++ [s]) (tries st) (evs st).

(** The pending signals [m] lets through, and the others. *)
Definition let_through (m : Z) (l : list Z) : list Z := filter (fun s => negb (blocked m s)) l.
(** The others. *)
Definition held (m : Z) (l : list Z) : list Z := filter (fun s => blocked m s) l.
(** Back in the program after a change of mask or a new signal: the first deliverable signal enters ex_handler, with itself blocked. *)
Definition resume (st : mst) : mout :=
  match let_through (mask st) (pend st) with
  | [] => Fin st
  | s :: _ => Exc (sig_ex s) (Mst (Z.lor (mask st) (bit s)) (filter (fun x => negb (x =? s)) (pend st)) (tries st) (evs st))
  end.
(** ex_unwind_stack with everything blocked (except.c 385-401); a fault in it kills. *)
Fixpoint release_all (l : list release) (st : mst) : mout :=
  match l with
  | [] => Fin st
  | r :: l =>
      let st := record (EvRelease (mask st)) st in
      match r with ROk _ => release_all l st | RFault _ => Killed st | RSend s => release_all l (send s st) end
  end.
(** ex_throw in the context of a try that saved [saved]: after the releases the mask of the thrower comes back (402) and each pending signal it
    lets through is delivered, throws in the same context and replaces the exception; the same when siglongjmp installs [saved] (415). *)
Definition arrive (saved : Z) (rel : list release) (e : Z) (st : mst) : mout :=
  let m := mask st in
  match release_all rel (set_mask full st) with
  | Fin st =>
      let now := let_through m (pend st) in
      let rest := held m (pend st) in
      let last_now := let_through saved rest in
      Exc (last (map sig_ex (now ++ last_now)) e) (Mst saved (held saved rest) (tries st) (evs st))
  | r => r
  end.
(** Running a program part. *)
Fixpoint run (p : prog) (st : mst) : mout :=
  match p with
  | PNop => Fin st
  | PMask m => resume (set_mask (Z.land m full) st)
  | PThrow e => Exc e st
  | PFault s => if blocked (mask st) s then Killed st else Exc (sig_ex s) (set_mask (Z.lor (mask st) (bit s)) st)
  | PSend s => resume (send s st)
  | PSeq p q => match run p st with Fin st => run q st | r => r end
  | PRepeat n p => (fix go n st := match n with O => Fin st | S n => match run p st with Fin st => go n st | r => r end end) n st
  | PTry body rel matches handler =>
      let n := tries st in
      let saved := mask st in
      match run body (Mst saved (pend st) (S n) (evs st ++ [EvTry n saved])) with
      | Exc e st =>
          match arrive saved rel e st with
          | Exc e st =>
              if matches e then
                match run (handler e) (record (EvHandler n (mask st) e) st) with
                | Exc e st => arrive saved [] e st
                | r => r
                end
              else Exc e st
          | r => r
          end
      | r => r
      end
  end.
(** The start of a thread with mask [m] (no counterpart in the source). *)
Definition begin (m : Z) : mst := Mst m [] 0 [].
