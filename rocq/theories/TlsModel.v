(** Thread-local variables, include/cthread.h 421-554: the native form (499-548) and the emulated one over tss_create/tss_get/tss_set
    (422-497: TinyC, USE_EMULATED_TLS, C90 compilers other than GCC and Clang); ex_throw in the emulated build, src/except.c 404-405.

    Variables and threads are numbered.  Sequentially consistent, one shared access per step.  Simplified: tss_create and malloc
    succeed; the object of a variable is one cell; atexit registrations are in ExitModel.v. *)
From Verif Require Export Base ExcModel.

(** Update of a table (no counterpart in the source). *)
Definition updn {A} (f : nat -> A) (k : nat) (v : A) : nat -> A := fun x => if (x =? k)%nat then v else f x.

(** What a thread does with variable [v]: [Rd]: reads *v(); [Wr]: *v() = x; [Emp]: is_v_empty(), which is also the test of ex_local() or
    raii_local() in ex_init (except.c 333) and raii_init (raii.c 105); [Del]: v_del(); [Upd]: v_update(&o) or ex_update(&o) for a
    local object [o] of the thread, whose contents are [x]. *)
Inductive top := Rd (v : nat) | Wr (v : nat) (x : Z) | Emp (v : nat) | Del (v : nat) | Upd (v : nat) (x : Z).
(** What an operation yields: a value ([None]: indeterminate), a truth value, nothing. *)
Inductive tres := RVal (x : option Z) | RBool (b : bool) | RUnit.

(** ** Native, cthread.h 499-540 *)
(** thrd_v_tls: NULL, the buffer, or a local object with its contents; thrd_v_buffer. *)
Inductive nptr := NNull | NBuf | NObj (x : Z).
(** thrd_v_tls and thrd_v_buffer, cthread.h 500-502. *)
Record nvar := NVar { n_tls : nptr; n_buf : Z }.
Definition nstate := nat -> nat -> nvar.     (* thread, variable *)
(** A thread_local object starts as zero. *)
Definition nstart : nstate := fun _ _ => NVar NNull 0.
(** thrd_local_get, 500-507. *)
Definition nget (x : nvar) : nvar := match n_tls x with NNull => NVar NBuf (n_buf x) | _ => x end.
(** One operation of one thread on its own copy; 509-519. *)
Definition nop (o : top) (f : nat -> nvar) : tres * (nat -> nvar) :=
  match o with
  | Rd v => let x := nget (f v) in (RVal (Some (match n_tls x with NObj y => y | _ => n_buf x end)), updn f v x)
  | Wr v y => let x := nget (f v) in (RUnit, updn f v (match n_tls x with NObj _ => NVar (NObj y) (n_buf x) | p => NVar p y end))
  | Emp v => (RBool (match n_tls (f v) with NNull => true | _ => false end), f)
  | Del v => (RUnit, updn f v (NVar NNull (n_buf (f v))))
  | Upd v y => (RUnit, updn f v (NVar (NObj y) (n_buf (f v))))
  end.
(** The operations of all threads in the order in which they happen, with what each yields. *)
Fixpoint nrun (l : list (nat * top)) (s : nstate) : list (nat * tres) :=
  match l with
  | [] => []
  | (t, o) :: l => let '(r, f) := nop o (s t) in (t, r) :: nrun l (updn s t f)
  end.
(** thrd_local_plain and thrd_static_plain, 527-540: the variable itself has type [type] (an integer here, of [bits] bits), and the
    address of its buffer is stored in it whenever it equals [initial]. *)
Definition plain_get (bits initial addr tls : Z) : Z := if tls =? initial then addr mod 2 ^ bits else tls.

(** ** Emulated, cthread.h 423-482 *)
(** Where thread [t] is in v(): 426 test of thrd_v_tls; 427 store; 428 tss_create; 433 tss_get; 435 malloc; 438 tss_set; the caller's access. *)
Inductive epc := P0 | P1 | P2 | P3 | P4 | P5 (p : Z) | P6 (p : Z).
(** A thread: its remaining operations, where it is in the first of them, the results so far. *)
Record ethread := ET { todo : list top; pc : epc; elog : list tres }.
(** A malloc'd object: the thread and the variable it was allocated for (bookkeeping only), its contents, not initialised by malloc. *)
Record eobj := EObj { o_thread : nat; o_var : nat; o_val : option Z; o_live : bool }.
(** thrd_v_tls <> 0; thrd_v_tss; the keys created are those below [nkeys] for which [kdel] is false; slots; objects: addresses are positive, 0 is NULL,
    local objects have negative addresses. *)
Record emu := Emu { eflag : nat -> bool; ekey : nat -> Z; nkeys : Z; kdel : Z -> bool; slots : Z -> nat -> Z; heap : Z -> option eobj; hnext : Z; ethreads : nat -> ethread }.
(** tss_get: with a key that was never created, undefined ([L] = false), or NULL as in glibc ([L] = true). *)
Definition valid_key (k : Z) (s : emu) : bool := (0 <=? k) && (k <? nkeys s) && negb (kdel s k).
(** tss_get, cthread.h 433. *)
Definition tss_get (L : bool) (k : Z) (t : nat) (s : emu) : out Z :=
  if valid_key k s then Ok (slots s k t) else if L then Ok 0 else Undef WildPointer.
(** Field update of the state (no counterpart in the source). *)
Definition set_slot (k : Z) (t : nat) (p : Z) (s : emu) : emu :=
  Emu (eflag s) (ekey s) (nkeys s) (kdel s) (upd (slots s) k (updn (slots s k) t p)) (heap s) (hnext s) (ethreads s).
(** Field update of the state (no counterpart in the source). *)
Definition set_thread (t : nat) (x : ethread) (s : emu) : emu :=
  Emu (eflag s) (ekey s) (nkeys s) (kdel s) (slots s) (heap s) (hnext s) (updn (ethreads s) t x).
(** Field update of the state (no counterpart in the source). *)
Definition set_obj (p : Z) (o : eobj) (s : emu) : emu :=
  Emu (eflag s) (ekey s) (nkeys s) (kdel s) (slots s) (upd (heap s) p (Some o)) (hnext s) (ethreads s).
(** Field update of the state (no counterpart in the source). *)
Definition set_flag (v : nat) (b : bool) (s : emu) : emu :=
  Emu (updn (eflag s) v b) (ekey s) (nkeys s) (kdel s) (slots s) (heap s) (hnext s) (ethreads s).
(** tss_create: the next key, all of whose slots are NULL. *)
Definition new_key (v : nat) (s : emu) : emu :=
  Emu (eflag s) (updn (ekey s) v (nkeys s)) (nkeys s + 1) (kdel s) (upd (slots s) (nkeys s) (fun _ => 0)) (heap s) (hnext s) (ethreads s).
(** malloc: its contents are indeterminate. *)
Definition new_obj (t v : nat) (s : emu) : emu :=
  Emu (eflag s) (ekey s) (nkeys s) (kdel s) (slots s) (upd (heap s) (hnext s) (Some (EObj t v None true))) (hnext s + 1) (ethreads s).
(** A local object of the thread. *)
Definition new_local (t v : nat) (x : Z) (s : emu) : emu :=
  Emu (eflag s) (ekey s) (nkeys s) (kdel s) (slots s) (upd (heap s) (- hnext s) (Some (EObj t v (Some x) true))) (hnext s + 1) (ethreads s).
(** tss_delete, and the key variable becomes -1; 451-452. *)
Definition del_key (v : nat) (s : emu) : emu :=
  Emu (eflag s) (updn (ekey s) v (-1)) (nkeys s) (upd (kdel s) (ekey s v) true) (slots s) (heap s) (hnext s) (ethreads s).
(** free. *)
Definition efree (p : Z) (s : emu) : out emu :=
  if p =? 0 then Ok s
  else if p <? 0 then Undef WildPointer
  else match heap s p with
       | None => Undef WildPointer
       | Some o => if o_live o then Ok (set_obj p (EObj (o_thread o) (o_var o) (o_val o) false) s) else Undef DoubleFree
       end.
(** The caller's access through the pointer. *)
Definition eaccess (o : top) (p : Z) (s : emu) : out (tres * emu) :=
  match heap s p with
  | None => Undef WildPointer
  | Some x =>
      if negb (o_live x) then Undef UseAfterFree
      else match o with
           | Wr _ y => Ok (RUnit, set_obj p (EObj (o_thread x) (o_var x) (Some y) true) s)
           | _ => Ok (RVal (o_val x), s)
           end
  end.
(** One step of thread [t]; a thread that has finished stays as it is. *)
Definition estep (L : bool) (t : nat) (s : emu) : out emu :=
  let th := ethreads s t in
  match todo th with
  | [] => Ok s
  | o :: rest =>
      let go q s := set_thread t (ET (o :: rest) q (elog th)) s in
      let fin r s := set_thread t (ET rest P0 (elog th ++ [r])) s in
      match o with
      | Emp v => let* p := tss_get L (ekey s v) t s in Ok (fin (RBool (p =? 0)) s)                     (* 463-465 *)
      | Del v =>                                                                                       (* 446-454, one step *)
          if eflag s v then
            let s := set_flag v false s in
            let* p := tss_get L (ekey s v) t s in
            let* s := efree p s in
            Ok (fin RUnit (del_key v s))
          else Ok (fin RUnit s)
      | Upd v x =>                                                                                     (* except.c 324 *)
          if valid_key (ekey s v) s then Ok (fin RUnit (set_slot (ekey s v) t (- hnext s) (new_local t v x s))) else if L then Panics else Undef WildPointer
      | Rd v | Wr v _ =>
          match pc th with
          | P0 => Ok (go (if eflag s v then P3 else P1) s)
          | P1 => Ok (go P2 (set_flag v true s))
          | P2 => Ok (go P3 (new_key v s))
          | P3 => let* p := tss_get L (ekey s v) t s in Ok (go (if p =? 0 then P4 else P6 p) s)
          | P4 => Ok (go (P5 (hnext s)) (new_obj t v s))
          | P5 p => if valid_key (ekey s v) s then Ok (go (P6 p) (set_slot (ekey s v) t p s))
                    else if L then Undef NullDeref else Undef WildPointer
          | P6 p => let* r := eaccess o p s in let '(r, s) := r in Ok (fin r s)
          end
      end
  end.
(** Any interleaving of the threads' steps (no single place in the code). *)
Fixpoint erun (L : bool) (ts : list nat) (s : emu) : out emu :=
  match ts with [] => Ok s | t :: ts => let* s := estep L t s in erun L ts s end.
(** The program starts: no variable has been used; [k0] keys exist already; thread [t] will do [prog t]. *)
Definition estart (k0 : Z) (prog : nat -> list top) : emu :=
  Emu (fun _ => false) (fun _ => 0) k0 (fun _ => false) (fun _ _ => 0) (fun _ => None) 1 (fun t => ET (prog t) P0 []).

(** ** ex_throw in the emulated build, except.c 379-415 with 404-405 *)
Fixpoint ex_throw_emulated (fuel : nat) (ex pm : Z) (st : est) : out (res * est) :=
  match fuel with
  | O => NoFuel
  | S f =>
      let id := cur st in
      if c_unstack (ctxs st id) then terminate st
      else
        let* st := setup id ex pm (with_ctx id (c_thrown ex pm) st) in
        andthen (unwind fuel (ex_throw_emulated f) id st) (fun st =>
          if id =? cur st then terminate st else Ok (RJump id (Z.lor (c_state (ctxs st id)) 1), st))
  end.
