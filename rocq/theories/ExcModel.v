(** Exceptions, protected pointers and guards: include/exception.h 284-361 (POSIX macros), 378-450,
    src/except.c 89-134, 300-415, include/raii.h 487-575, src/raii.c 91-129, 220-231, 395-443, 449-481,
    483-504, 524-547.

    A program is a tree of the blocks the macros delimit.  Every ex_context_t, scope (unique_t) and
    protector (ex_ptr_t) has an identity and lives in the state; longjmp is the result [RJump id v] which
    travels outward to the block whose setjmp filled the buffer [id]; a jump no enclosing block owns is the
    outcome [Undef DeadJump].

    Simplified: one thread; names are numbers compared by identity, also in raii_is_caught and raii_caught, which
    really use is_str_eq (see C44); allocation succeeds; signals, backtraces, file and line are left out;
    exception_terminate_func and exception_ctrl_c_func are unset. A field the macros leave uninitialised takes
    a value from an arbitrary function [junk]. *)
From Verif Require Export Base.

(** What a program does that can be seen from outside. *)
Inductive event :=
| EAct (a : Z)                 (* an action of the program *)
| EDefer (a d : Z)             (* deferred function [a] called with data [d], 0 for NULL *)
| ECaught (n : Z)              (* a deferred function found that [n] is pending *)
| EFree (b : Z)                (* free *)
| ERelease (a v : Z).          (* release function [a] of a protected pointer called with [v] *)

(** A deferred function: what it does, the error it passes to _recover, the exception it throws. *)
Record dfun := DFun { d_act : Z; d_recover : option Z; d_throw : option Z }.
(** What the func field of a defer_func_t is (raii.h 155-160): a function of the program or free. *)
Inductive dkind := DUser (f : dfun) | DFree.
(** defer_func_t, raii.h 155-160; [e_check] is false for NULL. *)
Record entry := Entry { e_kind : dkind; e_data : Z; e_check : bool }.
(** struct ex_context_s, exception.h 379-417. *)
Record ctx := Ctx { c_next : Z; c_state : Z; c_ex : Z; c_panic : Z; c_unstack : bool; c_unwind : bool; c_raii : bool; c_stack : Z; c_data : Z; c_prev : Z }.
(** struct memory_s, raii.h 162-175; [s_arr]: defer.type is RAII_DEF_ARR; [s_defers]: newest first. *)
Record scope := Scope { s_arr : bool; s_defers : list entry; s_err : Z; s_panic : Z; s_prot : bool; s_rec : bool; s_protector : Z; s_live : bool }.
(** struct ex_ptr_s, exception.h 420-426; [n_ok]: type is ex_protected_st; [n_free]: the function is free (malloc_full),
    else the program's function [n_act]; [n_val]: the value *ptr. *)
Record node := Node { n_ok : bool; n_next : Z; n_free : bool; n_act : Z; n_val : Z; n_live : bool }.
(** [cur]: the thread's current context (never NULL here: ex_init has run); [hook_set], [hook_unwind]: exception_setup_func and
    exception_unwind_func are those of a guard, else NULL; [arena]: raii_local()->arena; [ready]: raii_local() is not NULL. *)
Record est := Est { cur : Z; ctxs : Z -> ctx; scopes : Z -> scope; nodes : Z -> node; fresh : Z; hook_set : bool; hook_unwind : bool; arena : Z; ready : bool; junk : Z -> Z; trace : list event }.

(** Identity of thrd_except_buffer and of the thread's own scope; 0 is NULL. *)
Definition root : Z := 1.
(** The exception name of raii_panic, exception.h 195-199. *)
Definition ex_panic : Z := 9000.
(** Update of a table (no counterpart in the source). *)
Definition upd {A} (f : Z -> A) (k : Z) (v : A) : Z -> A := fun x => if x =? k then v else f x.

(** Field updates (no counterpart in the source). *)
Definition set_cur (x : Z) (st : est) := Est x (ctxs st) (scopes st) (nodes st) (fresh st) (hook_set st) (hook_unwind st) (arena st) (ready st) (junk st) (trace st).
(** Field update of the state (no counterpart in the source). *)
Definition set_ctxs (x : Z -> ctx) (st : est) := Est (cur st) x (scopes st) (nodes st) (fresh st) (hook_set st) (hook_unwind st) (arena st) (ready st) (junk st) (trace st).
(** Field update of the state (no counterpart in the source). *)
Definition set_scopes (x : Z -> scope) (st : est) := Est (cur st) (ctxs st) x (nodes st) (fresh st) (hook_set st) (hook_unwind st) (arena st) (ready st) (junk st) (trace st).
(** Field update of the state (no counterpart in the source). *)
Definition set_nodes (x : Z -> node) (st : est) := Est (cur st) (ctxs st) (scopes st) x (fresh st) (hook_set st) (hook_unwind st) (arena st) (ready st) (junk st) (trace st).
(** Field update of the state (no counterpart in the source). *)
Definition set_fresh (x : Z) (st : est) := Est (cur st) (ctxs st) (scopes st) (nodes st) x (hook_set st) (hook_unwind st) (arena st) (ready st) (junk st) (trace st).
(** Field update of the state (no counterpart in the source). *)
Definition set_hooks (x y : bool) (st : est) := Est (cur st) (ctxs st) (scopes st) (nodes st) (fresh st) x y (arena st) (ready st) (junk st) (trace st).
(** Field update of the state (no counterpart in the source). *)
Definition set_arena (x : Z) (st : est) := Est (cur st) (ctxs st) (scopes st) (nodes st) (fresh st) (hook_set st) (hook_unwind st) x (ready st) (junk st) (trace st).
(** Field update of the state (no counterpart in the source). *)
Definition set_ready (st : est) := Est (cur st) (ctxs st) (scopes st) (nodes st) (fresh st) (hook_set st) (hook_unwind st) (arena st) true (junk st) (trace st).
(** Records an event (bookkeeping). *)
Definition emit (e : event) (st : est) := Est (cur st) (ctxs st) (scopes st) (nodes st) (fresh st) (hook_set st) (hook_unwind st) (arena st) (ready st) (junk st) (trace st ++ [e]).

(** A store to a context, exception.h 379-417. *)
Definition with_ctx (i : Z) (f : ctx -> ctx) (st : est) := set_ctxs (upd (ctxs st) i (f (ctxs st i))) st.
(** A store to a scope, raii.h 162-175. *)
Definition with_scope (i : Z) (f : scope -> scope) (st : est) := set_scopes (upd (scopes st) i (f (scopes st i))) st.
(** A store to a protector, exception.h 420-426. *)
Definition with_node (i : Z) (f : node -> node) (st : est) := set_nodes (upd (nodes st) i (f (nodes st i))) st.
(** Field update of struct ex_context_s, exception.h 379-417. *)
Definition c_set_state (v : Z) (c : ctx) := Ctx (c_next c) v (c_ex c) (c_panic c) (c_unstack c) (c_unwind c) (c_raii c) (c_stack c) (c_data c) (c_prev c).
(** Field update of struct ex_context_s, exception.h 379-417. *)
Definition c_set_unstack (b : bool) (c : ctx) := Ctx (c_next c) (c_state c) (c_ex c) (c_panic c) b (c_unwind c) (c_raii c) (c_stack c) (c_data c) (c_prev c).
(** Field update of struct ex_context_s, exception.h 379-417. *)
Definition c_set_unwind (b : bool) (c : ctx) := Ctx (c_next c) (c_state c) (c_ex c) (c_panic c) (c_unstack c) b (c_raii c) (c_stack c) (c_data c) (c_prev c).
(** Field update of struct ex_context_s, exception.h 379-417. *)
Definition c_set_stack (x : Z) (c : ctx) := Ctx (c_next c) (c_state c) (c_ex c) (c_panic c) (c_unstack c) (c_unwind c) (c_raii c) x (c_data c) (c_prev c).
(** ex_swap_set, ex_swap_reset, except.c 304-311. *)
Definition c_swap_set (d : Z) (c : ctx) := Ctx (c_next c) (c_state c) (c_ex c) (c_panic c) (c_unstack c) (c_unwind c) (c_raii c) (c_stack c) d (c_data c).
(** ex_swap_reset, except.c 309-311. *)
Definition c_swap_reset (c : ctx) := Ctx (c_next c) (c_state c) (c_ex c) (c_panic c) (c_unstack c) (c_unwind c) (c_raii c) (c_stack c) (c_prev c) (c_prev c).
(** raii.c 118-121: data, prev and is_raii of the current context. *)
Definition c_raii_init (c : ctx) := Ctx (c_next c) (c_state c) (c_ex c) (c_panic c) (c_unstack c) (c_unwind c) true (c_stack c) root root.
(** except.c 389-394. *)
Definition c_thrown (ex pm : Z) (c : ctx) := Ctx (c_next c) (c_state c) ex pm (c_unstack c) false (c_raii c) (c_stack c) (c_data c) (c_prev c).
(** Field update of struct memory_s, raii.h 162-175. *)
Definition s_set_err (ex pm : Z) (s : scope) := Scope (s_arr s) (s_defers s) ex pm (s_prot s) (s_rec s) (s_protector s) (s_live s).
(** Field update of struct memory_s, raii.h 162-175. *)
Definition s_set_rec (b : bool) (s : scope) := Scope (s_arr s) (s_defers s) (s_err s) (s_panic s) (s_prot s) b (s_protector s) (s_live s).
(** Field update of struct memory_s, raii.h 162-175. *)
Definition s_set_defers (l : list entry) (s : scope) := Scope (s_arr s) l (s_err s) (s_panic s) (s_prot s) (s_rec s) (s_protector s) (s_live s).
(** Field update of struct memory_s, raii.h 162-175. *)
Definition s_set_prot (b : bool) (s : scope) := Scope (s_arr s) (s_defers s) (s_err s) (s_panic s) b (s_rec s) (s_protector s) (s_live s).
(** Field update of struct memory_s, raii.h 162-175. *)
Definition s_set_protector (p : Z) (s : scope) := Scope (s_arr s) (s_defers s) (s_err s) (s_panic s) (s_prot s) (s_rec s) p (s_live s).
(** raii_array_reset, raii.c 16-26: the array becomes empty and its type is wiped. *)
Definition s_reset (s : scope) := Scope false [] (s_err s) (s_panic s) (s_prot s) (s_rec s) (s_protector s) (s_live s).
(** The scope's memory is released: guard_delete, raii.c 541-547. *)
Definition s_dead (s : scope) := Scope (s_arr s) (s_defers s) (s_err s) (s_panic s) (s_prot s) (s_rec s) (s_protector s) false.
(** type = -1, ex_unprotected_ptr (except.c 99-104) and except.c 122. *)
Definition n_off (n : node) := Node false (n_next n) (n_free n) (n_act n) (n_val n) (n_live n).
(** The protector is freed, raii.c 426. *)
Definition n_dead (n : node) := Node (n_ok n) (n_next n) (n_free n) (n_act n) (n_val n) false.
(** *protector->ptr = NULL, raii.c 418. *)
Definition n_clear (n : node) := Node (n_ok n) (n_next n) (n_free n) (n_act n) 0 (n_live n).
(** defer->data = NULL after the call, raii.c 411. *)
Definition e_done (e : entry) := Entry (e_kind e) 0 (e_check e).

(** How a statement ends: falls through, longjmp to the buffer of a context, exit with the error printed by ex_print. *)
Inductive res := RNorm | RJump (id v : Z) | RExit (ex pm : Z).
(** Sequencing: what follows a statement that falls through (no counterpart in the source). *)
Definition andthen (m : out (res * est)) (k : est -> out (res * est)) : out (res * est) :=
  match m with Ok (RNorm, st) => k st | _ => m end.

(** raii_init, raii.c 103-129. *)
Definition raii_init (st : est) : est :=
  if ready st then st
  else with_ctx (cur st) c_raii_init (set_ready (with_scope root (fun _ => Scope true [] 0 0 false false 0 true) st)).

(** The error pending on a scope, raii.c 485 and 499. *)
Definition s_pending (s : scope) : Z := if s_panic s =? 0 then s_err s else s_panic s.
(** raii_is_caught, raii.c 498-504. *)
Definition is_caught (sc n : Z) (st : est) : bool * est :=
  let b := negb (s_pending (scopes st sc) =? 0) && (s_pending (scopes st sc) =? n) in
  let st := with_scope sc (s_set_rec b) st in
  (b, if b then with_ctx (cur st) (c_set_state 2) st else st).

(** Calling the function of a protector with *ptr. For malloc_full the value is the first word of the block, which is no block. *)
Definition release (n : node) (st : est) : out est :=
  if n_free n then (if n_val n =? 0 then Ok (emit (EFree 0) st) else Undef WildPointer)
  else Ok (emit (ERelease (n_act n) (n_val n)) st).

(** One deferred function; [thr] is ex_throw. *)
Definition run_entry (thr : Z -> Z -> est -> out (res * est)) (e : entry) (st : est) : out (res * est) :=
  match e_kind e with
  | DFree => Ok (RNorm, emit (EFree (e_data e)) st)
  | DUser f =>
      let st := emit (EDefer (d_act f) (e_data e)) st in
      let* st :=
        match d_recover f with
        | None => Ok st
        | Some n => if arena st =? 0 then Undef NullDeref
                    else Ok (let '(b, st) := is_caught (arena st) n st in if b then emit (ECaught n) st else st)
        end in
      match d_throw f with None => Ok (RNorm, st) | Some x => thr x 0 st end
  end.
(** The loop of raii_deferred_run, raii.c 403-412. *)
Fixpoint run_entries (thr : Z -> Z -> est -> out (res * est)) (sc : Z) (ran todo : list entry) (st : est) : out (res * est) :=
  match todo with
  | [] => Ok (RNorm, st)
  | e :: rest =>
      let st := if negb (s_err (scopes st sc) =? 0) && e_check e then with_scope sc (s_set_rec false) st else st in
      andthen (run_entry thr e st) (fun st =>
        run_entries thr sc (ran ++ [e_done e]) rest (with_scope sc (s_set_defers (ran ++ e_done e :: rest)) st))
  end.
(** ex_unprotected_ptr, except.c 99-104, then free of the protector, raii.c 423-427. *)
Definition drop_protector (sc : Z) (st : est) : est :=
  let p := s_protector (scopes st sc) in
  if p =? 0 then st
  else
    let st := if n_ok (nodes st p) then with_ctx (cur st) (c_set_stack (n_next (nodes st p))) (with_node p n_off st) else st in
    with_scope sc (s_set_protector 0) (with_node p n_dead st).
(** raii.c 414-420. *)
Definition settle_protector (sc : Z) (ran : bool) (st : est) : out est :=
  let s := scopes st sc in
  if s_prot s && negb (s_protector s =? 0) && negb (s_err s =? 0) then
    let st := with_scope sc (s_set_prot false) st in
    if ran then Ok st else let* st := release (nodes st (s_protector s)) st in Ok (with_node (s_protector s) n_clear st)
  else Ok st.
(** raii_deferred_free with raii_deferred_run, raii.c 395-428 and 436-443. *)
Definition deferred_free (thr : Z -> Z -> est -> out (res * est)) (sc : Z) (st : est) : out (res * est) :=
  if negb (s_live (scopes st sc)) then Undef UseAfterFree
  else if negb (s_arr (scopes st sc)) then Ok (RNorm, st)
  else
    let l := s_defers (scopes st sc) in
    andthen (run_entries thr sc [] l (with_scope sc (s_set_rec (s_err (scopes st sc) =? 0)) st)) (fun st =>
      let* st := settle_protector sc (match l with [] => false | _ => true end) st in
      Ok (RNorm, with_scope sc s_reset (drop_protector sc st))).

(** ex_terminate, except.c 354-377, with raii_destroy; the thread's scope only holds blocks of malloc_full here. *)
Definition free_root (st : est) : est :=
  if ready st && s_arr (scopes st root) then
    with_scope root s_reset (fold_left (fun st e => emit (EFree (e_data e)) st) (s_defers (scopes st root)) st)
  else st.
(** ex_terminate, except.c 354-377. *)
Definition terminate (st : est) : out (res * est) :=
  let c := ctxs st (cur st) in
  Ok (RExit (c_ex c) (c_panic c), free_root st).

(** The loop of ex_unwind_stack over the protected pointers, except.c 117-129. *)
Fixpoint unwind_ptrs (fuel : nat) (p temp : Z) (st : est) : out est :=
  match fuel with
  | O => NoFuel
  | S f =>
      if p =? 0 then Ok st
      else if negb (n_live (nodes st p)) then Undef UseAfterFree
      else if negb (n_ok (nodes st p)) then Ok st
      else
        let v := n_val (nodes st p) in
        if temp =? v then Ok st
        else
          let* st := if v =? 0 then Ok st else release (nodes st p) (with_node p n_off st) in
          unwind_ptrs f (n_next (nodes st p)) v st
  end.
(** ex_unwind_stack, except.c 106-134. *)
Definition unwind (fuel : nat) (thr : Z -> Z -> est -> out (res * est)) (id : Z) (st : est) : out (res * est) :=
  let st := with_ctx id (c_set_unstack true) st in
  let c := ctxs st id in
  andthen
    (if c_unwind c && hook_unwind st then deferred_free thr (c_data c) st
     else if c_unwind c && c_raii c && (ready st && (c_data c =? root)) then deferred_free thr root st
     else let* st := unwind_ptrs fuel (c_stack c) 0 st in Ok (RNorm, st))
    (fun st => Ok (RNorm, with_ctx id (fun c => c_set_stack 0 (c_set_unstack false c)) st)).
(** guard_set, raii.c 524-531, and raii_unwind_set, raii.c 91-97, once the scope is known. *)
Definition record_err (id sc ex pm : Z) (st : est) : est :=
  with_ctx id (fun c => c_set_unwind (s_prot (scopes st sc)) (c_swap_set sc c)) (with_scope sc (s_set_err ex pm) st).
(** The choice of except.c 396-399. *)
Definition setup (id ex pm : Z) (st : est) : out est :=
  if hook_set st then if arena st =? 0 then Undef NullDeref else Ok (record_err id (arena st) ex pm st)
  else if c_raii (ctxs st id) then Ok (record_err id root ex pm (raii_init st))
  else Ok st.
(** ex_throw, except.c 379-415. *)
Fixpoint ex_throw (fuel : nat) (ex pm : Z) (st : est) : out (res * est) :=
  match fuel with
  | O => NoFuel
  | S f =>
      let id := cur st in
      if c_unstack (ctxs st id) then terminate st
      else
        let* st := setup id ex pm (with_ctx id (c_thrown ex pm) st) in
        andthen (unwind fuel (ex_throw f) id st) (fun st =>
          if id =? root then terminate st else Ok (RJump id (Z.lor (c_state (ctxs st id)) 1), st))
  end.

(** The local context of ex_try before setjmp, exception.h 302-308. *)
Definition new_ctx (st : est) : Z * est :=
  let id := fresh st in let j := junk st in
  (id, set_cur id (set_fresh (id + 1) (set_ctxs (upd (ctxs st) id
    (Ctx (cur st) (j (16 * id)) 0 (j (16 * id + 1)) false (Z.odd (j (16 * id + 2))) (Z.odd (j (16 * id + 3))) 0 (j (16 * id + 4)) (j (16 * id + 5)))) st))).
(** ex_end_try, exception.h 341-349, with rethrow, 292-293. *)
Definition end_try (fuel : nat) (id : Z) (st : est) : out (res * est) :=
  let st := if cur st =? id then set_cur (c_next (ctxs st id)) st else st in
  let c := ctxs st id in
  if Z.odd (c_state c) then ex_throw fuel (c_ex c) (c_panic c) st else Ok (RNorm, st).
(** What follows setjmp, which returns [v] and may return again. *)
Fixpoint landing (fuel : nat) (id : Z) (body handlers final : est -> out (res * est)) (v : Z) (st : est) : out (res * est) :=
  match fuel with
  | O => NoFuel
  | S f =>
      let st := with_ctx id (c_set_state v) st in
      let m := andthen (if v =? 0 then body st else Ok (RNorm, st)) (fun st =>
               andthen (handlers st) (fun st =>
               andthen (final st) (fun st => end_try fuel id st))) in
      match m with
      | Ok (RJump j v', st') => if j =? id then landing f id body handlers final v' st' else m
      | _ => m
      end
  end.

(** Programs.  [Try b cs hf f]: ex_try, clauses, ex_finally when [hf], ex_end_try. [Guard b]: guard ... guarded.
    [Protected a v s]: protected(ptr, a) with *ptr = v, then [s], then unprotected. [Malloc w]: _malloc (malloc_default
    outside guards), the program storing [w] in the first word.  [Caught n s1 s2]: if (caught(n)) s1 else s2. *)
Inductive stmt :=
| Skip | Act (a : Z) | Seq (s1 s2 : stmt) | Throw (e : Z) | Panic (m : Z) | Rethrow
| Try (b : stmt) (cs : clauses) (hf : bool) (f : stmt)
| Guard (b : stmt) | Defer (f : dfun) (d : Z) | Malloc (w : Z)
| Protected (a v : Z) (s : stmt)
| Caught (n : Z) (s1 s2 : stmt)
(** ex_catch, ex_catch_any, ex_catch_if, exception.h 315-330 and 351-360. *)
with clauses := CNil | Catch (e : Z) (s : stmt) (cs : clauses) | CatchAny (s : stmt) (cs : clauses) | CatchIf (s : stmt) (cs : clauses).

(** ex_protect_ptr, except.c 89-97. *)
Definition protect (p : Z) (free : bool) (a v : Z) (st : est) : est :=
  with_ctx (cur st) (c_set_stack p) (with_node p (fun _ => Node true (c_stack (ctxs st (cur st))) free a v true) st).
(** malloc_full, raii.c 220-231; the block gets a fresh identity. *)
Definition malloc_full (sc w : Z) (st : est) : est :=
  let b := fresh st in
  let st := set_fresh (b + 1) st in
  let st := if s_protector (scopes st sc) =? 0 then set_fresh (fresh st + 1) (with_scope sc (s_set_protector (fresh st)) st) else st in
  let st := protect (s_protector (scopes st sc)) true 0 w st in
  with_scope sc (fun s => s_set_defers (Entry DFree b false :: s_defers s) (s_set_prot true s)) st.
(** raii_caught, raii.c 483-496. *)
Definition raii_caught (n : Z) (st : est) : out (bool * est) :=
  if negb (ready st) then Undef NullDeref
  else if (s_pending (scopes st root) =? 0) && (negb (c_ex (ctxs st (cur st)) =? 0) && (c_ex (ctxs st (cur st)) =? n))
  then Ok (true, with_ctx (cur st) (c_set_state 2) st)
  else Ok (is_caught root n st).

(** [lx]: the context the name ex_err denotes here; [sc]: the scope of the innermost guard, else the thread's. *)
Fixpoint exec (fuel : nat) (lx sc : Z) (s : stmt) (st : est) {struct s} : out (res * est) :=
  match s with
  | Skip => Ok (RNorm, st)
  | Act a => Ok (RNorm, emit (EAct a) st)
  | Seq s1 s2 => andthen (exec fuel lx sc s1 st) (fun st => exec fuel lx sc s2 st)
  | Throw e => ex_throw fuel e 0 st
  | Panic m => ex_throw fuel ex_panic m st
  | Rethrow => ex_throw fuel (c_ex (ctxs st lx)) (c_panic (ctxs st lx)) st
  | Try b cs hf f =>
      let '(id, st) := new_ctx st in
      landing fuel id (fun st => exec fuel id sc b st) (fun st => handle fuel id sc cs st)
        (fun st => if hf then exec fuel id sc f (set_cur (c_next (ctxs st id)) st) else Ok (RNorm, st)) 0 st
  | Guard b =>                                                                   (* raii.h 531-547, 564-575 *)
      let st := raii_init st in
      let a0 := arena st in let hs := hook_set st in let hu := hook_unwind st in
      let g := fresh st in
      let st := set_arena g (set_fresh (g + 1) (with_scope g (fun _ => Scope true [] 0 0 false false 0 true) (set_hooks true true st))) in
      let '(id, st) := new_ctx st in
      landing fuel id
        (fun st => andthen (exec fuel id g b st) (fun st => deferred_free (ex_throw fuel) g st))
        (fun st => if c_state (ctxs st id) =? 1 then deferred_free (ex_throw fuel) g st else Ok (RNorm, st))
        (fun st =>
           let st := set_cur (c_next (ctxs st id)) st in
           let st := set_hooks hs hu (with_ctx (cur st) c_swap_reset (set_arena a0 st)) in        (* guard_reset, raii.c 533-539 *)
           Ok (RNorm, with_scope g s_dead st))                                                    (* guard_delete, raii.c 541-547 *)
        0 st
  | Defer f d => let st := raii_init st in Ok (RNorm, with_scope sc (fun s => s_set_defers (Entry (DUser f) d true :: s_defers s) s) st)
  | Malloc w => Ok (RNorm, malloc_full sc w (raii_init st))
  | Protected a v s =>
      let p := fresh st in
      andthen (exec fuel lx sc s (protect p false a v (set_fresh (p + 1) st))) (fun st =>
        Ok (RNorm, with_ctx (cur st) (c_set_stack (n_next (nodes st p))) st))
  | Caught n s1 s2 => let* r := raii_caught n st in let '(b, st) := r in if b then exec fuel lx sc s1 st else exec fuel lx sc s2 st
  end
(** The clauses of a try block, in order. *)
with handle (fuel : nat) (id sc : Z) (cs : clauses) (st : est) {struct cs} : out (res * est) :=
  match cs with
  | CNil => Ok (RNorm, st)
  | Catch e s cs =>                                                              (* exception.h 351-360 *)
      andthen (if (c_state (ctxs st id) =? 1) && (c_ex (ctxs st id) =? e)
               then exec fuel id sc s (with_ctx id (c_set_state 2) st) else Ok (RNorm, st)) (fun st => handle fuel id sc cs st)
  | CatchAny s cs =>                                                             (* exception.h 315-322 *)
      andthen (if c_state (ctxs st id) =? 1 then exec fuel id sc s (with_ctx id (c_set_state 2) st) else Ok (RNorm, st)) (fun st => handle fuel id sc cs st)
  | CatchIf s cs =>                                                              (* exception.h 324-330 *)
      andthen (if c_state (ctxs st id) =? 1 then exec fuel id sc s st else Ok (RNorm, st)) (fun st => handle fuel id sc cs st)
  end.

(** A thread at its start: ex_init has run (except.c 331-348), raii_init has not. *)
Definition start (j : Z -> Z) : est :=
  Est root (fun _ => Ctx 0 0 0 0 false false false 0 0 0) (fun _ => Scope false [] 0 0 false false 0 false) (fun _ => Node false 0 false 0 0 false)
      2 false false 0 false j [].
(** The whole program: falls off the end, or terminates with the error it prints. *)
Inductive final := Finished | Uncaught (ex pm : Z).
(** The program: main with its exit handlers (raii.c 103-129 registers raii_destroy). *)
Definition run (fuel : nat) (s : stmt) (j : Z -> Z) : out (list event * final) :=
  match exec fuel 0 root s (start j) with
  | Ok (RNorm, st) => Ok (trace (free_root st), Finished)
  | Ok (RJump _ _, _) => Undef DeadJump
  | Ok (RExit ex pm, st) => Ok (trace (free_root st), Uncaught ex pm)
  | Undef u => Undef u
  | Panics => Panics
  | NoFuel => NoFuel
  end.


(** ** The process-wide hooks under several threads *)

(** exception_setup_func/exception_unwind_func (except.c 66-67, not thread local) and, per thread, the values its open guards
    saved (sf##__FUNCTION__ and uf##__FUNCTION__, raii.h 536-539), innermost first; [true]: the hooks of a guard, [false]: NULL.  Entering and
    leaving are single steps here; each is really two unsynchronised accesses. *)
Record hooks_state := Hooks { h_glob : bool; h_saved : Z -> list bool }.
(** A guard is entered (raii.h 531-543) or left (raii.c 533-539). *)
Inductive hop := Enter | Leave.
(** raii.h 531-543; guard_reset, raii.c 533-539. [None]: the thread has no open guard. *)
Definition hook_step (t : Z) (o : hop) (h : hooks_state) : option hooks_state :=
  match o with
  | Enter => Some (Hooks true (upd (h_saved h) t (h_glob h :: h_saved h t)))
  | Leave => match h_saved h t with [] => None | b :: r => Some (Hooks b (upd (h_saved h) t r)) end
  end.
(** Any interleaving of the threads' guards (no single place in the code). *)
Fixpoint hook_run (l : list (Z * hop)) (h : hooks_state) : option hooks_state :=
  match l with
  | [] => Some h
  | (t, o) :: l => match hook_step t o h with None => None | Some h => hook_run l h end
  end.
