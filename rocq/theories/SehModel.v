(** The exceptions of the Windows build: the table of codes and signals (src/except.c 76-87, 504-518, 567-588), the filters catch_seh and catch_filter_seh (417-502), ex_throw
    (379-415) and the Windows forms of throw, rethrow, ex_try, ex_catch, ex_catch_any, ex_catch_if, ex_finally and ex_end_try (include/exception.h 195-281).

    Names are numbers, 0 for NULL; two names are the same text if they are the same number.  A place is the file, line and function of a throw; 0 stands for "unknown", 0, NULL.
    What ex_try leaves uninitialised has an arbitrary value, given with each block.  Windows looks for a handler by calling the filters from the innermost block outwards, while the
    stack and the current context are as they were at the throw.

    Simplified: native thread-local storage; the protected pointers, the hooks exception_setup_func and raii_unwind_set and the backtrace are left out; a finally block only
    records that it ran; a code that no filter takes ends the run. *)
From Verif Require Export Base.
Import ListNotations.

(** A slot of ex_sig, src/except.c 81-87. *)
Record wslot := WSlot { w_ex : Z; w_sig : Z; w_seh : Z }.
(** The zeroed slot, src/except.c 81-87. *)
Definition empty_slot : wslot := WSlot 0 0 0.
(** The table at the start, src/except.c 81-87. *)
Definition empty_table : list wslot := repeat empty_slot 32.
(** The store into the slot found by the search of ex_signal_seh and ex_signal, src/except.c 507-517, 570-588; a full table stays as it is. *)
Fixpoint store (same : wslot -> bool) (new : wslot -> wslot) (t : list wslot) : list wslot :=
  match t with [] => [] | s :: t => if (w_ex s =? 0) || same s then new s :: t else s :: store same new t end.
(** ex_signal_seh, src/except.c 504-518. *)
Definition ex_signal_seh (code ex : Z) (t : list wslot) : list wslot := store (fun s => w_seh s =? code) (fun s => WSlot ex (w_sig s) code) t.
(** ex_signal on Windows, src/except.c 567-588, when signal() succeeds. *)
Definition ex_signal_win (sig ex : Z) (t : list wslot) : list wslot := store (fun s => w_sig s =? sig) (fun s => WSlot ex sig (w_seh s)) t.
(** The name under which a code is found, src/except.c 429-435, 480-484. *)
Definition seh_name (code : Z) (t : list wslot) : option Z := option_map w_ex (find (fun s => w_seh s =? code) t).
(** The name under which a signal is found by ex_handler, src/except.c 538-544. *)
Definition sig_name (sig : Z) (t : list wslot) : option Z := option_map w_ex (find (fun s => w_sig s =? sig) t).

(** EXCEPTION_PANIC, include/exception.h 128. *)
Definition exception_panic : Z := 3758096385.
(** The name "panic", src/except.c 19. *)
Definition panic_name : Z := 1.
(** Numbers for the names of src/except.c 7-58 that ex_signal_setup uses: sig_segv, array_bounds_exceeded, sig_fpe, divide_by_zero, sig_ill, int_overflow, stack_overflow,
    invalid_handle, sig_int, sig_abrt, sig_break, sig_term. *)
Definition sig_segv : Z := 2.
(** The codes of ex_signal_setup with their names, src/except.c 610-619. *)
Definition default_codes : list (Z * Z) :=
  [(3221225477, sig_segv); (3221225612, 3); (3221225614, 4); (3221225620, 5); (3221225501, 6); (3221225621, 7); (3221225725, 8); (3221225480, 9); (exception_panic, panic_name); (3221225786, 10)].
(** The signals of ex_signal_setup that Windows has, with their names, src/except.c 621-647. *)
Definition default_signals : list (Z * Z) := [(11, sig_segv); (22, 11); (8, 4); (4, 6); (21, 12); (2, 10); (15, 13)].
(** ex_signal_setup on Windows, src/except.c 608-675. *)
Definition ex_signal_setup_win (t : list wslot) : list wslot :=
  fold_left (fun t d => ex_signal_win (fst d) (snd d) t) default_signals (fold_left (fun t d => ex_signal_seh (fst d) (snd d) t) default_codes t).

(** The members of a context that matter here, include/exception.h 379-417. *)
Record wctx := WCtx { x_ex : Z; x_panic : Z; x_place : Z; x_caught : Z; x_state : Z; x_rethrown : bool }.
(** What the uninitialised members panic, file/line/function and caught contain, include/exception.h 220-236. *)
Record rest := Rest { r_panic : Z; r_place : Z; r_caught : Z }.
(** ex_try, include/exception.h 220-236: [state] is what the first setjmp returns. *)
Definition fresh (g : rest) : wctx := WCtx 0 (r_panic g) (r_place g) (r_caught g) 0 false.
(** is_str_eq, src/raii.c 742-744. *)
Definition name_eq (a b : Z) : bool := negb (a =? 0) && negb (b =? 0) && (a =? b).

(** What a filter answers: EXCEPTION_EXECUTE_HANDLER or EXCEPTION_CONTINUE_SEARCH, src/except.c 426, 464. *)
Inductive answer := Execute | Search.
(** The second loop of catch_seh, src/except.c 442-464. *)
Definition catch_loop (t : list wslot) (got_signal : bool) (exception code : Z) (found : bool) (c : wctx) : answer * wctx :=
  match find (fun s => found || (w_seh s =? code) || (u32 (x_caught c) =? w_seh s) || name_eq (x_ex c) exception) t with
  | None => (Search, c)
  | Some s =>
      if got_signal || (s32 code <? 0) then (Execute, WCtx (if found then x_ex c else w_ex s) (x_panic c) 0 (x_caught c) 1 true)
      else (Execute, WCtx (x_ex c) (x_panic c) (x_place c) (x_caught c) 1 true)
  end.
(** catch_seh, src/except.c 418-467. *)
Definition catch_seh (t : list wslot) (got_signal : bool) (exception code : Z) (c : wctx) : answer * wctx :=
  if negb (name_eq (x_ex c) exception) && (x_panic c =? 0) then (Execute, c)
  else if (x_ex c =? 0) && (s32 code <? 0) then
    let c := WCtx (x_ex c) 0 (x_place c) (x_caught c) (x_state c) (x_rethrown c) in
    match find (fun s => w_seh s =? code) t with
    | None => (Execute, c)
    | Some s => catch_loop t got_signal exception code true (WCtx (w_ex s) 0 (x_place c) (x_caught c) (x_state c) (x_rethrown c))
    end
  else if negb (name_eq (x_panic c) exception) && negb (name_eq (x_ex c) exception) then (Execute, c)
  else catch_loop t got_signal exception code false c.
(** catch_filter_seh, src/except.c 469-502. *)
Definition catch_filter_seh (t : list wslot) (code : Z) (c : wctx) : answer * wctx :=
  if code =? exception_panic then (Execute, WCtx (x_ex c) (x_panic c) (x_place c) (x_caught c) 1 (x_rethrown c))
  else match find (fun s => (w_seh s =? code) || (u32 (x_caught c) =? w_seh s)) t with
       | None => (Search, c)
       | Some s => (Execute, WCtx (w_ex s) 0 0 (x_caught c) 1 true)
       end.

(** ex_catch(E), ex_catch_any or ex_catch_if, include/exception.h 238-242, 264-268, 270-273; guard sections (include/raii.h 531-594) use the last. *)
Inductive catcher := Catch (e : Z) | CatchAny | CatchIf.
(** The filter of a block, include/exception.h 239, 265, 271. *)
Definition filter (t : list wslot) (got_signal : bool) (k : catcher) (code : Z) (c : wctx) : answer * wctx :=
  match k with Catch e => catch_seh t got_signal e code c | CatchAny | CatchIf => catch_filter_seh t code c end.
(** The state in which the handler runs: ex_catch_st, or ex_throw_st still with ex_catch_if; include/exception.h 242, 268, 272-273. *)
Definition handler_state (k : catcher) : Z := match k with CatchIf => 1 | _ => 2 end.
(** Programs of the blocks of include/exception.h 195-281: throw of a name at a place, a fault with a code, rethrow() of the innermost block. *)
Inductive stm := Skip | Emit (n : Z) | Throw (x place : Z) | Fault (code : Z) | Rethrow | Then (a b : stm) | Try (g : rest) (body : stm) (k : catcher) (handler : stm) (fin : Z).
(** What is seen: a step of the program, a handler entered with err and its place (EX_MAKE_IF, include/exception.h 164-168), a finally block, the end of the program by
    ex_terminate (src/except.c 354-377) with a name. *)
Inductive event := Did (n : Z) | Handling (name place : Z) | Finally (n : Z) | Ended (name : Z).
(** How a statement ends: normally, with an exception looking for a handler (RaiseException, src/except.c 412, or a fault), by ex_terminate (409), or with the longjmp of rethrow
    to its own block (include/exception.h 206). *)
Inductive ending := Normal | Raised (code : Z) | Terminated | Jump.
(** The name ex_print and EX_MAKE_IF give, src/except.c 135-139, include/exception.h 165. *)
Definition err_name (ex panic : Z) : Z := if panic =? 0 then ex else panic.
(** ex_throw, src/except.c 379-415, on the stack of contexts, the current one first; none is the thread's own buffer. *)
Definition ex_throw (ex place panic : Z) (fs : list wctx) : ending * list wctx * list event :=
  match fs with
  | [] => (Terminated, [], [Ended (err_name ex panic)])
  | c :: r => (Raised exception_panic, WCtx ex panic place (x_caught c) (x_state c) (x_rethrown c) :: r, [])
  end.
(** rethrow(), include/exception.h 203-209, in a block whose context is the current one. *)
Definition rethrow (fs : list wctx) : ending * list wctx * list event :=
  match fs with
  | [] => (Normal, [], [])
  | c :: r => if (-1 <? x_caught c) || x_rethrown c then (Jump, WCtx (x_ex c) (x_panic c) (x_place c) (x_caught c) (Z.lor (x_state c) 1) false :: r, [])
              else ex_throw (x_ex c) (x_place c) (x_panic c) fs
  end.
(** ex_finally and ex_end_try, include/exception.h 244-262, of the block with context [c] inside the contexts [fs]. *)
Definition finish (c : wctx) (fs : list wctx) (fin : Z) : ending * list wctx * list event :=
  if Z.land (x_state c) 1 =? 0 then (Normal, fs, [Finally fin])
  else let '(r, fs', e) := ex_throw (x_ex c) (x_place c) (x_panic c) fs in (r, fs', Finally fin :: e).
(** The block with its context and the contexts outside of it, in the stack of a throw inside of it (no counterpart in the source). *)
Definition own (n : nat) (fs : list wctx) : list wctx := skipn (length fs - S n) fs.
(** Runs a statement, include/exception.h 195-281. *)
Fixpoint run (t : list wslot) (got : bool) (s : stm) (fs : list wctx) : ending * list wctx * list event :=
  match s with
  | Skip => (Normal, fs, [])
  | Emit n => (Normal, fs, [Did n])
  | Throw x p => ex_throw panic_name p x fs
  | Fault code => (Raised code, fs, [])
  | Rethrow => rethrow fs
  | Then a b => match run t got a fs with
                | (Normal, fs1, e1) => let '(r, fs2, e2) := run t got b fs1 in (r, fs2, e1 ++ e2)
                | other => other
                end
  | Try g b k h fin =>
      let ends (c : wctx) (e : list event) := let '(r, fs', e') := finish c fs fin in (r, fs', e ++ e') in
      match run t got b (fresh g :: fs) with
      | (Terminated, fs1, e1) => (Terminated, fs1, e1)
      | (Raised code, c :: r1, e1) =>
          match filter t got k code c with
          | (Search, c') => (Raised code, c' :: r1, e1)
          | (Execute, c') =>
              match own (length fs) (c' :: r1) with
              | [] => (Terminated, [], e1)
              | o :: _ =>
                  if x_state o =? 1 then
                    let e2 := e1 ++ [Handling (err_name (x_ex o) (x_panic o)) (x_place o)] in
                    match run t got h (WCtx (x_ex o) (x_panic o) (x_place o) (x_caught o) (handler_state k) (x_rethrown o) :: fs) with
                    | (Normal, o' :: _, e3) | (Jump, o' :: _, e3) => ends o' (e2 ++ e3)
                    | (r, fs3, e3) => (r, fs3, e2 ++ e3)
                    end
                  else ends o e1
              end
          end
      | (_, o :: _, e1) => ends o e1
      | (r, fs1, e1) => (r, fs1, e1)
      end
  end.
(** The table of a program that has entered a block, include/exception.h 222-223. *)
Definition default_table : list wslot := ex_signal_setup_win empty_table.
