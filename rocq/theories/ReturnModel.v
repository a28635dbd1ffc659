(** _return, include/raii.h 516-524, and break, raii.h 526-530 and 550-575, from inside the blocks of one function: guards (raii.h 531-543) and try blocks (exception.h 296-313),
    over the states of [ExcModel].

    Simplified: what happens in a block before the next one is entered, or before _return, is that functions are deferred on the
    innermost guard; the blocks are entered in main order, outermost first. *)
From Verif Require Export ExcModel.

(** A block of the function with the functions deferred in it after it was entered. *)
Inductive block := BTry (ds : list (dfun * Z)) | BGuard (ds : list (dfun * Z)).
(** What the names of an entered block denote: ex_err; for a guard also _$__FUNCTION__, s__FUNCTION__, sf__FUNCTION__, uf__FUNCTION__. *)
Inductive frame := FTry (id : Z) | FGuard (id g a0 : Z) (hs hu : bool).
(** The context ex_err names in that block, exception.h 302. *)
Definition frame_id (f : frame) : Z := match f with FTry id => id | FGuard id _ _ _ _ => id end.
(** raii.h 531-543; sigsetjmp returns 0. *)
Definition enter_guard (st : est) : frame * est :=
  let st := raii_init st in
  let a0 := arena st in let hs := hook_set st in let hu := hook_unwind st in
  let g := fresh st in
  let st := set_arena g (set_fresh (g + 1) (with_scope g (fun _ => Scope true [] 0 0 false false 0 true) (set_hooks true true st))) in
  let '(id, st) := new_ctx st in (FGuard id g a0 hs hu, with_ctx id (c_set_state 0) st).
(** exception.h 296-313; sigsetjmp returns 0. *)
Definition enter_try (st : est) : frame * est := let '(id, st) := new_ctx st in (FTry id, with_ctx id (c_set_state 0) st).
(** _defer: raii_deferred on the scope of the innermost guard, raii.c 449-465. *)
Definition defer_on (sc : Z) (ds : list (dfun * Z)) (st : est) : est :=
  fold_left (fun st p => with_scope sc (fun s => s_set_defers (Entry (DUser (fst p)) (snd p) true :: s_defers s) s) st) ds st.
(** The scope of the innermost guard among the frames (innermost first); 0: none. *)
Fixpoint inner_scope (fs : list frame) : Z := match fs with [] => 0 | FGuard _ g _ _ _ :: _ => g | FTry _ :: fs => inner_scope fs end.
(** Entering the blocks of the function, outermost first: raii.h 531-543, exception.h 296-313. *)
Fixpoint enter (bs : list block) (fs : list frame) (st : est) : list frame * est :=
  match bs with
  | [] => (fs, st)
  | BTry ds :: bs => let '(f, st) := enter_try st in enter bs (f :: fs) (defer_on (inner_scope fs) (if inner_scope fs =? 0 then [] else ds) st)
  | BGuard ds :: bs => let '(f, st) := enter_guard st in enter bs (f :: fs) (defer_on (inner_scope [f]) ds st)
  end.
(** The variables of the innermost guard in scope. *)
Fixpoint inner_guard (fs : list frame) : option (Z * Z * bool * bool) :=
  match fs with [] => None | FGuard _ g a0 hs hu :: _ => Some (g, a0, hs, hu) | FTry _ :: fs => inner_guard fs end.
(** _return; [fs]: the blocks it is in, innermost first.  [Undef WildPointer]: not inside a guard (does not compile). *)
Definition return_ (fuel : nat) (fs : list frame) (st : est) : out (res * est) :=
  match inner_guard fs, fs with
  | Some (g, a0, hs, hu), f :: _ =>
      let ex_err := frame_id f in
      andthen (deferred_free (ex_throw fuel) g st) (fun st =>                              (* raii_delete, raii.c 276-292 *)
        let st := with_scope g s_dead st in
        let st := set_hooks hs hu (with_ctx (cur st) c_swap_reset (set_arena a0 st)) in    (* guard_reset, raii.c 533-539 *)
        let st := set_cur (c_next (ctxs st ex_err)) st in
        let st := if cur st =? ex_err then set_cur (c_next (ctxs st ex_err)) st else st in
        Ok (RNorm, st))
  | _, _ => Undef WildPointer
  end.
(** A function that enters the blocks and leaves by _return. *)
Definition call (fuel : nat) (bs : list block) (st : est) : out (res * est) := let '(fs, st) := enter bs [] st in return_ fuel fs st.

(** break: control goes to the end of the do-while of the innermost guard (raii.h 545, 564): ex_end_try of the try blocks inside it is skipped.
    Returns the blocks still open too.  [Undef WildPointer]: not inside a guard.  [RJump id _]: a deferred function threw and control jumps to block [id]. *)
Fixpoint break_ (fuel : nat) (fs : list frame) (st : est) : out (res * est) :=
  match fs with
  | [] => Undef WildPointer
  | FTry _ :: fs => break_ fuel fs st
  | FGuard id g a0 hs hu :: _ =>
      andthen (deferred_free (ex_throw fuel) g st) (fun st =>                                    (* 565 *)
      andthen (if c_state (ctxs st id) =? 1 then deferred_free (ex_throw fuel) g st else Ok (RNorm, st)) (fun st =>   (* 566-567 *)
        let st := set_cur (c_next (ctxs st id)) st in                                            (* ex_finally, exception.h 332-339 *)
        let st := set_hooks hs hu (with_ctx (cur st) c_swap_reset (set_arena a0 st)) in          (* guard_reset *)
        end_try fuel id (with_scope g s_dead st)))                                               (* guard_delete, ex_end_try *)
  end.
(** A function that enters the blocks and leaves the innermost guard by break. *)
Definition call_break (fuel : nat) (bs : list block) (st : est) : out (res * est) := let '(fs, st) := enter bs [] st in break_ fuel fs st.
