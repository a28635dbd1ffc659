(** Signals that arrive while a guard's scope is being used: raii_deferred_any (src/raii.c 449-465, with raii_array_append, 67-85) and
    raii_deferred_free (436-443, with raii_deferred_run, 395-428, and raii_array_reset, 16-26) as single stores, with a signal after any of them.
    A signal becomes an exception (ex_handler, src/except.c 520-547) which lands in the ex_catch_if part of the guard (include/raii.h 551-553), where
    raii_deferred_free is called; the mask saved by the guard is back then (MaskModel), so that further signals may arrive there and land in
    the same place again (C36).

    The order of the stores is that of the source text.  A signal that arrives inside a deferred function counts as one right after the call;
    none arrives inside the allocator, and requests succeed (LeakModel has the failures).  No _malloc in the guard: there is no protector, so that 414-420
    and 423-427 do nothing and ex_throw itself releases nothing.  A signal after the last store of the release finds the type 0 and changes nothing. *)
From Verif Require Export BaseLemmas.

(** defer_func_t, include/raii.h 156-160; [None]: not yet written. *)
Record entry := Entry { e_func : option Z; e_data : option Z; e_check : option Z }.
(** A block of the allocator: not yet released; its entries. *)
Record blk := Blk { b_live : bool; b_cells : list entry }.
(** The scope: type is RAII_DEF_ARR, base, elements, err is set, is_recovered; all blocks ever handed out; the calls made. *)
Record st := St { tag : bool; base : option nat; elems : nat; err : bool; recovered : bool; mem : list blk; calls : list (Z * Z) }.

(** Field updates (no counterpart in the source). *)
Definition set_base (b : option nat) (s : st) := St (tag s) b (elems s) (err s) (recovered s) (mem s) (calls s).
(** elements. *)
Definition set_elems (n : nat) (s : st) := St (tag s) (base s) n (err s) (recovered s) (mem s) (calls s).
(** is_recovered. *)
Definition set_recovered (b : bool) (s : st) := St (tag s) (base s) (elems s) (err s) b (mem s) (calls s).
(** The memory. *)
Definition set_mem (m : list blk) (s : st) := St (tag s) (base s) (elems s) (err s) (recovered s) m (calls s).
(** A call. *)
Definition set_calls (c : list (Z * Z)) (s : st) := St (tag s) (base s) (elems s) (err s) (recovered s) (mem s) c.
(** Update of a list. *)
Definition setn {A} (l : list A) (i : nat) (x : A) : list A := firstn i l ++ match skipn i l with [] => [] | _ :: r => x :: r end.

(** The block a pointer points to. *)
Definition block (p : option nat) (s : st) : out (nat * list entry) :=
  match p with
  | None => Undef NullDeref
  | Some k => match nth_error (mem s) k with
              | None => Undef WildPointer
              | Some b => if b_live b then Ok (k, b_cells b) else Undef UseAfterFree
              end
  end.
(** Reading an entry. *)
Definition load (p : option nat) (i : nat) (s : st) : out entry :=
  let* (_, cs) := block p s in match nth_error cs i with Some e => Ok e | None => Undef OobRead end.
(** Writing an entry. *)
Definition store (p : option nat) (i : nat) (f : entry -> entry) (s : st) : out st :=
  let* (k, cs) := block p s in
  match nth_error cs i with Some e => Ok (set_mem (setn (mem s) k (Blk true (setn cs i (f e)))) s) | None => Undef OobWrite end.
(** Reading a word. *)
Definition known (o : option Z) : out Z := match o with Some z => Ok z | None => Undef UninitRead end.
(** RAII_FREE. *)
Definition free_ (p : option nat) (s : st) : out st :=
  match p with
  | None => Ok s
  | Some k => match nth_error (mem s) k with
              | None => Undef WildPointer
              | Some b => if b_live b then Ok (set_mem (setn (mem s) k (Blk false (b_cells b))) s) else Undef DoubleFree
              end
  end.
(** realloc_array, raii.c 44-52: a new block, the old one is copied and released. *)
Definition realloc (p : option nat) (cap : nat) (s : st) : out (nat * st) :=
  let blank := Entry None None None in
  match p with
  | None => Ok (length (mem s), set_mem (mem s ++ [Blk true (repeat blank cap)]) s)
  | Some _ => let* (_, cs) := block p s in
              let* s := free_ p s in
              Ok (length (mem s), set_mem (mem s ++ [Blk true (firstn cap cs ++ repeat blank (cap - length cs))]) s)
  end.

(** Where the guard is; what is still to be deferred. *)
Inductive pc :=
| Go (todo : list (Z * Z * Z))                                            (* in the body *)
| Grown (k : nat) (x : Z * Z * Z) (todo : list (Z * Z * Z))               (* raii.c 81 *)
| Take (x : Z * Z * Z) (todo : list (Z * Z * Z))                          (* raii.c 84 *)
| Func (p : option nat) (i : nat) (x : Z * Z * Z) (todo : list (Z * Z * Z))   (* raii.c 459 *)
| Data (p : option nat) (i : nat) (x : Z * Z * Z) (todo : list (Z * Z * Z))   (* raii.c 460 *)
| Check (p : option nat) (i : nat) (x : Z * Z * Z) (todo : list (Z * Z * Z))  (* raii.c 461 *)
| RType                                  (* raii.c 439 *)
| RStart                                 (* raii.c 396-403 *)
| RTest (p : option nat) (i : nat)       (* raii.c 403-408 *)
| RCall (p : option nat) (i : nat)       (* raii.c 410 *)
| RNull (p : option nat) (i : nat)       (* raii.c 411 *)
| RElems                                 (* raii.c 422 *)
| RFree                                  (* raii.c 20 *)
| RBase                                  (* raii.c 21 *)
| RZero                                  (* raii.c 22 *)
| RClear                                 (* raii.c 23 *)
| Fin.

(** One store (or call, or test) further. *)
Definition step (p : pc) (s : st) : out (pc * st) :=
  match p with
  | Go [] => Ok (RType, s)
  | Go (x :: l) =>
      if (elems s mod 16 =? 0)%nat then let* (k, s) := realloc (base s) (elems s + 16) s in Ok (Grown k x l, s)
      else Ok (Take x l, s)
  | Grown k x l => Ok (Take x l, set_base (Some k) s)
  | Take x l => Ok (Func (base s) (elems s) x l, set_elems (S (elems s)) s)
  | Func b i x l => let* s := store b i (fun e => Entry (Some (fst (fst x))) (e_data e) (e_check e)) s in Ok (Data b i x l, s)
  | Data b i x l => let* s := store b i (fun e => Entry (e_func e) (Some (snd (fst x))) (e_check e)) s in Ok (Check b i x l, s)
  | Check b i x l => let* s := store b i (fun e => Entry (e_func e) (e_data e) (Some (snd x))) s in Ok (Go l, s)
  | RType => Ok (if tag s then RStart else Fin, s)
  | RStart => Ok (RTest (base s) (elems s), set_recovered (negb (err s)) s)
  | RTest b i =>
      match i with
      | O => Ok (RElems, s)
      | S j => if err s then
                 let* e := load b j s in let* c := known (e_check e) in
                 Ok (RCall b i, if c =? 0 then s else set_recovered false s)
               else Ok (RCall b i, s)
      end
  | RCall b i => let* e := load b (i - 1) s in let* f := known (e_func e) in let* d := known (e_data e) in
                 Ok (RNull b i, set_calls (calls s ++ [(f, d)]) s)
  | RNull b i => let* s := store b (i - 1) (fun e => Entry (e_func e) (Some 0) (e_check e)) s in Ok (RTest b (i - 1), s)
  | RElems => Ok (RFree, set_elems 0 s)
  | RFree => let* s := free_ (base s) s in Ok (RBase, s)
  | RBase => Ok (RZero, set_base None s)
  | RZero => Ok (RClear, set_elems 0 s)
  | RClear => Ok (Fin, St false None 0 (err s) (recovered s) (mem s) (calls s))
  | Fin => Ok (Fin, s)
  end.
(** [n] of them. *)
Fixpoint steps (n : nat) (p : pc) (s : st) : out (pc * st) :=
  match n with O => Ok (p, s) | S n => let* (p, s) := step p s in steps n p s end.
(** To the end: enough steps for everything still to be deferred and released. *)
Definition finish (p : pc) (s : st) : out st :=
  let todo := match p with Go l | Grown _ _ l | Take _ l | Func _ _ _ l | Data _ _ _ l | Check _ _ _ l => S (length l) | _ => 0%nat end in
  let* (p, s) := steps (10 + 9 * todo + 3 * elems s) p s in
  match p with Fin => Ok s | _ => NoFuel end.
(** A signal: ex_handler, ex_throw with guard_set (raii.c 524-531), and the jump to the guard. *)
Definition signal (s : st) : pc * st := (RType, St (tag s) (base s) (elems s) true (recovered s) (mem s) (calls s)).
(** The life of the scope: the numbers say after how many steps the next signal arrives. *)
Fixpoint life (js : list nat) (p : pc) (s : st) : out st :=
  match js with
  | [] => finish p s
  | j :: js => let* (p, s) := steps j p s in let '(p, s) := signal s in life js p s
  end.
(** unique_init, raii.c 200-210. *)
Definition empty : st := St true None 0 false false [] [].
