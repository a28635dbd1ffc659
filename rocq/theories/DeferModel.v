(** Scopes and deferred functions: src/raii.c 5-101, 200-292, 310-481 with the
    structures of include/raii.h 144-175.

    A scope's [defer] member is modelled as the four 64-bit words it
    occupies, because the code looks at them through two different types:
    - as [raii_array_t] (the cast [(raii_array_t * )array] in raii.c 87-89,
      333-343, 396, 431): type at 0, base at 8, elements at 16;
    - as [defer_t] (raii.c 345-357): base.type at 8, base.base at 16,
      base.elements at 24.
    The array block is a byte list, so that stores at unaligned or wild
    addresses have the effect they have on the machine. *)
From Verif Require Export Base.

(** Visible effects of a release. *)
Inductive ev :=
| Call (f d : Z)     (* func(data)            *)
| Freed (a : Z).     (* RAII_FREE(a), a <> NULL *)

(** The program and machine around a scope (no single source line):
    - [place n sz]: the n-th system allocation, for sz bytes; 0 = it fails;
    - [junk n i]: byte i of what the n-th allocated block contains;
    - [isfn f]: the addresses of functions;
    - [act f d]: the (func, data, check) triples that f(d) itself defers on the
      scope that is calling it. *)
Record env := Env {
  place : nat -> Z -> Z;
  junk : nat -> Z -> Z;
  isfn : Z -> bool;
  act : Z -> Z -> list (Z * Z * Z) }.

(** ex_ptr_t, include/exception.h 420-426. *)
Record prot := Prot { p_addr : Z; p_type : Z; p_next : Z; p_func : Z; p_ptr : Z }.

(** memory_t, include/raii.h 162-175, with the array block its defer member
    owns ([blk]), the number of allocations made so far, the events so far
    and the [stack] member of the current exception context. *)
Record scope := Scope {
  self : Z;               (* address of the scope                      *)
  is_tls : bool;          (* it is thrd_raii_buffer                     *)
  live : bool;            (* not yet passed to RAII_FREE                *)
  w_type : Z;             (* defer word at  0 (low half)                *)
  w_base : Z;             (* defer word at  8                           *)
  w_elems : Z;            (* defer word at 16                           *)
  w_tail : Z;             (* defer word at 24                           *)
  blk : list Z;           (* bytes of the block at w_base               *)
  s_err : Z; s_panic : Z; (* err and panic, 0 = NULL                    *)
  is_recovered : bool; is_protected : bool;
  protector : option prot;
  mid : Z;
  ticks : nat;
  trace : list ev;
  ctx_stack : Z }.

(** Field updates (no counterpart in the source). *)
Definition set_blk (b : list Z) (s : scope) : scope :=
  Scope (self s) (is_tls s) (live s) (w_type s) (w_base s) (w_elems s) (w_tail s) b (s_err s) (s_panic s) (is_recovered s) (is_protected s) (protector s) (mid s) (ticks s) (trace s) (ctx_stack s).
(** Update of defer.type, base and elements, raii.h 144-154. *)
Definition set_words (ty ba el : Z) (s : scope) : scope :=
  Scope (self s) (is_tls s) (live s) ty ba el (w_tail s) (blk s) (s_err s) (s_panic s) (is_recovered s) (is_protected s) (protector s) (mid s) (ticks s) (trace s) (ctx_stack s).
(** Update of is_recovered and is_protected, raii.h 164-165. *)
Definition set_flags (re pr : bool) (s : scope) : scope :=
  Scope (self s) (is_tls s) (live s) (w_type s) (w_base s) (w_elems s) (w_tail s) (blk s) (s_err s) (s_panic s) re pr (protector s) (mid s) (ticks s) (trace s) (ctx_stack s).
(** Update of protector (raii.h 171) and of the context's stack of protected pointers. *)
Definition set_prot (po : option prot) (cs : Z) (s : scope) : scope :=
  Scope (self s) (is_tls s) (live s) (w_type s) (w_base s) (w_elems s) (w_tail s) (blk s) (s_err s) (s_panic s) (is_recovered s) (is_protected s) po (mid s) (ticks s) (trace s) cs.
(** Update of mid, raii.h 169. *)
Definition set_mid (m : Z) (s : scope) : scope :=
  Scope (self s) (is_tls s) (live s) (w_type s) (w_base s) (w_elems s) (w_tail s) (blk s) (s_err s) (s_panic s) (is_recovered s) (is_protected s) (protector s) m (ticks s) (trace s) (ctx_stack s).
(** Counts the requests to the allocator (bookkeeping). *)
Definition tick (s : scope) : scope :=
  Scope (self s) (is_tls s) (live s) (w_type s) (w_base s) (w_elems s) (w_tail s) (blk s) (s_err s) (s_panic s) (is_recovered s) (is_protected s) (protector s) (mid s) (Datatypes.S (ticks s)) (trace s) (ctx_stack s).
(** Records an event (bookkeeping). *)
Definition emit (e : ev) (s : scope) : scope :=
  Scope (self s) (is_tls s) (live s) (w_type s) (w_base s) (w_elems s) (w_tail s) (blk s) (s_err s) (s_panic s) (is_recovered s) (is_protected s) (protector s) (mid s) (ticks s) (trace s ++ [e]) (ctx_stack s).
(** Update of err and panic, raii.h 173-174. *)
Definition set_err (er pa : Z) (s : scope) : scope :=
  Scope (self s) (is_tls s) (live s) (w_type s) (w_base s) (w_elems s) (w_tail s) (blk s) er pa (is_recovered s) (is_protected s) (protector s) (mid s) (ticks s) (trace s) (ctx_stack s).
(** The scope's memory is released, raii_delete, raii.c 282-292. *)
Definition kill (s : scope) : scope :=
  Scope (self s) (is_tls s) false (w_type s) (w_base s) (w_elems s) (w_tail s) (blk s) (s_err s) (s_panic s) (is_recovered s) (is_protected s) (protector s) (mid s) (ticks s) (trace s) (ctx_stack s).

(** include/raii.h 57 and include/exception.h 64; sizeof(defer_func_t) (raii.h 155-160);
    sizeof(raii_array_t) (144-148); ex_protected_st (exception.h 140-146). *)
Definition RAII_DEF_ARR : Z := 26.
(** include/exception.h 64. *)
Definition INCREMENT : Z := 16.
(** sizeof(defer_func_t), raii.h 155-160. *)
Definition DEFER_SIZE : Z := 32.
(** sizeof(raii_array_t), raii.h 144-148. *)
Definition ARRAY_SIZE : Z := 24.
(** ex_protected_st, include/exception.h 140-146. *)
Definition EX_PROTECTED : Z := 3.

(** RAII_FREE(a): a NULL argument is ignored. *)
Definition raii_free (a : Z) (s : scope) : scope := if a =? 0 then s else emit (Freed a) s.

(** raii_array_init, raii.c 5-14 (through the cast, on the defer member);
    [raii_deferred_init], raii.c 87-89. *)
Definition raii_deferred_init (s : scope) : scope := set_blk [] (set_words RAII_DEF_ARR 0 0 s).

(** raii_array_reset, raii.c 16-26. *)
Definition raii_array_reset (s : scope) : scope :=
  set_blk [] (set_words 0 0 0 (raii_free (w_base s) s)).

(** umull_overflow, raii.c 34-40: [None] = overflow. *)
Definition umull_overflow (a b : Z) : option Z :=
  if ((4294967296 <=? a) || (4294967296 <=? b)) && (0 <? a) && (18446744073709551615 / a <? b)
  then None else Some (u64 (a * b)).

(** add_overflow, raii.c 56-62 (it adds INCREMENT, not b). *)
Definition add_overflow (a b : Z) : option Z :=
  if (0 <? a) && (18446744073709551615 - a <? b) then None else Some (u64 (a + INCREMENT)).

(** Contents of a block of [n] bytes made by realloc from [old]: the common
    prefix is kept, the rest is whatever the allocator left there. *)
Definition grown (E : env) (t : nat) (old : list Z) (n : Z) : list Z :=
  firstn (Z.to_nat n) old ++
  map (fun i => u8 (junk E t (Z.of_nat i))) (seq (length old) (Z.to_nat n - length old)).

(** realloc_array, raii.c 44-52: new address (0 = NULL) and contents. *)
Definition realloc_array (E : env) (t : nat) (old : list Z) (nmemb size : Z) : Z * list Z :=
  match umull_overflow nmemb size with
  | None => (0, old)
  | Some total =>
      let a := place E t total in
      if a =? 0 then (0, old) else (a, grown E t old total)
  end.

(** raii_array_append, raii.c 67-85: address of the slot, 0 = NULL. *)
Definition raii_array_append (E : env) (element_size : Z) (s : scope) : Z * scope :=
  if w_elems s mod INCREMENT =? 0 then
    match add_overflow (w_elems s) INCREMENT with
    | None => (0, s)
    | Some new_cap =>
        let '(a, b) := realloc_array E (ticks s) (blk s) new_cap element_size in
        if a =? 0 then (0, tick s)
        else (u64 (a + w_elems s * element_size),
              set_blk b (set_words (w_type s) a (u64 (w_elems s + 1)) (tick s)))
    end
  else (u64 (w_base s + w_elems s * element_size),
        set_words (w_type s) (w_base s) (u64 (w_elems s + 1)) s).

(** 64-bit load and store at address [a] through a pointer into the array
    block; anything else is a wild pointer. *)
Definition load64 (s : scope) (a : Z) : out Z :=
  if (w_base s <=? a) && (a + 8 <=? w_base s + Z.of_nat (length (blk s)))
  then Ok (le (firstn 8 (skipn (Z.to_nat (a - w_base s)) (blk s))))
  else Undef WildPointer.
(** A store of eight bytes, as [load64] above. *)
Definition store64 (s : scope) (a v : Z) : out scope :=
  if (w_base s <=? a) && (a + 8 <=? w_base s + Z.of_nat (length (blk s)))
  then let* b := blit (blk s) (a - w_base s) (to_le 8 v) in Ok (set_blk b s)
  else Undef WildPointer.

(** raii_deferred_array_get_index, raii.c 345-348.  [array->base.base] is the
    word at 16.  The pointer difference is divided by 24; GCC does that with an
    arithmetic shift by 3 and a multiplication by the inverse of 3. *)
Definition get_index (s : scope) (elem : Z) : Z :=
  u64 (s64 (elem - w_elems s) / 8 * 12297829382473034411).

(** raii_deferred_array_get_element, raii.c 350-353. *)
Definition get_element (s : scope) (index : Z) : Z := u64 (w_elems s + ARRAY_SIZE * index).

(** raii_deferred_array_len, raii.c 355-357. *)
Definition array_len (s : scope) : Z := w_tail s.

(** raii_deferred_any, raii.c 449-465: (size_t)-1 when the slot could not be made. *)
Definition raii_deferred_any (E : env) (func data check : Z) (s : scope) : out (Z * scope) :=
  if negb (live s) then Undef UseAfterFree else
  let '(d, s1) := raii_array_append E DEFER_SIZE s in
  if d =? 0 then Ok (18446744073709551615, s1)
  else
    let* s2 := store64 s1 (d + 8) func in
    let* s3 := store64 s2 (d + 16) data in
    let* s4 := store64 s3 (d + 24) check in
    Ok (get_index s4 d, s4).

(** raii_deferred, raii.c 467-469. *)
Definition raii_deferred (E : env) (func data : Z) (s : scope) := raii_deferred_any E func data 0 s.
(** raii_recover_by, raii.c 479-481; [E_STR] is the address of "err". *)
Definition E_STR : Z := 1.
(** raii_recover_by, raii.c 479-481. *)
Definition raii_recover_by (E : env) (func data : Z) (s : scope) := raii_deferred_any E func data E_STR s.

(** The defers that a deferred function makes while it runs. *)
Fixpoint perform (E : env) (l : list (Z * Z * Z)) (s : scope) : out scope :=
  match l with
  | [] => Ok s
  | (f, d, c) :: l' => let* (_, s') := raii_deferred_any E f d c s in perform E l' s'
  end.

(** A call through a function pointer. *)
Definition call (E : env) (f d : Z) (s : scope) : out scope :=
  if isfn E f then perform E (act E f d) (emit (Call f d) s) else Undef WildPointer.

(** The loop of raii_deferred_run, raii.c 403-412.  [defers] is the block
    address read before the loop; [i] is the index variable. *)
Fixpoint run_loop (E : env) (defers : Z) (i : nat) (s : scope) : out scope :=
  match i with
  | O => Ok s
  | Datatypes.S i' =>
      let a := defers + Z.of_nat i' * DEFER_SIZE in
      if negb (w_base s =? defers) then Undef UseAfterFree else
      let* check := load64 s (a + 24) in
      let s1 := if negb (s_err s =? 0) && negb (check =? 0) then set_flags false (is_protected s) s else s in
      let* f := load64 s1 (a + 8) in
      let* d := load64 s1 (a + 16) in
      let* s2 := call E f d s1 in
      if negb (w_base s2 =? defers) then Undef UseAfterFree else
      let* s3 := store64 s2 (a + 16) 0 in
      run_loop E defers i' s3
  end.

(** ex_unprotected_ptr, src/except.c 99-104, on the scope's protector. *)
Definition ex_unprotected_ptr (p : prot) (s : scope) : scope :=
  if p_type p =? EX_PROTECTED
  then set_prot (Some (Prot (p_addr p) (-1) (p_next p) (p_func p) (p_ptr p))) (p_next p) s
  else s.

(** raii_deferred_run, raii.c 395-428, with generation = 0 (its only caller).
    [user a] is the word the program keeps at address [a] of its own memory
    (read by line 417 when nothing was deferred). *)
Definition raii_deferred_run (E : env) (user : Z -> Z) (s : scope) : out scope :=
  let s0 := set_flags (s_err s =? 0) (is_protected s) s in
  let n := w_elems s0 in
  let* s1 := run_loop E (w_base s0) (Z.to_nat n) s0 in
  let* s2 :=
    match protector s1 with
    | Some p =>
        if is_protected s1 && negb (s_err s1 =? 0) then
          let s' := set_flags (is_recovered s1) false s1 in
          if n =? 0 then call E (p_func p) (user (p_ptr p)) s' else Ok s'
        else Ok s1
    | None => Ok s1
    end in
  let s3 := set_words (w_type s2) (w_base s2) 0 s2 in
  match protector s3 with
  | Some p => Ok (set_prot None (ctx_stack (ex_unprotected_ptr p s3)) (raii_free (p_addr p) s3))
  | None => Ok s3
  end.

(** raii_deferred_free, raii.c 436-443. *)
Definition raii_deferred_free (E : env) (user : Z -> Z) (s : scope) : out scope :=
  if negb (live s) then Undef UseAfterFree else
  if w_type s =? RAII_DEF_ARR then
    let* s1 := raii_deferred_run E user s in Ok (raii_array_reset s1)
  else Ok s.

(** raii_delete, raii.c 276-292. *)
Definition raii_delete (E : env) (user : Z -> Z) (s : scope) : out scope :=
  let* s1 := raii_deferred_free E user s in
  if is_tls s1 then Ok s1 else Ok (kill (emit (Freed (self s1)) s1)).

(** deferred_canceled, raii.c 359: some function address. *)
Definition CANCELED : Z := 9000.

(** raii_deferred_internal, raii.c 361-376. *)
Definition raii_deferred_internal (deferred : Z) (s : scope) : out scope :=
  let num_defers := array_len s in
  if deferred =? get_element s (u64 (num_defers - 1))
  then Ok (set_words (w_type s) (w_base s) (u64 (w_elems s - 1)) s)
  else
    let* s1 := store64 s (u64 (deferred + 8)) CANCELED in
    store64 s1 (u64 (deferred + 24)) 0.

(** raii_deferred_cancel, raii.c 378-382. *)
Definition raii_deferred_cancel (index : Z) (s : scope) : out scope :=
  if negb (live s) then Undef UseAfterFree else raii_deferred_internal (get_element s index) s.

(** raii_deferred_fire, raii.c 384-393. *)
Definition raii_deferred_fire (E : env) (index : Z) (s : scope) : out scope :=
  if negb (live s) then Undef UseAfterFree else
  let deferred := get_element s index in
  let* f := load64 s (u64 (deferred + 8)) in
  let* d := load64 s (u64 (deferred + 16)) in
  let* s1 := call E f d s in
  raii_deferred_internal deferred s1.

(** raii_deferred_count, raii.c 430-434. *)
Definition raii_deferred_count (s : scope) : Z := w_elems s.

(** ex_protect_ptr, src/except.c 89-97, for the protector at address [a]. *)
Definition ex_protect_ptr (a ptr func : Z) (s : scope) : scope :=
  set_prot (Some (Prot a EX_PROTECTED (ctx_stack s) func ptr)) a s.

(** malloc_full and calloc_full, raii.c 220-231 and 248-259 (the two differ only
    in how the block is filled): [None] = the panic of try_malloc. *)
Definition malloc_full (E : env) (size func : Z) (s : scope) : out (option Z * scope) :=
  let a := place E (ticks s) size in
  let s1 := tick s in
  if a =? 0 then Ok (None, s1) else
  let* (p, s2) := match protector s1 with
                  | Some p => Ok (p_addr p, s1)
                  | None => let q := place E (ticks s1) 32 in
                            if q =? 0 then Panics else Ok (q, tick s1)
                  end in
  let s3 := set_flags (is_recovered s2) true (ex_protect_ptr p a func s2) in
  let* (m, s4) := raii_deferred E func a s3 in
  Ok (Some a, set_mid m s4).

(** unique_init, raii.c 200-210: a zero-filled scope at address [a]. *)
Definition unique_init (a stack : Z) (n : nat) : scope :=
  raii_deferred_init (Scope a false true 0 0 0 0 [] 0 0 false false None 18446744073709551615 n [] stack).

(** raii_init, raii.c 103-127, first call on a thread: the thread's own buffer. *)
Definition raii_init (a stack : Z) (n : nat) : scope :=
  raii_deferred_init (Scope a true true 0 0 0 0 [] 0 0 false false None 18446744073709551615 n [] stack).

(** A history of defer calls (func, data, check) on a scope, collecting the
    returned indices. *)
Fixpoint defers (E : env) (l : list (Z * Z * Z)) (s : scope) : out (list Z * scope) :=
  match l with
  | [] => Ok ([], s)
  | (f, d, c) :: l' =>
      let* (i, s1) := raii_deferred_any E f d c s in
      let* (is_, s2) := defers E l' s1 in
      Ok (i :: is_, s2)
  end.

(** [n] releases in a row. *)
Fixpoint releases (E : env) (user : Z -> Z) (n : nat) (s : scope) : out scope :=
  match n with
  | O => Ok s
  | Datatypes.S n' => let* s' := raii_deferred_free E user s in releases E user n' s'
  end.

(** Histories that mix deferring and allocating; the (func, data) pairs that
    the scope owes a call to are collected. *)
Inductive op := Defer (f d c : Z) | Alloc (size func : Z).
(** Calls of raii.c 220-259 and 449-481 in sequence (the caller, no counterpart in the source). *)
Fixpoint run_ops (E : env) (l : list op) (s : scope) : out (list (Z * Z) * scope) :=
  match l with
  | [] => Ok ([], s)
  | Defer f d c :: l' =>
      let* (_, s1) := raii_deferred_any E f d c s in
      let* (r, s2) := run_ops E l' s1 in
      Ok ((f, d) :: r, s2)
  | Alloc size func :: l' =>
      let* (a, s1) := malloc_full E size func s in
      match a with
      | None => Panics
      | Some a => let* (r, s2) := run_ops E l' s1 in Ok ((func, a) :: r, s2)
      end
  end.
