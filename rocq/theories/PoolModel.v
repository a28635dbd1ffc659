(** Pools on the thread that opens them: thrd_scope, thrd_spawn, thrd_sync, thrd_destroy, thrd_is_finish, thrd_result
    (src/future.c 144-149, 203-315) together with what they share with guards (raii_local()->arena: include/raii.h 531-543,
    src/raii.c 524-539) and with the protected pointers of the exception context (src/except.c 88-133, src/raii.c 220-259, 395-428).

    Simplified: allocation succeeds; the workers run elsewhere; of an exception only where it goes is kept. *)
From Verif Require Export Base SpawnModel.

(** ** Layout of the two structures that raii_local()->arena may point to *)
Definition align (o a : Z) : Z := (o + a - 1) / a * a.
(** Offset of field [i]; fields are given by size and alignment on the 64-bit target. *)
Fixpoint offset (o : Z) (l : list (Z * Z)) (i : nat) : Z :=
  match l with
  | [] => o
  | (s, a) :: l => match i with O => align o a | S i => offset (align o a + s) l i end
  end.
(** struct memory_s, raii.h 162-175: arena, is_recovered, is_protected, is_arena, is_emulated, status, mid, defer (two tags, base and
    elements: 32 bytes, raii.h 145-154), protector, backtrace, err, panic. *)
Definition memory_s : list (Z * Z) := [(8, 8); (1, 1); (1, 1); (1, 1); (1, 1); (4, 4); (8, 8); (32, 8); (8, 8); (8, 8); (8, 8); (8, 8)].
(** Offset of err and of panic in struct memory_s, raii.h 173-174. *)
Definition err_at : Z := offset 0 memory_s 10.
(** Offset of err and of panic in struct memory_s, raii.h 173-174. *)
Definition panic_at : Z := offset 0 memory_s 11.
(** struct future_pool, raii.h 241-249: type, thread_count, cpu_present, scope, futures, results, queue[1] (three words, raii.h 229-233). *)
Definition future_pool : list (Z * Z) := [(4, 4); (4, 4); (8, 8); (8, 8); (8, 8); (8, 8); (24, 8)].
(** sizeof of such a structure. *)
Definition sizeof (l : list (Z * Z)) : Z := align (offset 0 l (length l)) 8.
(** A store of [n] bytes at offset [o] of a block of [size] bytes. *)
Definition store (size o n : Z) : out unit := if o + n <=? size then Ok tt else Undef OobWrite.

(** ** The current pool: raii_local()->arena *)
(** What the field holds: NULL, the scope of a guard, or the pool with that number. *)
Inductive aval := ANull | AScope | APool (p : nat).
(** [pools]: of each pool opened by the thread, whether it has not been destroyed; [log]: the pool each thread was added to. *)
Record ast := Ast { ar : aval; pools : list bool; log : list nat }.
(** The pool has not been destroyed (bookkeeping). *)
Definition pool_live (st : ast) (p : nat) : bool := nth p (pools st) false.
(** What a thread does: thrd_scope, thrd_spawn, thrd_destroy, throw, a guard, a try block that catches everything. *)
Inductive cmd := Skip | Scope | Spawn | Destroy (p : nat) | Throw | Seq (a b : cmd) | Guard (c : cmd) | Try (c : cmd).
(** guard_set, raii.c 524-531, called by ex_throw (except.c 379-415) when a guard is open: stores err and panic at raii_local()->arena,
    taken for a memory_t. *)
Definition guard_set (st : ast) : out unit :=
  match ar st with
  | ANull => Undef NullDeref
  | AScope => Ok tt
  | APool p =>
      if pool_live st p then let* _ := store (sizeof future_pool) err_at 8 in store (sizeof future_pool) panic_at 8
      else Undef UseAfterFree
  end.
(** A throw (also raii_panic); [h]: exception_setup_func is guard_set.  The flag of the result: an exception is under way. *)
Definition throw_ (h : bool) (st : ast) : out (ast * bool) :=
  if h then let* _ := guard_set st in Ok (st, true) else Ok (st, true).
(** thrd_destroy frees the pool, future.c 295-305 (bookkeeping). *)
Fixpoint set_dead (p : nat) (l : list bool) : list bool :=
  match l, p with [], _ => [] | _ :: l, O => false :: l | b :: l, S p => b :: set_dead p l end.
(** A program of a thread: future.c 203-250 and 295-305, except.c 379-415, raii.h 531-575, exception.h 296-349. *)
Fixpoint exec (h : bool) (c : cmd) (st : ast) : out (ast * bool) :=
  match c with
  | Skip => Ok (st, false)
  | Scope => (* future.c 203-218 *) Ok (Ast (APool (length (pools st))) (pools st ++ [true]) (log st), false)
  | Spawn => (* future.c 220-224: is_type reads the first word of what arena points to; of a scope that is its own arena field, NULL *)
      match ar st with
      | ANull => Undef NullDeref
      | AScope => throw_ h st
      | APool p => if pool_live st p then Ok (Ast (ar st) (pools st) (log st ++ [p]), false) else Undef UseAfterFree
      end
  | Destroy p => (* future.c 295-305 *)
      if pool_live st p then Ok (Ast (ar st) (set_dead p (pools st)) (log st), false) else Undef UseAfterFree
  | Throw => throw_ h st
  | Seq a b => let* (st, t) := exec h a st in if t : bool then Ok (st, true) else exec h b st
  | Guard c => (* raii.h 531-543, 563-572: the field is saved, set to the guard's scope, and restored at the end *)
      let* (st', t) := exec true c (Ast AScope (pools st) (log st)) in Ok (Ast (ar st) (pools st') (log st'), t)
  | Try c => let* (st, _) := exec h c st in Ok (st, false)
  end.

(** ** Protected pointers *)
(** Where the ptr field of an ex_ptr_t points: a variable of the caller, the first word of a block, the two fields of the pool, the
    local variable f of the k-th call of thrd_spawn. *)
Inductive loc := LVar (i : nat) | LWord (b : Z) | LFut | LRes | LFrame (k : nat).
(** ex_ptr_t, exception.h 420-427: next, ptr, type = ex_protected_st.  A node lives in the block with its number, or in the caller
    ([n_fixed]). *)
Record node := Node { n_next : Z; n_loc : loc; n_on : bool; n_fixed : bool }.
(** One pool.  [top]: ctx->stack; [p1]: protector of the thread's scope or 0; [p2]: of the pool's scope or 0; [own1], [own2]: blocks
    these two scopes will free; [frame]: running call of thrd_spawn with its f; [heap]: live blocks, [freed]: released by free. *)
Record hst := Hst { top : Z; nds : Z -> node; var : nat -> Z; pool_at : Z; futs : Z; ress : Z; p1 : Z; p2 : Z; own1 : list Z; own2 : list Z;
  frame : option (nat * Z); calls : nat; word : Z -> Z; heap : list Z; freed : list Z; brk : Z; threads : list Z }.
(** Field update of the state (no counterpart in the source). *)
Definition set_top x s := Hst x (nds s) (var s) (pool_at s) (futs s) (ress s) (p1 s) (p2 s) (own1 s) (own2 s) (frame s) (calls s) (word s) (heap s) (freed s) (brk s) (threads s).
(** Field update of the state (no counterpart in the source). *)
Definition set_nds x s := Hst (top s) x (var s) (pool_at s) (futs s) (ress s) (p1 s) (p2 s) (own1 s) (own2 s) (frame s) (calls s) (word s) (heap s) (freed s) (brk s) (threads s).
(** Field update of the state (no counterpart in the source). *)
Definition set_var x s := Hst (top s) (nds s) x (pool_at s) (futs s) (ress s) (p1 s) (p2 s) (own1 s) (own2 s) (frame s) (calls s) (word s) (heap s) (freed s) (brk s) (threads s).
(** Field update of the state (no counterpart in the source). *)
Definition set_pool x s := Hst (top s) (nds s) (var s) x (futs s) (ress s) (p1 s) (p2 s) (own1 s) (own2 s) (frame s) (calls s) (word s) (heap s) (freed s) (brk s) (threads s).
(** Field update of the state (no counterpart in the source). *)
Definition set_tables x y s := Hst (top s) (nds s) (var s) (pool_at s) x y (p1 s) (p2 s) (own1 s) (own2 s) (frame s) (calls s) (word s) (heap s) (freed s) (brk s) (threads s).
(** Field update of the state (no counterpart in the source). *)
Definition set_p1 x s := Hst (top s) (nds s) (var s) (pool_at s) (futs s) (ress s) x (p2 s) (own1 s) (own2 s) (frame s) (calls s) (word s) (heap s) (freed s) (brk s) (threads s).
(** Field update of the state (no counterpart in the source). *)
Definition set_p2 x s := Hst (top s) (nds s) (var s) (pool_at s) (futs s) (ress s) (p1 s) x (own1 s) (own2 s) (frame s) (calls s) (word s) (heap s) (freed s) (brk s) (threads s).
(** Field update of the state (no counterpart in the source). *)
Definition set_own1 x s := Hst (top s) (nds s) (var s) (pool_at s) (futs s) (ress s) (p1 s) (p2 s) x (own2 s) (frame s) (calls s) (word s) (heap s) (freed s) (brk s) (threads s).
(** Field update of the state (no counterpart in the source). *)
Definition set_own2 x s := Hst (top s) (nds s) (var s) (pool_at s) (futs s) (ress s) (p1 s) (p2 s) (own1 s) x (frame s) (calls s) (word s) (heap s) (freed s) (brk s) (threads s).
(** Field update of the state (no counterpart in the source). *)
Definition set_frame x k s := Hst (top s) (nds s) (var s) (pool_at s) (futs s) (ress s) (p1 s) (p2 s) (own1 s) (own2 s) x k (word s) (heap s) (freed s) (brk s) (threads s).
(** Field update of the state (no counterpart in the source). *)
Definition set_mem w h f b s := Hst (top s) (nds s) (var s) (pool_at s) (futs s) (ress s) (p1 s) (p2 s) (own1 s) (own2 s) (frame s) (calls s) w h f b (threads s).
(** Field update of the state (no counterpart in the source). *)
Definition set_threads x s := Hst (top s) (nds s) (var s) (pool_at s) (futs s) (ress s) (p1 s) (p2 s) (own1 s) (own2 s) (frame s) (calls s) (word s) (heap s) (freed s) (brk s) x.
(** Tables and lists (no counterpart in the source). *)
Definition upd {A} (f : Z -> A) (k : Z) (v : A) : Z -> A := fun x => if x =? k then v else f x.
(** Tables and lists (no counterpart in the source). *)
Definition memb (x : Z) (l : list Z) : bool := existsb (Z.eqb x) l.
(** Tables and lists (no counterpart in the source). *)
Definition remove1 (x : Z) (l : list Z) : list Z := filter (fun y => negb (y =? x)) l.

(** try_calloc and try_malloc, raii.c 139-157; [w]: what its first word will hold.  Gives the block. *)
Definition new (w : Z) (s : hst) : Z * hst := (brk s, set_mem (upd (word s) (brk s) w) (brk s :: heap s) (freed s) (brk s + 16) s).
(** RAII_FREE. *)
Definition free_ (b : Z) (s : hst) : out hst :=
  if b =? 0 then Ok s
  else if memb b (heap s) then Ok (set_mem (word s) (remove1 b (heap s)) (b :: freed s) (brk s) s)
  else if memb b (freed s) then Undef DoubleFree else Undef WildPointer.
(** free of each block, newest first: the deferred entries of malloc_full and calloc_full, raii.c 220-259. *)
Fixpoint free_all (l : list Z) (s : hst) : out hst := match l with [] => Ok s | b :: l => let* s := free_ b s in free_all l s end.
(** ex_protect_ptr, except.c 88-96. *)
Definition protect (n : Z) (l : loc) (s : hst) : hst := set_top n (set_nds (upd (nds s) n (Node (top s) l true (n_fixed (nds s n)))) s).
(** ex_unprotected_ptr, except.c 98-103. *)
Definition unprotect (n : Z) (s : hst) : hst :=
  let k := nds s n in if n_on k then set_top (n_next k) (set_nds (upd (nds s) n (Node (n_next k) (n_loc k) false (n_fixed k))) s) else s.
(** The caller protects a variable of its own that holds [b]. *)
Definition protect_var (i : nat) (b : Z) (s : hst) : hst :=
  let n := - Z.of_nat i - 1 in
  protect n (LVar i) (set_nds (upd (nds s) n (Node 0 (LVar i) false true)) (set_var (fun j => if Nat.eqb j i then b else var s j) s)).
(** calloc_full, raii.c 248-259, on the thread's scope and on the pool's scope: a block and, the first time, the protector. *)
Definition calloc1 (w : Z) (s : hst) : Z * hst :=
  let '(b, s) := new w s in
  let s := if p1 s =? 0 then let '(n, s) := new 0 s in set_p1 n s else s in
  (b, set_own1 (b :: own1 s) (protect (p1 s) (LWord b) s)).
(** calloc_full, raii.c 248-259, on the pool's scope. *)
Definition calloc2 (w : Z) (s : hst) : Z * hst :=
  let '(b, s) := new w s in
  let s := if p2 s =? 0 then let '(n, s) := new 0 s in set_p2 n s else s in
  (b, set_own2 (b :: own2 s) (protect (p2 s) (LWord b) s)).
(** raii_deferred_free with no error on the scope, raii.c 395-443: the deferred frees, the last first, then the protector. *)
Definition release (own : list Z) (p : Z) (s : hst) : out hst :=
  let* s := free_all own s in if p =? 0 then Ok s else free_ p (unprotect p s).

(** thrd_scope, future.c 203-218 (first word of the pool at the end: RAII_SPAWN and thread_count; not 0). *)
Definition p_scope (s : hst) : hst :=
  let '(b, s) := calloc2 1 s in
  let s := set_tables 0 0 (set_pool b s) in
  protect (p2 s) LRes (protect (p2 s) LFut s).
(** The tag RAII_VALUE (raii.h 30-90), first word of a result_data (is_ready false, the padding zero). *)
Definition RAII_VALUE : Z := 49.
(** *p->ptr. *)
Definition deref (l : loc) (s : hst) : out Z :=
  match l with
  | LVar i => Ok (var s i)
  | LWord b => if memb b (heap s) then Ok (word s b) else Undef UseAfterFree
  | LFut => if memb (pool_at s) (heap s) then Ok (futs s) else Undef UseAfterFree
  | LRes => if memb (pool_at s) (heap s) then Ok (ress s) else Undef UseAfterFree
  | LFrame k => match frame s with Some (j, f) => if Nat.eqb j k then Ok f else Undef UseAfterFree | None => Undef UseAfterFree end
  end.
(** The loop of ex_unwind_stack, except.c 117-129. *)
Fixpoint unwind (fuel : nat) (p temp : Z) (s : hst) : out hst :=
  match fuel with
  | O => NoFuel
  | S fuel =>
      if p =? 0 then Ok s
      else
        let n := nds s p in
        if negb (n_fixed n || memb p (heap s)) then Undef UseAfterFree
        else if negb (n_on n) then Ok s
        else
          let* v := deref (n_loc n) s in
          if temp =? v then Ok s
          else
            let* s := (if v =? 0 then Ok s else free_ v (set_nds (upd (nds s) p (Node (n_next n) (n_loc n) false (n_fixed n))) s)) in
            let* temp := deref (n_loc n) s in
            unwind fuel (n_next n) temp s
  end.
(** ex_unwind_stack, except.c 106-133, for a context that belongs to no scope and no guard (a try block of the caller). *)
Definition throw_in_try (fuel : nat) (s : hst) : out hst := let* s := unwind fuel (top s) 0 s in Ok (set_top 0 s).
(** thrd_spawn, future.c 225-228: the tables; [grow]: thread_count %% cpu_present is 0. *)
Definition grow_tables (grow : bool) (s : hst) : out hst :=
  if grow then
    let* s := free_ (futs s) s in let '(a, s) := new 0 s in
    let* s := free_ (ress s) s in let '(b, s) := new 0 s in Ok (set_tables a b s)
  else Ok s.
(** thrd_spawn, future.c 230-238: promise, future, argument block. *)
Definition make_thread (s : hst) : hst :=
  let s := snd (calloc1 1 s) in
  let '(f, s) := new 1 s in
  let s := set_frame (Some (calls s, f)) (calls s) s in
  let s := protect (p1 s) (LFrame (calls s)) s in
  snd (new 1 s).
(** The local variable f of thrd_spawn, future.c 220-250. *)
Definition frame_future (s : hst) : Z := match frame s with Some (_, f) => f | None => 0 end.
(** thrd_spawn, future.c 220-250; [ok]: thrd_create succeeded, else future_error is thrown.  The flag of the result: an exception
    is under way. *)
Definition p_spawn (fuel : nat) (grow ok : bool) (s : hst) : out (hst * bool) :=
  let* s := grow_tables grow s in
  let s := make_thread s in
  if ok then
    let s := set_threads (frame_future s :: threads s) (snd (calloc2 RAII_VALUE s)) in
    Ok (set_frame None (S (calls s)) s, false)
  else let* s := throw_in_try fuel s in Ok (set_frame None (S (calls s)) s, true).
(** thrd_sync, future.c 261-286: of each thread the first word of the result and whether it is copied; then the thread's scope. *)
Fixpoint sync_results (l : list (Z * bool)) (s : hst) : hst :=
  match l with
  | [] => s
  | (v, ext) :: l => let '(_, s) := calloc2 v s in let s := if ext : bool then snd (calloc2 v s) else s in sync_results l s
  end.
(** thrd_sync, future.c 261-286. *)
Definition p_sync (l : list (Z * bool)) (s : hst) : out hst :=
  let s := sync_results l s in
  let* s := free_all (threads s) s in
  let* s := release (own1 s) (p1 s) s in Ok (set_threads [] (set_own1 [] (set_p1 0 s))).
(** thrd_destroy, future.c 295-305. *)
Definition p_destroy (s : hst) : out hst :=
  let* s := free_ (futs s) s in let* s := free_ (ress s) s in
  let* s := release (own2 s) (p2 s) (unprotect (p2 s) s) in Ok (set_p2 0 (set_own2 [] s)).
(** A thread with a try block open and nothing protected in it. *)
Definition hinit : hst := Hst 0 (fun _ => Node 0 (LVar 0) false false) (fun _ => 0) 0 0 0 0 0 [] [] None 0 (fun _ => 0) [] [] 4096 [].

(** ** thrd_is_finish and thrd_result *)
(** thrd_is_finish, future.c 307-315; [done]: the flag of each promise. *)
Fixpoint finish_from (n : nat) (done : nat -> bool) (i : Z) (p : pool) : out bool :=
  match n with
  | O => Ok true
  | S n =>
      let* id := fetch (p_futures p) i in
      if negb (existsb (Nat.eqb id) (alive p)) then Undef UseAfterFree
      else if done id then finish_from n done (i + 1) p else Ok false
  end.
(** thrd_is_finish, future.c 307-315. *)
Definition thrd_is_finish (done : nat -> bool) (p : pool) : out bool := finish_from (Z.to_nat (thread_count p)) done 0 p.
(** thrd_result, future.c 144-149, on results[i]; Panics: logic_error is thrown. *)
Definition thrd_result (i : Z) (p : pool) : out (Z * list Z) :=
  let* r := fetch (p_results p) i in
  if is_ready r then match r_value r with Some v => Ok v | None => Undef NullDeref end else Panics.
