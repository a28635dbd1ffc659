(** Who owns the memory when a request fails: the functions of src/raii.c, src/future.c and src/arena.c that make more than one request to
    the allocator.  Only the blocks are modelled, by number; their contents are the business of the other models.
    A scope owns the blocks registered with RAII_FREE, its protector and its array of deferred functions. *)
From Verif Require Export BaseLemmas.

(** The allocator: requests made so far, the next block, the blocks not released. *)
Record heap := Heap { asked : nat; fresh : Z; live : list Z }.
(** What a scope holds (memory_t, include/raii.h 162-175): data of the functions deferred with RAII_FREE, protector, base and elements of
    the array of deferred functions. *)
Record hold := Hold { kept : list Z; shield : option Z; table : option Z; entries : nat }.
(** unique_init, src/raii.c 200-210, and raii_init, 103-116: nothing yet. *)
Definition bare : hold := Hold [] None None 0.
(** A call returns, or leaves by raii_panic or throw; what it left in the heap and in the scope it works on. *)
Inductive left A := Done (a : A) (c : hold) (h : heap) | Thrown (c : hold) (h : heap).
Arguments Done {A}. Arguments Thrown {A}.

(** A request to the allocator; [F n]: the n-th request fails. *)
Definition ask (F : nat -> bool) (h : heap) : option Z * heap :=
  if F (asked h) then (None, Heap (S (asked h)) (fresh h) (live h))
  else (Some (fresh h), Heap (S (asked h)) (fresh h + 1) (fresh h :: live h)).
(** RAII_FREE. *)
Definition drop (b : Z) (h : heap) : heap := Heap (asked h) (fresh h) (remove Z.eq_dec b (live h)).
(** try_malloc and try_calloc, src/raii.c 139-157. *)
Definition try_malloc {A} (F : nat -> bool) (c : hold) (h : heap) (k : Z -> hold -> heap -> left A) : left A :=
  match ask F h with (None, h) => Thrown c h | (Some b, h) => k b c h end.

(** raii_deferred(scope, RAII_FREE, b), src/raii.c 449-469, with raii_array_append, 67-85: the array grows by 16 when it is full (realloc is
    modelled as always moving the block; staying in place changes no ownership); a request
    that fails is reported by the index only. *)
Definition register (F : nat -> bool) (b : Z) (c : hold) (h : heap) : hold * heap :=
  if (entries c mod 16 =? 0)%nat then
    match ask F h with
    | (None, h) => (c, h)
    | (Some t, h) => (Hold (b :: kept c) (shield c) (Some t) (S (entries c)), match table c with None => h | Some o => drop o h end)
    end
  else (Hold (b :: kept c) (shield c) (table c) (S (entries c)), h).
(** malloc_full and calloc_full with RAII_FREE, src/raii.c 220-231 and 248-259. *)
Definition malloc_full (F : nat -> bool) (c : hold) (h : heap) : left Z :=
  try_malloc F c h (fun b c h =>
    let go c h := let '(c, h) := register F b c h in Done b c h in
    match shield c with
    | Some _ => go c h
    | None => try_malloc F c h (fun p c h => go (Hold (kept c) (Some p) (table c) (entries c)) h)
    end).
(** raii_deferred_free, src/raii.c 395-443: the functions, the protector, the array. *)
Definition release (c : hold) (h : heap) : heap :=
  let h := fold_left (fun h b => drop b h) (kept c) h in
  let h := match shield c with None => h | Some p => drop p h end in
  match table c with None => h | Some t => drop t h end.

(** [k] calls of _malloc or malloc_default in a row; a failing one leaves by raii_panic. *)
Fixpoint mallocs (F : nat -> bool) (k : nat) (c : hold) (h : heap) : left (list Z) :=
  match k with
  | O => Done [] c h
  | S k => match malloc_full F c h with
           | Thrown c h => Thrown c h
           | Done b c h => match mallocs F k c h with Thrown c h => Thrown c h | Done l c h => Done (b :: l) c h end
           end
  end.
(** The blocks left after the scope was released, whichever way the calls ended. *)
Definition remains {A} (r : left A) : list Z := match r with Done _ c h => live (release c h) | Thrown c h => live (release c h) end.

(** unique_init_arena, src/raii.c 212-218, with arena_init, src/arena.c 17-28: the new scope and its arena; [c] is the scope of the caller. *)
Definition unique_init_arena (F : nat -> bool) (c : hold) (h : heap) : left (Z * Z) :=
  try_malloc F c h (fun u c h => try_malloc F c h (fun a c h => Done (u, a) c h)).
(** raii_args_ex, src/raii.c 593-599: the pack and its slots. *)
Definition raii_args (F : nat -> bool) (c : hold) (h : heap) : left (Z * Z) :=
  try_malloc F c h (fun p c h => try_malloc F c h (fun a c h => Done (p, a) c h)).
(** thrd_async, src/future.c 93-109, with promise_create, 13-21, and future_create, 55-61; [c]: the scope of the thread; [starts]: thrd_create
    succeeds.  The result: promise, future and the block for the new thread. *)
Definition thrd_async (F : nat -> bool) (starts : bool) (c : hold) (h : heap) : left (Z * Z * Z) :=
  match malloc_full F c h with
  | Thrown c h => Thrown c h
  | Done p c h => try_malloc F c h (fun f c h => try_malloc F c h (fun g c h => if starts then Done (p, f, g) c h else Thrown c h))
  end.
(** thrd_scope, src/future.c 203-218: a scope of its own, in which the pool is allocated; [c]: the scope of the thread.  The result: the new
    scope's block, the pool, and what the new scope holds. *)
Definition thrd_scope (F : nat -> bool) (c : hold) (h : heap) : left (Z * Z * hold) :=
  try_malloc F c h (fun u c h =>
    match malloc_full F bare h with
    | Thrown _ h => Thrown c h
    | Done p n h => Done (u, p, n) c h
    end).
(** raii_array_new, src/raii.c 322-327: the function registered is raii_array_free, 314-320, which releases the array's base and clears the
    structure but does not release the structure. *)
Definition raii_array_new (F : nat -> bool) (c : hold) (h : heap) : left Z :=
  try_malloc F c h (fun b c h =>
    let go c h :=
      if (entries c mod 16 =? 0)%nat then
        match ask F h with
        | (None, h) => Done b c h
        | (Some t, h) => Done b (Hold (kept c) (shield c) (Some t) (S (entries c))) (match table c with None => h | Some o => drop o h end)
        end
      else Done b (Hold (kept c) (shield c) (table c) (S (entries c))) h in
    match shield c with
    | Some _ => go c h
    | None => try_malloc F c h (fun p c h => go (Hold (kept c) (Some p) (table c) (entries c)) h)
    end).
