(** Scopes backed by an arena: src/raii.c 212-218, 237-246, 265-274 and 294-308.

    A scope is the one of DeferModel with its members [arena] and [is_arena]
    (include/raii.h 162-175); the arena lives in the memory of ArenaModel.  The
    scope itself and its array of deferred functions come from the allocator of
    DeferModel's environment, the arena and its chunks from ArenaModel's
    allocator; that both take from one address space is not modelled. *)
From Verif Require Import Base.
From Verif Require DeferModel ArenaModel.

(** memory_t, include/raii.h 162-175. *)
Record ascope := AScope { body : DeferModel.scope; arena : Z; is_arena : bool }.
(** Update of the modelled part (no counterpart in the source). *)
Definition set_body (b : DeferModel.scope) (s : ascope) : ascope := AScope b (arena s) (is_arena s).

(** unique_init_arena, raii.c 212-218, for a scope at address [a]. *)
Definition unique_init_arena (P : ArenaModel.allocator) (a stack : Z) (n : nat) (m : ArenaModel.mem) : out (ascope * ArenaModel.mem) :=
  let b := DeferModel.unique_init a stack n in                               (* 213 *)
  let* (x, m) := ArenaModel.arena_init P 0 m in                              (* 214 *)
  Ok (AScope b x true, m).                                                   (* 215 *)

(** malloc_arena, raii.c 244-246: the size_t becomes a long. *)
Definition malloc_arena (L : bool) (P : ArenaModel.allocator) (fuel : nat) (size : Z) (s : ascope) (m : ArenaModel.mem) : out (Z * ArenaModel.mem) :=
  if negb (DeferModel.live (body s)) then Undef UseAfterFree else
  ArenaModel.arena_alloc L P fuel (arena s) (s64 size) m.
(** calloc_arena, raii.c 272-274. *)
Definition calloc_arena (L : bool) (P : ArenaModel.allocator) (fuel : nat) (count size : Z) (s : ascope) (m : ArenaModel.mem) : out (Z * ArenaModel.mem) :=
  if negb (DeferModel.live (body s)) then Undef UseAfterFree else
  ArenaModel.arena_calloc L P fuel (arena s) count (s64 size) m.

(** RAII_FREE as a deferred function: some function address. *)
Definition FREE : Z := 9001.

(** malloc_by, raii.c 237-242; 0 = NULL; a failing try_malloc panics. *)
Definition malloc_by (L : bool) (P : ArenaModel.allocator) (E : DeferModel.env) (fuel : nat) (size : Z) (s : ascope) (m : ArenaModel.mem) : out (Z * (ascope * ArenaModel.mem)) :=
  if negb (DeferModel.live (body s)) then Undef UseAfterFree else
  if is_arena s then
    let* (p, m) := ArenaModel.arena_alloc L P fuel (arena s) (s64 size) m in Ok (p, (s, m))
  else
    let* (p, b) := DeferModel.malloc_full E size FREE (body s) in
    match p with Some p => Ok (p, (set_body b s, m)) | None => Panics end.

(** calloc_by, raii.c 265-270.  calloc_full differs from malloc_full in how the block is
    filled and in that the system refuses a product that does not fit size_t. *)
Definition calloc_by (L : bool) (P : ArenaModel.allocator) (E : DeferModel.env) (fuel : nat) (count size : Z) (s : ascope) (m : ArenaModel.mem) : out (Z * (ascope * ArenaModel.mem)) :=
  if negb (DeferModel.live (body s)) then Undef UseAfterFree else
  if is_arena s then
    let* (p, m) := ArenaModel.arena_calloc L P fuel (arena s) count (s64 size) m in Ok (p, (s, m))
  else
    if 18446744073709551616 <=? u64 count * size then Panics else
    let* (p, b) := DeferModel.malloc_full E (u64 count * size) FREE (body s) in
    match p with Some p => Ok (p, (set_body b s, m)) | None => Panics end.

(** What a release does, in order: the events of the scope, then the arena's blocks that were released. *)
Inductive gev := Scoped (e : DeferModel.ev) | Gone (c : Z).
(** The blocks allocated in [m] and released in [m'] (no counterpart in the source). *)
Definition is_live (m : ArenaModel.mem) (c : Z) : bool :=
  match ArenaModel.find c (ArenaModel.heap m) with Some b => ArenaModel.b_live b | None => false end.
(** The blocks released between two states (bookkeeping). *)
Definition gone (m m' : ArenaModel.mem) : list Z :=
  filter (fun c => is_live m c && negb (is_live m' c)) (nodup Z.eq_dec (map ArenaModel.b_addr (ArenaModel.heap m))).

(** free_arena, raii.c 294-308, on a scope that is not NULL. *)
Definition free_arena (L : bool) (E : DeferModel.env) (user : Z -> Z) (fuel : nat) (s : ascope) (m : ArenaModel.mem) : out (list gev * (ascope * ArenaModel.mem)) :=
  if negb (DeferModel.live (body s)) then Undef UseAfterFree else
  let a := arena s in                                                        (* 298-300 *)
  let* b := DeferModel.raii_delete E user (body s) in                        (* 302 *)
  let* m' := if a =? 0 then Ok m else ArenaModel.arena_free L fuel a m in    (* 303-304 *)
  Ok (map Scoped (DeferModel.trace b) ++ map Gone (gone m m'), (set_body b s, m')).

(** What a program does with such a scope before releasing it; [Elsewhere] is work on
    other arenas by number, as in ArenaModel. *)
Inductive sop :=
| Take (n : Z)                  (* malloc_by and malloc_arena *)
| Clear (count n : Z)           (* calloc_by and calloc_arena *)
| Owe (f d c : Z)               (* raii_deferred_any *)
| Elsewhere (o : ArenaModel.aop).
(** One operation; the address it returned, 0 if none. *)
Definition scope_step (L : bool) (P : ArenaModel.allocator) (E : DeferModel.env) (fuel : nat) (o : sop) (s : ascope) (m : ArenaModel.mem) : out (Z * (ascope * ArenaModel.mem)) :=
  match o with
  | Take n => malloc_by L P E fuel n s m
  | Clear count n => calloc_by L P E fuel count n s m
  | Owe f d c => let* (_, b) := DeferModel.raii_deferred_any E f d c (body s) in Ok (0, (set_body b s, m))
  | Elsewhere o => let* m := ArenaModel.arena_step L P fuel o m in Ok (0, (s, m))
  end.
(** A history and the addresses it returned. *)
Fixpoint scope_run (L : bool) (P : ArenaModel.allocator) (E : DeferModel.env) (fuel : nat) (l : list sop) (s : ascope) (m : ArenaModel.mem) : out (list Z * (ascope * ArenaModel.mem)) :=
  match l with
  | [] => Ok ([], (s, m))
  | o :: l' =>
      let* (p, (s, m)) := scope_step L P E fuel o s m in
      let* (ps, r) := scope_run L P E fuel l' s m in
      Ok (p :: ps, r)
  end.
