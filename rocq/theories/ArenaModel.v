(** Arenas: src/arena.c with struct arena_s of include/raii.h 627-638.

    Arenas and chunks start with the same structure (sizeof = 72, the chunk
    header takes 256 bytes: union header, arena.c 3-6, whose [slot] is the 256-byte
    union of raii.h 98-125).  Memory is the list of blocks the system allocator
    has handed out; the model keeps the structure at the start of each block and
    no other contents.  [is_global] is set to false by arena_init and by nothing
    else in the repository, so its branches (arena.c 36-37, 63-64, 73-75) are left out. *)
From Verif Require Export Base.

(** struct arena_s, raii.h 628-638, without is_global. *)
Record hdr := Hdr {
  h_type : Z; h_next : Z; h_avail : Z; h_limit : Z; h_base : Z; h_threshold : Z; h_bytes : Z; h_total : Z }.
(** sizeof( *arena) (raii.h 628-638), arena.c 18. *)
Definition HDR_SIZE : Z := 72.
(** sizeof(union header), arena.c 3-6 with the 256-byte union of raii.h 98-125. *)
Definition HEADER : Z := 256.
(** enum raii_type, raii.h 82, and RAII_ARENA + RAII_STRUCT (arena.c 26). *)
Definition RAII_ARENA : Z := 51.
(** The type arena_init stores, arena.c 26. *)
Definition ARENA_TAG : Z := 98.

(** A block of the system allocator. *)
Record block := Block { b_addr : Z; b_size : Z; b_live : bool; b_hdr : option hdr }.

(** Memory, the static variables of arena.c 8-9, the number of allocations
    asked for, the arenas created (newest last) and the blocks returned by
    arena_alloc with the arena and the size asked for (newest first). *)
Record mem := Mem {
  heap : list block; free_list : Z; num_free : Z; asked : nat; handles : list Z; given : list (Z * Z * Z) }.
(** Field updates (no counterpart in the source). *)
Definition set_heap (h : list block) (m : mem) := Mem h (free_list m) (num_free m) (asked m) (handles m) (given m).
(** Update of free_list and num_free, arena.c 8-9. *)
Definition set_free (f n : Z) (m : mem) := Mem (heap m) f n (asked m) (handles m) (given m).
(** Bookkeeping of the result of arena_init, arena.c 17-28. *)
Definition note_handle (a : Z) (m : mem) := Mem (heap m) (free_list m) (num_free m) (asked m) (handles m ++ [a]) (given m).
(** Bookkeeping of the result of arena_alloc, arena.c 47-98. *)
Definition note_given (g : Z * Z * Z) (m : mem) := Mem (heap m) (free_list m) (num_free m) (asked m) (handles m) (g :: given m).
(** Field update of struct arena_s, raii.h 628-638. *)
Definition with_type t h := Hdr t (h_next h) (h_avail h) (h_limit h) (h_base h) (h_threshold h) (h_bytes h) (h_total h).
(** Field update of struct arena_s, raii.h 628-638. *)
Definition with_next t h := Hdr (h_type h) t (h_avail h) (h_limit h) (h_base h) (h_threshold h) (h_bytes h) (h_total h).
(** Field update of struct arena_s, raii.h 628-638. *)
Definition with_avail t h := Hdr (h_type h) (h_next h) t (h_limit h) (h_base h) (h_threshold h) (h_bytes h) (h_total h).
(** Field update of struct arena_s, raii.h 628-638. *)
Definition with_limit t h := Hdr (h_type h) (h_next h) (h_avail h) t (h_base h) (h_threshold h) (h_bytes h) (h_total h).
(** Field update of struct arena_s, raii.h 628-638. *)
Definition with_base t h := Hdr (h_type h) (h_next h) (h_avail h) (h_limit h) t (h_threshold h) (h_bytes h) (h_total h).
(** Field update of struct arena_s, raii.h 628-638. *)
Definition with_bytes t h := Hdr (h_type h) (h_next h) (h_avail h) (h_limit h) (h_base h) (h_threshold h) t (h_total h).
(** Field update of struct arena_s, raii.h 628-638. *)
Definition with_total t h := Hdr (h_type h) (h_next h) (h_avail h) (h_limit h) (h_base h) (h_threshold h) (h_bytes h) t.

(** The newest block at an address. *)
Fixpoint find (a : Z) (l : list block) : option block :=
  match l with
  | [] => None
  | b :: l' => if b_addr b =? a then Some b else find a l'
  end.
(** Update of the newest block at an address (no counterpart in the source). *)
Fixpoint put (a : Z) (f : block -> block) (l : list block) : list block :=
  match l with
  | [] => []
  | b :: l' => if b_addr b =? a then f b :: l' else b :: put a f l'
  end.

(** Reading and writing the structure at address [a]: *a of arena.c.  With
    [lenient] a released block still holds what it held (what happens on the
    machine until the allocator reuses it); otherwise it is undefined. *)
Definition load (lenient : bool) (a : Z) (m : mem) : out hdr :=
  if a =? 0 then Undef NullDeref else
  match find a (heap m) with
  | None => Undef WildPointer
  | Some b => if negb (b_live b || lenient) then Undef UseAfterFree
              else if b_size b <? HDR_SIZE then Undef OobRead
              else match b_hdr b with None => Undef UninitRead | Some h => Ok h end
  end.
(** A store to *a, as [load] above; arena.c 84. *)
Definition store (lenient : bool) (a : Z) (h : hdr) (m : mem) : out mem :=
  if a =? 0 then Undef NullDeref else
  match find a (heap m) with
  | None => Undef WildPointer
  | Some b => if negb (b_live b || lenient) then Undef UseAfterFree
              else if b_size b <? HDR_SIZE then Undef OobWrite
              else Ok (set_heap (put a (fun b => Block (b_addr b) (b_size b) (b_live b) (Some h)) (heap m)) m)
  end.
(** A store to some members. *)
Definition modify (lenient : bool) (a : Z) (f : hdr -> hdr) (m : mem) : out mem :=
  let* h := load lenient a m in store lenient a (f h) m.

(** RAII_MALLOC (include/exception.h 40): [place k heap n] is the k-th answer, 0 = NULL. *)
Definition allocator := nat -> list block -> Z -> Z.
(** RAII_MALLOC, include/exception.h 40, called in arena.c 18 and 66. *)
Definition raii_malloc (P : allocator) (n : Z) (m : mem) : Z * mem :=
  let a := P (asked m) (heap m) n in
  let m1 := Mem (heap m) (free_list m) (num_free m) (S (asked m)) (handles m) (given m) in
  if a =? 0 then (0, m1) else (a, set_heap (Block a n true None :: heap m1) m1).
(** RAII_FREE (include/exception.h 41). *)
Definition raii_free (a : Z) (m : mem) : out mem :=
  if a =? 0 then Ok m else
  match find a (heap m) with
  | None => Undef WildPointer
  | Some b => if b_live b
              then Ok (set_heap (put a (fun b => Block (b_addr b) (b_size b) false (b_hdr b)) (heap m)) m)
              else Undef DoubleFree
  end.

(** align_up(num, 2), include/rtypes.h 91, in size_t. *)
Definition align2 (x : Z) : Z := Z.land (u64 (x + 1)) 18446744073709551614.

(** arena_init, arena.c 17-28 (try_malloc panics). *)
Definition arena_init (P : allocator) (threshold : Z) (m : mem) : out (Z * mem) :=
  let (a, m1) := raii_malloc P HDR_SIZE m in
  if a =? 0 then Panics else
  let* m2 := store false a (Hdr ARENA_TAG 0 0 0 0 (if threshold <=? 0 then 10 else threshold) 0 0) m1 in
  Ok (a, note_handle a m2).

(** arena.c 53: nbytes > arena->limit - arena->avail. *)
Definition short_of (h : hdr) (nbytes : Z) : bool := s64 (h_limit h - h_avail h) <? nbytes.

(** One turn of the loop of arena.c 53-89; the boolean is false for [return NULL] of line 70. *)
Definition grow (L : bool) (P : allocator) (a nbytes : Z) (m : mem) : out (bool * mem) :=
  let* (ptr, (limit, m)) :=
    if negb (free_list m =? 0) then                                          (* 56-59 *)
      let ptr := free_list m in
      let* hp := load L ptr m in
      Ok (ptr, (h_limit hp, set_free (h_next hp) (num_free m - 1) m))
    else                                                                     (* 61-81 *)
      let* h := load L a m in
      let mm := s64 (align2 (u64 (HEADER + nbytes + h_threshold h * 1024))) in
      let total := u64 (h_total h + mm) in
      let* m := modify L a (with_total total) m in
      let (ptr, m) := raii_malloc P total m in
      if ptr =? 0 then Ok (0, (0, m)) else
      let* m := if h_base h =? 0 then modify L a (with_base ptr) m else Ok m in
      Ok (ptr, (u64 (ptr + total), m)) in
  if ptr =? 0 then Ok (false, m) else
  let* h := load L a m in                                                    (* 84 *)
  let* m := store L ptr h m in
  let* m := modify L a (fun h => with_next ptr (with_limit limit (with_avail (u64 (ptr + HEADER)) h))) m in   (* 85-87 *)
  let* m := modify L ptr (with_type RAII_ARENA) m in                         (* 88 *)
  Ok (true, m).
(** The loop of arena.c 53-89; out of fuel is distinct. *)
Fixpoint grow_loop (L : bool) (P : allocator) (fuel : nat) (a nbytes : Z) (m : mem) : out (bool * mem) :=
  let* h := load L a m in
  if short_of h nbytes then
    match fuel with
    | O => NoFuel
    | Datatypes.S fuel' =>
        let* (go, m) := grow L P a nbytes m in
        if go then grow_loop L P fuel' a nbytes m else Ok (false, m)
    end
  else Ok (true, m).

(** arena_alloc, arena.c 47-98; 0 is NULL.  The assertion of line 51 is empty in
    this build. *)
Definition arena_alloc (L : bool) (P : allocator) (fuel : nat) (a n : Z) (m : mem) : out (Z * mem) :=
  if a =? 0 then Panics else                                                 (* 48-49 *)
  let nbytes := s64 (align2 (u64 n)) in                                      (* 52 *)
  let* (ok, m) := grow_loop L P fuel a nbytes m in
  if negb ok then Ok (0, m) else
  let* h := load L a m in
  let* m := if h_next h =? 0 then Ok m else modify L (h_next h) (with_bytes (h_bytes h)) m in   (* 91-92 *)
  let* m := modify L a (fun h => with_avail (u64 (h_avail h + nbytes)) (with_bytes (u64 nbytes) h)) m in   (* 94-95 *)
  let p := h_avail h in                                                      (* 97 *)
  Ok (p, if p =? 0 then m else note_given (a, p, n) m).

(** arena_calloc, arena.c 100-105; the product is a signed one and the memset takes it as size_t. *)
Definition arena_calloc (L : bool) (P : allocator) (fuel : nat) (a count n : Z) (m : mem) : out (Z * mem) :=
  if negb ((-9223372036854775808 <=? count * n) && (count * n <? 9223372036854775808)) then Undef SignedOverflow else
  let* (p, m) := arena_alloc L P fuel a (count * n) m in                     (* 102 *)
  if p =? 0 then Undef NullDeref                                             (* 103 *)
  else if count * n <? 0 then Undef OobWrite else Ok (p, m).

(** int arithmetic on num_free (arena.c 9, 35, 116). *)
Definition add_int (x y : Z) : out Z :=
  if (-2147483648 <=? x + y) && (x + y <? 2147483648) then Ok (x + y) else Undef SignedOverflow.

(** arena_clear, arena.c 107-130; [a] is the local variable arena, not NULL. *)
Fixpoint clear_loop (L : bool) (fuel : nat) (a : Z) (m : mem) : out mem :=
  let* h := load L a m in                                                    (* 111: arena->next *)
  if h_next h =? 0 then Ok m else
  let* hn := load L (h_next h) m in                                          (* 111: its type *)
  if negb (h_type hn =? RAII_ARENA) then Ok m else
  match fuel with
  | O => NoFuel
  | Datatypes.S fuel' =>
      let tmp := h_next h in                                                 (* 112 *)
      let* m :=
        if num_free m <? s32 (h_threshold h) then
          let* m := modify L tmp (with_next (free_list m)) m in              (* 114 *)
          let* nf := add_int (num_free m) 1 in
          let m := set_free tmp nf m in                                      (* 115-116 *)
          let* h := load L a m in
          let* m := modify L tmp (with_limit (h_limit h)) m in               (* 117 *)
          let* hf := load L tmp m in
          let* h := load L a m in
          modify L a (with_avail (u64 (h_avail h - (if h_bytes hf =? 0 then h_bytes h else h_bytes hf)))) m   (* 118-121 *)
        else
          let* m := modify L tmp (with_type 4294967295) m in                 (* 123: the first 8 bytes *)
          let* m := raii_free tmp m in                                       (* 124 *)
          modify L a (with_next 0) m in                                      (* 125 *)
      clear_loop L fuel' tmp m
  end.
(** arena_clear, arena.c 107-134. *)
Definition arena_clear (L : bool) (fuel : nat) (a : Z) (m : mem) : out mem :=
  if a =? 0 then Ok m else clear_loop L fuel a m.

(** arena_free, arena.c 30-45. *)
Definition arena_free (L : bool) (fuel : nat) (a : Z) (m : mem) : out mem :=
  if a =? 0 then Ok m else
  let* h := load L a m in
  if negb (h_type h =? ARENA_TAG) then Ok m else
  let* t := add_int (s32 (h_threshold h)) 1 in                               (* 35 *)
  let* nf := add_int (num_free m) t in
  let m := set_free (free_list m) nf m in
  let* m := arena_clear L fuel a m in                                        (* 39 *)
  let* m := modify L a (with_type 4294967295) m in                           (* 41: memset of 8 bytes *)
  raii_free a m.                                                             (* 42 *)

(** arena_capacity and arena_total, arena.c 136-146. *)
Definition arena_capacity (L : bool) (a : Z) (m : mem) : out Z :=
  if a =? 0 then Ok 0 else
  let* h := load L a m in
  Ok (if h_type h =? ARENA_TAG then u64 (s64 (h_limit h - h_avail h)) else 0).
(** arena_total, arena.c 142-146. *)
Definition arena_total (L : bool) (a : Z) (m : mem) : out Z :=
  if a =? 0 then Ok 0 else
  let* h := load L a m in
  Ok (if h_type h =? ARENA_TAG then Z.max (h_total h) HEADER - HEADER else 0).

(** Histories: the k-th arena created is meant by its number k (NULL when there is none). *)
Inductive aop := AInit (threshold : Z) | AAlloc (k : nat) (n : Z) | AClear (k : nat) | AFree (k : nat).
(** Calls of arena.c 17-134 in sequence (the caller, no counterpart in the source). *)
Definition arena_step (L : bool) (P : allocator) (fuel : nat) (o : aop) (m : mem) : out mem :=
  match o with
  | AInit t => let* (a, m) := arena_init P t m in Ok m
  | AAlloc k n => let* (p, m) := arena_alloc L P fuel (nth k (handles m) 0) n m in Ok m
  | AClear k => arena_clear L fuel (nth k (handles m) 0) m
  | AFree k => arena_free L fuel (nth k (handles m) 0) m
  end.
(** Calls of arena.c 17-134 in sequence (the caller, no counterpart in the source). *)
Fixpoint arena_run (L : bool) (P : allocator) (fuel : nat) (l : list aop) (m : mem) : out mem :=
  match l with
  | [] => Ok m
  | o :: l' => let* m := arena_step L P fuel o m in arena_run L P fuel l' m
  end.
(** Program start, arena.c 8-9. *)
Definition arena_start : mem := Mem [] 0 0 0 [] [].
