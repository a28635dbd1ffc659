(** The list macros of include/compat/sys/queue.h 84-534 (singly-linked lists, lists, simple queues, XOR simple queues, tail queues).

    A pointer-sized cell of memory is known by its address.  [F]: offset of [field] in the element's type; the head starts at its address.
    Simplified: cells are read and written as wholes; QUEUE_MACRO_DEBUG is off, so _Q_INVALIDATE does nothing (lines 84-89). *)
From Verif Require Export Base.

(** Memory: what each allocated cell holds. *)
Definition mem := Z -> option Z.
(** A cell is changed (no counterpart in the source). *)
Definition upd (m : mem) (a v : Z) : mem := fun c => if c =? a then Some v else m c.
(** *p. *)
Definition ld (a : Z) (m : mem) : out Z := match m a with Some v => Ok v | None => Undef (if a =? 0 then NullDeref else WildPointer) end.
(** *p = v. *)
Definition st (a v : Z) (m : mem) : out mem := match m a with Some _ => Ok (upd m a v) | None => Undef (if a =? 0 then NullDeref else WildPointer) end.
(** e->f, f at offset [o]. *)
Definition fld (e o : Z) : out Z := if e =? 0 then Undef NullDeref else Ok (e + o).
(** e->f read. *)
Definition get (e o : Z) (m : mem) : out Z := let* a := fld e o in ld a m.
(** e->f = v. *)
Definition set (e o v : Z) (m : mem) : out mem := let* a := fld e o in st a v m.

Section Field.
Variable F : Z.

(** ** Singly-linked lists *)
(** SLIST_FIRST, LIST_FIRST, SIMPLEQ_FIRST, TAILQ_FIRST: queue.h 110, 184, 267, 428. *)
Definition first (h : Z) (m : mem) : out Z := get h 0 m.
(** SLIST_NEXT, LIST_NEXT, SIMPLEQ_NEXT, TAILQ_NEXT: queue.h 113, 187, 270, 430. *)
Definition next (e : Z) (m : mem) : out Z := get e F m.
(** SLIST_EMPTY, LIST_EMPTY, SIMPLEQ_EMPTY, TAILQ_EMPTY: queue.h 112, 186, 269, 436. *)
Definition empty (h : Z) (m : mem) : out bool := let* v := first h m in Ok (v =? 0).
(** SLIST_INIT, LIST_INIT: queue.h 128-130, 202-204. *)
Definition slist_init (h : Z) (m : mem) : out mem := set h 0 0 m.
(** SLIST_INSERT_AFTER, queue.h 132-135. *)
Definition slist_insert_after (le e : Z) (m : mem) : out mem := let* n := get le F m in let* m := set e F n m in set le F e m.
(** SLIST_INSERT_HEAD, queue.h 137-140. *)
Definition slist_insert_head (h e : Z) (m : mem) : out mem := let* n := get h 0 m in let* m := set e F n m in set h 0 e m.
(** SLIST_REMOVE_AFTER, queue.h 142-144. *)
Definition slist_remove_after (e : Z) (m : mem) : out mem := let* n := get e F m in let* nn := get n F m in set e F nn m.
(** SLIST_REMOVE_HEAD, queue.h 146-148. *)
Definition slist_remove_head (h : Z) (m : mem) : out mem := let* n := get h 0 m in let* nn := get n F m in set h 0 nn m.
(** The loop of SLIST_REMOVE, queue.h 156-157. *)
Fixpoint slist_find (fuel : nat) (cur e : Z) (m : mem) : out Z :=
  match fuel with
  | O => NoFuel
  | S fuel => let* n := get cur F m in if n =? e then Ok cur else let* n := get cur F m in slist_find fuel n e m
  end.
(** SLIST_REMOVE, queue.h 150-162. *)
Definition slist_remove (fuel : nat) (h e : Z) (m : mem) : out mem :=
  let* f := get h 0 m in
  if f =? e then slist_remove_head h m
  else let* cur := slist_find fuel f e m in let* n := get cur F m in let* nn := get n F m in set cur F nn m.

(** ** Lists *)
(** LIST_INSERT_AFTER, queue.h 206-212. *)
Definition list_insert_after (le e : Z) (m : mem) : out mem :=
  let* n := get le F m in let* m := set e F n m in
  let* m := (if n =? 0 then Ok m else let* n := get le F m in set n (F + 8) (e + F) m) in
  let* m := set le F e m in set e (F + 8) (le + F) m.
(** LIST_INSERT_BEFORE and TAILQ_INSERT_BEFORE, queue.h 214-219 and 497-502. *)
Definition insert_before (le e : Z) (m : mem) : out mem :=
  let* p := get le (F + 8) m in let* m := set e (F + 8) p m in
  let* m := set e F le m in
  let* p := get le (F + 8) m in let* m := st p e m in
  set le (F + 8) (e + F) m.
(** LIST_INSERT_HEAD, queue.h 221-226. *)
Definition list_insert_head (h e : Z) (m : mem) : out mem :=
  let* n := get h 0 m in let* m := set e F n m in
  let* m := (if n =? 0 then Ok m else let* n := get h 0 m in set n (F + 8) (e + F) m) in
  let* m := set h 0 e m in set e (F + 8) h m.
(** LIST_REMOVE, queue.h 228-235. *)
Definition list_remove (e : Z) (m : mem) : out mem :=
  let* n := get e F m in
  let* m := (if n =? 0 then Ok m else let* n := get e F m in let* p := get e (F + 8) m in set n (F + 8) p m) in
  let* p := get e (F + 8) m in let* n := get e F m in st p n m.
(** LIST_REPLACE, queue.h 237-245. *)
Definition list_replace (e e2 : Z) (m : mem) : out mem :=
  let* n := get e F m in let* m := set e2 F n m in
  let* m := (if n =? 0 then Ok m else let* n := get e2 F m in set n (F + 8) (e2 + F) m) in
  let* p := get e (F + 8) m in let* m := set e2 (F + 8) p m in
  let* p := get e2 (F + 8) m in st p e2 m.

(** ** Simple queues *)
(** SIMPLEQ_INIT and TAILQ_INIT, queue.h 285-288 and 465-468. *)
Definition simpleq_init (h : Z) (m : mem) : out mem := let* m := set h 0 0 m in set h 8 h m.
(** SIMPLEQ_INSERT_HEAD, queue.h 290-294. *)
Definition simpleq_insert_head (h e : Z) (m : mem) : out mem :=
  let* n := get h 0 m in let* m := set e F n m in
  let* m := (if n =? 0 then set h 8 (e + F) m else Ok m) in set h 0 e m.
(** SIMPLEQ_INSERT_TAIL, queue.h 296-300. *)
Definition simpleq_insert_tail (h e : Z) (m : mem) : out mem :=
  let* m := set e F 0 m in
  let* l := get h 8 m in let* m := st l e m in
  set h 8 (e + F) m.
(** SIMPLEQ_INSERT_AFTER, queue.h 302-306. *)
Definition simpleq_insert_after (h le e : Z) (m : mem) : out mem :=
  let* n := get le F m in let* m := set e F n m in
  let* m := (if n =? 0 then set h 8 (e + F) m else Ok m) in set le F e m.
(** SIMPLEQ_REMOVE_HEAD, queue.h 308-311. *)
Definition simpleq_remove_head (h : Z) (m : mem) : out mem :=
  let* n := get h 0 m in let* nn := get n F m in let* m := set h 0 nn m in
  if nn =? 0 then set h 8 h m else Ok m.
(** SIMPLEQ_REMOVE_AFTER, queue.h 313-317. *)
Definition simpleq_remove_after (h e : Z) (m : mem) : out mem :=
  let* n := get e F m in let* nn := get n F m in let* m := set e F nn m in
  if nn =? 0 then set h 8 (e + F) m else Ok m.
(** SIMPLEQ_CONCAT, queue.h 319-325. *)
Definition simpleq_concat (h1 h2 : Z) (m : mem) : out mem :=
  let* b := empty h2 m in
  if b : bool then Ok m
  else
    let* f := get h2 0 m in let* l := get h1 8 m in let* m := st l f m in
    let* l := get h2 8 m in let* m := set h1 8 l m in
    simpleq_init h2 m.

(** ** XOR simple queues *)
(** XSIMPLEQ_XOR, queue.h 345-346; [w]: bits of unsigned long (64 where longs are as wide as pointers, 32 on 64-bit Windows). *)
Definition xor (w h p : Z) (m : mem) : out Z := let* c := get h 16 m in Ok (Z.lxor c (p mod 2 ^ w)).
(** XSIMPLEQ_FIRST, queue.h 347. *)
Definition x_first (w h : Z) (m : mem) : out Z := let* p := get h 0 m in xor w h p m.
(** XSIMPLEQ_NEXT, queue.h 350. *)
Definition x_next (w h e : Z) (m : mem) : out Z := let* p := get e F m in xor w h p m.
(** XSIMPLEQ_EMPTY, queue.h 349. *)
Definition x_empty (w h : Z) (m : mem) : out bool := let* p := x_first w h m in Ok (p =? 0).
(** XSIMPLEQ_INIT, queue.h 366-370; [c]: what arc4random_buf gives. *)
Definition x_init (w c h : Z) (m : mem) : out mem :=
  let* m := set h 16 c m in
  let* z := xor w h 0 m in let* m := set h 0 z m in
  let* l := xor w h h m in set h 8 l m.
(** XSIMPLEQ_INSERT_HEAD, queue.h 372-377. *)
Definition x_insert_head (w h e : Z) (m : mem) : out mem :=
  let* n := get h 0 m in let* m := set e F n m in
  let* z := xor w h 0 m in
  let* m := (if n =? z then let* l := xor w h (e + F) m in set h 8 l m else Ok m) in
  let* x := xor w h e m in set h 0 x m.
(** XSIMPLEQ_INSERT_TAIL, queue.h 379-383. *)
Definition x_insert_tail (w h e : Z) (m : mem) : out mem :=
  let* z := xor w h 0 m in let* m := set e F z m in
  let* l := get h 8 m in let* l := xor w h l m in let* x := xor w h e m in let* m := st l x m in
  let* l := xor w h (e + F) m in set h 8 l m.
(** XSIMPLEQ_INSERT_AFTER, queue.h 385-390. *)
Definition x_insert_after (w h le e : Z) (m : mem) : out mem :=
  let* n := get le F m in let* m := set e F n m in
  let* z := xor w h 0 m in
  let* m := (if n =? z then let* l := xor w h (e + F) m in set h 8 l m else Ok m) in
  let* x := xor w h e m in set le F x m.
(** XSIMPLEQ_REMOVE_HEAD, queue.h 392-396. *)
Definition x_remove_head (w h : Z) (m : mem) : out mem :=
  let* f := get h 0 m in let* n := xor w h f m in let* nn := get n F m in let* m := set h 0 nn m in
  let* z := xor w h 0 m in
  if nn =? z then let* l := xor w h h m in set h 8 l m else Ok m.
(** XSIMPLEQ_REMOVE_AFTER, queue.h 398-404. *)
Definition x_remove_after (w h e : Z) (m : mem) : out mem :=
  let* f := get e F m in let* n := xor w h f m in let* nn := get n F m in let* m := set e F nn m in
  let* z := xor w h 0 m in
  if nn =? z then let* l := xor w h (e + F) m in set h 8 l m else Ok m.

(** ** Tail queues *)
(** TAILQ_LAST, queue.h 431-432: the address of the last next cell is read as that of a head. *)
Definition tailq_last (h : Z) (m : mem) : out Z := let* l := get h 8 m in let* p := get l 8 m in ld p m.
(** TAILQ_PREV, queue.h 434-435. *)
Definition tailq_prev (e : Z) (m : mem) : out Z := let* l := get e (F + 8) m in let* p := get l 8 m in ld p m.
(** TAILQ_INSERT_HEAD, queue.h 470-478. *)
Definition tailq_insert_head (h e : Z) (m : mem) : out mem :=
  let* n := get h 0 m in let* m := set e F n m in
  let* m := (if n =? 0 then set h 8 (e + F) m else let* n := get h 0 m in set n (F + 8) (e + F) m) in
  let* m := set h 0 e m in set e (F + 8) h m.
(** TAILQ_INSERT_TAIL, queue.h 480-485. *)
Definition tailq_insert_tail (h e : Z) (m : mem) : out mem :=
  let* m := set e F 0 m in
  let* l := get h 8 m in let* m := set e (F + 8) l m in
  let* l := get h 8 m in let* m := st l e m in
  set h 8 (e + F) m.
(** TAILQ_INSERT_AFTER, queue.h 487-495. *)
Definition tailq_insert_after (h le e : Z) (m : mem) : out mem :=
  let* n := get le F m in let* m := set e F n m in
  let* m := (if n =? 0 then set h 8 (e + F) m else let* n := get e F m in set n (F + 8) (e + F) m) in
  let* m := set le F e m in set e (F + 8) (le + F) m.
(** TAILQ_REMOVE, queue.h 504-513. *)
Definition tailq_remove (h e : Z) (m : mem) : out mem :=
  let* n := get e F m in
  let* m := (if n =? 0 then let* p := get e (F + 8) m in set h 8 p m
             else let* n := get e F m in let* p := get e (F + 8) m in set n (F + 8) p m) in
  let* p := get e (F + 8) m in let* n := get e F m in st p n m.
(** TAILQ_REPLACE, queue.h 515-525. *)
Definition tailq_replace (h e e2 : Z) (m : mem) : out mem :=
  let* n := get e F m in let* m := set e2 F n m in
  let* m := (if n =? 0 then set h 8 (e2 + F) m else let* n := get e2 F m in set n (F + 8) (e2 + F) m) in
  let* p := get e (F + 8) m in let* m := set e2 (F + 8) p m in
  let* p := get e2 (F + 8) m in st p e2 m.
(** TAILQ_CONCAT, queue.h 527-534. *)
Definition tailq_concat (h1 h2 : Z) (m : mem) : out mem :=
  let* b := empty h2 m in
  if b : bool then Ok m
  else
    let* f := get h2 0 m in let* l := get h1 8 m in let* m := st l f m in
    let* f := get h2 0 m in let* l := get h1 8 m in let* m := set f (F + 8) l m in
    let* l := get h2 8 m in let* m := set h1 8 l m in
    simpleq_init h2 m.

(** ** Loops *)
(** The loop of SLIST_FOREACH, LIST_FOREACH, SIMPLEQ_FOREACH, TAILQ_FOREACH (queue.h 115-118, 189-192, 272-275, 439-442) with [nx] for the
    NEXT macro, and of XSIMPLEQ_FOREACH and TAILQ_FOREACH_REVERSE (353-356, 451-454) with theirs: the values of var, one after the other. *)
Fixpoint visit (fuel : nat) (nx : Z -> mem -> out Z) (var : Z) (m : mem) : out (list Z) :=
  match fuel with
  | O => NoFuel
  | S fuel => if var =? 0 then Ok [] else let* n := nx var m in let* l := visit fuel nx n m in Ok (var :: l)
  end.
(** SLIST_FOREACH, LIST_FOREACH, SIMPLEQ_FOREACH, TAILQ_FOREACH. *)
Definition foreach (fuel : nat) (h : Z) (m : mem) : out (list Z) := let* v := first h m in visit fuel next v m.
(** XSIMPLEQ_FOREACH, queue.h 353-356. *)
Definition x_foreach (fuel : nat) (w h : Z) (m : mem) : out (list Z) := let* v := x_first w h m in visit fuel (x_next w h) v m.
(** TAILQ_FOREACH_REVERSE, queue.h 451-454. *)
Definition foreach_reverse (fuel : nat) (h : Z) (m : mem) : out (list Z) := let* v := tailq_last h m in visit fuel tailq_prev v m.
(** The _SAFE loops, queue.h 120-123, 194-197, 277-280, 358-361, 444-448, 456-460: the successor is read before the body runs; [body]: the loop's body. *)
Fixpoint visit_safe (fuel : nat) (nx : Z -> mem -> out Z) (body : Z -> mem -> out mem) (var : Z) (m : mem) : out (list Z * mem) :=
  match fuel with
  | O => NoFuel
  | S fuel =>
      if var =? 0 then Ok ([], m)
      else let* t := nx var m in let* m := body var m in let* (l, m) := visit_safe fuel nx body t m in Ok (var :: l, m)
  end.
(** SLIST_FOREACH_SAFE, LIST_FOREACH_SAFE, SIMPLEQ_FOREACH_SAFE, TAILQ_FOREACH_SAFE. *)
Definition foreach_safe (fuel : nat) (body : Z -> mem -> out mem) (h : Z) (m : mem) : out (list Z * mem) := let* v := first h m in visit_safe fuel next body v m.
(** TAILQ_FOREACH_REVERSE_SAFE, queue.h 456-460. *)
Definition foreach_reverse_safe (fuel : nat) (body : Z -> mem -> out mem) (h : Z) (m : mem) : out (list Z * mem) :=
  let* v := tailq_last h m in visit_safe fuel tailq_prev body v m.
(** A plain loop (queue.h 115-118, 189-192, 272-275, 439-442) with a body: the successor is read after the body ran. *)
Fixpoint visit_with (fuel : nat) (nx : Z -> mem -> out Z) (body : Z -> mem -> out mem) (var : Z) (m : mem) : out (list Z * mem) :=
  match fuel with
  | O => NoFuel
  | S fuel =>
      if var =? 0 then Ok ([], m)
      else let* m := body var m in let* n := nx var m in let* (l, m) := visit_with fuel nx body n m in Ok (var :: l, m)
  end.
(** SLIST_FOREACH, LIST_FOREACH, SIMPLEQ_FOREACH, TAILQ_FOREACH with a body. *)
Definition foreach_with (fuel : nat) (body : Z -> mem -> out mem) (h : Z) (m : mem) : out (list Z * mem) := let* v := first h m in visit_with fuel next body v m.
(** free(e): the cells of the element's field are no longer allocated (stdlib); [dbl]: the field has a prev pointer. *)
Definition release (dbl : bool) (e : Z) (m : mem) : mem := fun c => if (c =? e + F) || (dbl && (c =? e + (F + 8))) then None else m c.
(** A loop's body that removes with [rm] and frees the elements for which [P] holds (no counterpart in the source). *)
Definition drop (dbl : bool) (rm : Z -> mem -> out mem) (P : Z -> bool) (e : Z) (m : mem) : out mem :=
  if P e then let* m := rm e m in Ok (release dbl e m) else Ok m.
End Field.
