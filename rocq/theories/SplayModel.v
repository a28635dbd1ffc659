(** The splay tree macros of include/compat/sys/tree.h 59-290.

    Simplified: the two fields of an element's SPLAY_ENTRY (71-75) are found by the element's address, so two entries never overlap; the local
    structure __node (207, 244) has the address -1, which no element has.  [cmp] is the user's comparison, which reads both elements.
    [ticks] is not in the header: it counts the rounds of all loops, to state what they cost. *)
From Verif Require Export Base.

(** SPLAY_HEAD (tree.h 59-62), the elements in memory and their SPLAY_ENTRYs (71-75). *)
Record smem := Smem { sroot : Z; alive : Z -> bool; lefts : Z -> Z; rights : Z -> Z; ticks : nat }.
(** &__node, tree.h 207 and 244. *)
Definition NODE : Z := -1.
(** The element is there, as (elm)->field in tree.h 77-78 needs. *)
Definition there (e : Z) (m : smem) : out unit := if e =? 0 then Undef NullDeref else if alive m e then Ok tt else Undef WildPointer.
(** SPLAY_LEFT, tree.h 77. *)
Definition sleft (e : Z) (m : smem) : out Z := let* _ := there e m in Ok (lefts m e).
(** SPLAY_RIGHT, tree.h 78. *)
Definition sright (e : Z) (m : smem) : out Z := let* _ := there e m in Ok (rights m e).
(** One value of a map changed; assignment to a field, tree.h 77-78. *)
Definition upd {A} (f : Z -> A) (e : Z) (v : A) : Z -> A := fun c => if c =? e then v else f c.
(** SPLAY_LEFT assigned, tree.h 77. *)
Definition set_sleft (e v : Z) (m : smem) : out smem := let* _ := there e m in Ok (Smem (sroot m) (alive m) (upd (lefts m) e v) (rights m) (ticks m)).
(** SPLAY_RIGHT assigned, tree.h 78. *)
Definition set_sright (e v : Z) (m : smem) : out smem := let* _ := there e m in Ok (Smem (sroot m) (alive m) (lefts m) (upd (rights m) e v) (ticks m)).
(** SPLAY_ROOT assigned, tree.h 79; SPLAY_INIT (67-69) with 0. *)
Definition set_sroot (v : Z) (m : smem) : smem := Smem v (alive m) (lefts m) (rights m) (ticks m).
(** One more round of a loop; counts, is not in tree.h (213, 249, 140). *)
Definition tick (m : smem) : smem := Smem (sroot m) (alive m) (lefts m) (rights m) (S (ticks m)).
(** SPLAY_ROTATE_RIGHT, tree.h 83-87. *)
Definition srotate_right (tmp : Z) (m : smem) : out smem :=
  let* r := sright tmp m in let* m := set_sleft (sroot m) r m in
  let* m := set_sright tmp (sroot m) m in Ok (set_sroot tmp m).
(** SPLAY_ROTATE_LEFT, tree.h 89-93. *)
Definition srotate_left (tmp : Z) (m : smem) : out smem :=
  let* l := sleft tmp m in let* m := set_sright (sroot m) l m in
  let* m := set_sleft tmp (sroot m) m in Ok (set_sroot tmp m).
(** SPLAY_LINKLEFT, tree.h 95-99; gives tmp. *)
Definition linkleft (tmp : Z) (m : smem) : out (Z * smem) :=
  let* m := set_sleft tmp (sroot m) m in
  let tmp := sroot m in
  let* l := sleft (sroot m) m in Ok (tmp, set_sroot l m).
(** SPLAY_LINKRIGHT, tree.h 101-105; gives tmp. *)
Definition linkright (tmp : Z) (m : smem) : out (Z * smem) :=
  let* m := set_sright tmp (sroot m) m in
  let tmp := sroot m in
  let* r := sright (sroot m) m in Ok (tmp, set_sroot r m).
(** SPLAY_ASSEMBLE, tree.h 107-112. *)
Definition assemble (lf rt : Z) (m : smem) : out smem :=
  let* v := sleft (sroot m) m in let* m := set_sright lf v m in
  let* v := sright (sroot m) m in let* m := set_sleft rt v m in
  let* v := sright NODE m in let* m := set_sleft (sroot m) v m in
  let* v := sleft NODE m in set_sright (sroot m) v m.
(** The local __node comes to life with NULL in both fields, tree.h 207-210 and 244-246. *)
Definition open_node (m : smem) : smem := Smem (sroot m) (upd (alive m) NODE true) (upd (lefts m) NODE 0) (upd (rights m) NODE 0) (ticks m).
(** … and ends with the function, tree.h 237 and 273. *)
Definition close_node (m : smem) : smem := Smem (sroot m) (upd (alive m) NODE false) (lefts m) (rights m) (ticks m).

(** The loop of SPLAY_MINMAX, tree.h 249-271; gives __left and __right. *)
Fixpoint sminmax_loop (fuel : nat) (comp lf rt : Z) (m : smem) : out (Z * Z * smem) :=
  match fuel with
  | O => NoFuel
  | S fuel =>
      let m := tick m in
      if comp <? 0 then
        let* tmp := sleft (sroot m) m in
        if tmp =? 0 then Ok (lf, rt, m)
        else
          let* (stop, m) := (if comp <? 0 then let* m := srotate_right tmp m in let* l := sleft (sroot m) m in Ok (l =? 0, m) else Ok (false, m)) in
          if stop : bool then Ok (lf, rt, m)
          else let* (rt, m) := linkleft rt m in sminmax_loop fuel comp lf rt m
      else if 0 <? comp then
        let* tmp := sright (sroot m) m in
        if tmp =? 0 then Ok (lf, rt, m)
        else
          let* (stop, m) := (if 0 <? comp then let* m := srotate_left tmp m in let* r := sright (sroot m) m in Ok (r =? 0, m) else Ok (false, m)) in
          if stop : bool then Ok (lf, rt, m)
          else let* (lf, m) := linkright lf m in sminmax_loop fuel comp lf rt m
      else sminmax_loop fuel comp lf rt m
  end.
(** SPLAY_MINMAX, tree.h 242-273. *)
Definition sminmax (fuel : nat) (comp : Z) (m : smem) : out smem :=
  let m := open_node m in
  let* (lf, rt, m) := sminmax_loop fuel comp NODE NODE m in
  let* m := assemble lf rt m in Ok (close_node m).
(** SPLAY_MIN with -1 and SPLAY_MAX with 1, tree.h 275-285, and SPLAY_MIN_MAX, tree.h 148-153. *)
Definition splay_min_max (fuel : nat) (val : Z) (m : smem) : out (Z * smem) :=
  if sroot m =? 0 then Ok (0, m) else let* m := sminmax fuel val m in Ok (sroot m, m).
(** The loop of SPLAY_NEXT, tree.h 140-142. *)
Fixpoint sleftmost (fuel : nat) (e : Z) (m : smem) : out (Z * smem) :=
  match fuel with O => NoFuel | S fuel => let* l := sleft e m in if l =? 0 then Ok (e, m) else sleftmost fuel l (tick m) end.

Section Cmp.
Variable cmp : Z -> Z -> Z.
(** A call of the comparison, tree.h 129, 167, 190, 213, 218 and 228. *)
Definition compare (e f : Z) (m : smem) : out Z := let* _ := there e m in let* _ := there f m in Ok (cmp e f).
(** The loop of SPLAY, tree.h 213-235; gives __left and __right. *)
Fixpoint splay_loop (fuel : nat) (elm lf rt : Z) (m : smem) : out (Z * Z * smem) :=
  match fuel with
  | O => NoFuel
  | S fuel =>
      let* comp := compare elm (sroot m) m in
      let m := tick m in
      if comp =? 0 then Ok (lf, rt, m)
      else if comp <? 0 then
        let* tmp := sleft (sroot m) m in
        if tmp =? 0 then Ok (lf, rt, m)
        else
          let* c := compare elm tmp m in
          let* (stop, m) := (if c <? 0 then let* m := srotate_right tmp m in let* l := sleft (sroot m) m in Ok (l =? 0, m) else Ok (false, m)) in
          if stop : bool then Ok (lf, rt, m)
          else let* (rt, m) := linkleft rt m in splay_loop fuel elm lf rt m
      else
        let* tmp := sright (sroot m) m in
        if tmp =? 0 then Ok (lf, rt, m)
        else
          let* c := compare elm tmp m in
          let* (stop, m) := (if 0 <? c then let* m := srotate_left tmp m in let* r := sright (sroot m) m in Ok (r =? 0, m) else Ok (false, m)) in
          if stop : bool then Ok (lf, rt, m)
          else let* (lf, m) := linkright lf m in splay_loop fuel elm lf rt m
  end.
(** SPLAY, tree.h 204-237. *)
Definition splay (fuel : nat) (elm : Z) (m : smem) : out smem :=
  let m := open_node m in
  let* (lf, rt, m) := splay_loop fuel elm NODE NODE m in
  let* m := assemble lf rt m in Ok (close_node m).
(** SPLAY_FIND, tree.h 123-132. *)
Definition splay_find (fuel : nat) (elm : Z) (m : smem) : out (Z * smem) :=
  if sroot m =? 0 then Ok (0, m)
  else let* m := splay fuel elm m in let* c := compare elm (sroot m) m in Ok (if c =? 0 then sroot m else 0, m).
(** SPLAY_NEXT, tree.h 134-146. *)
Definition splay_next (fuel : nat) (elm : Z) (m : smem) : out (Z * smem) :=
  let* m := splay fuel elm m in
  let* r := sright elm m in
  if negb (r =? 0) then let* e := sright elm m in sleftmost fuel e m else Ok (0, m).
(** SPLAY_INSERT, tree.h 159-181. *)
Definition splay_insert (fuel : nat) (elm : Z) (m : smem) : out (Z * smem) :=
  if sroot m =? 0 then let* m := set_sright elm 0 m in let* m := set_sleft elm 0 m in Ok (0, set_sroot elm m)
  else
    let* m := splay fuel elm m in
    let* comp := compare elm (sroot m) m in
    if comp <? 0 then
      let* v := sleft (sroot m) m in let* m := set_sleft elm v m in
      let* m := set_sright elm (sroot m) m in
      let* m := set_sleft (sroot m) 0 m in Ok (0, set_sroot elm m)
    else if 0 <? comp then
      let* v := sright (sroot m) m in let* m := set_sright elm v m in
      let* m := set_sleft elm (sroot m) m in
      let* m := set_sright (sroot m) 0 m in Ok (0, set_sroot elm m)
    else Ok (sroot m, m).
(** SPLAY_REMOVE, tree.h 183-202. *)
Definition splay_remove (fuel : nat) (elm : Z) (m : smem) : out (Z * smem) :=
  if sroot m =? 0 then Ok (0, m)
  else
    let* m := splay fuel elm m in
    let* comp := compare elm (sroot m) m in
    if comp =? 0 then
      let* l := sleft (sroot m) m in
      if l =? 0 then let* r := sright (sroot m) m in Ok (elm, set_sroot r m)
      else
        let* tmp := sright (sroot m) m in
        let* l := sleft (sroot m) m in
        let* m := splay fuel elm (set_sroot l m) in
        let* m := set_sright (sroot m) tmp m in Ok (elm, m)
    else Ok (0, m).
(** The loop of SPLAY_FOREACH from [x] on, tree.h 287-290: the values of x. *)
Fixpoint swalk (fuel f : nat) (x : Z) (m : smem) : out (list Z * smem) :=
  match fuel with
  | O => NoFuel
  | S fuel => if x =? 0 then Ok ([], m) else let* (n, m) := splay_next f x m in let* (l, m) := swalk fuel f n m in Ok (x :: l, m)
  end.
(** SPLAY_FOREACH, tree.h 287-290. *)
Definition splay_foreach (fuel f : nat) (m : smem) : out (list Z * smem) := let* (x, m) := splay_min_max f (-1) m in swalk fuel f x m.
End Cmp.
(** free(e), as the body of a SPLAY_FOREACH (tree.h 287-290) may do. *)
Definition sfree (e : Z) (m : smem) : smem := Smem (sroot m) (upd (alive m) e false) (lefts m) (rights m) (ticks m).
(** SPLAY_FOREACH (tree.h 287-290) from [x] on, with a body that takes the element out of the tree and then frees it if [freed]: the values of x. *)
Fixpoint sweed (cmp : Z -> Z -> Z) (freed : bool) (fuel f : nat) (x : Z) (m : smem) : out (list Z * smem) :=
  match fuel with
  | O => NoFuel
  | S fuel =>
      if x =? 0 then Ok ([], m)
      else
        let* (_, m) := splay_remove cmp f x m in
        let* (n, m) := splay_next cmp f x (if freed then sfree x m else m) in
        let* (l, m) := sweed cmp freed fuel f n m in Ok (x :: l, m)
  end.
(** SPLAY_FOREACH with that body, tree.h 287-290. *)
Definition splay_weed (cmp : Z -> Z -> Z) (freed : bool) (fuel f : nat) (m : smem) : out (list Z * smem) := let* (x, m) := splay_min_max f (-1) m in sweed cmp freed fuel f x m.
