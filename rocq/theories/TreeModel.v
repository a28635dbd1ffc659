(** The red-black tree macros of include/compat/sys/tree.h 292-749.

    Simplified: an element's RB_ENTRY (lines 307-313) is one record, known by the element's address, so two entries never overlap; RB_AUGMENT is
    not defined by the user, so it does nothing (333-335).  [cmp] is the user's comparison. *)
From Verif Require Export Base.

(** RB_ENTRY, tree.h 307-313. *)
Record entry := Entry { e_left : Z; e_right : Z; e_parent : Z; e_color : Z }.
(** RB_HEAD (tree.h 293-296) and the elements in memory. *)
Record tmem := Tmem { root : Z; nodes : Z -> option entry }.
(** RB_BLACK, tree.h 305. *)
Definition BLACK : Z := 0.
(** RB_RED, tree.h 306. *)
Definition RED : Z := 1.
(** (elm)->field, as in tree.h 315-318; NULL and an address that is no element are undefined behaviour. *)
Definition node (e : Z) (m : tmem) : out entry :=
  if e =? 0 then Undef NullDeref else match nodes m e with Some n => Ok n | None => Undef WildPointer end.
(** (elm)->field = n, as in tree.h 551. *)
Definition put (e : Z) (n : entry) (m : tmem) : out tmem := let* _ := node e m in Ok (Tmem (root m) (fun c => if c =? e then Some n else nodes m c)).
(** RB_LEFT, tree.h 315. *)
Definition left (e : Z) (m : tmem) : out Z := let* n := node e m in Ok (e_left n).
(** RB_RIGHT, tree.h 316. *)
Definition right (e : Z) (m : tmem) : out Z := let* n := node e m in Ok (e_right n).
(** RB_PARENT, tree.h 317. *)
Definition parent (e : Z) (m : tmem) : out Z := let* n := node e m in Ok (e_parent n).
(** RB_COLOR, tree.h 318. *)
Definition color (e : Z) (m : tmem) : out Z := let* n := node e m in Ok (e_color n).
(** RB_LEFT assigned, tree.h 315. *)
Definition set_left (e v : Z) (m : tmem) : out tmem := let* n := node e m in put e (Entry v (e_right n) (e_parent n) (e_color n)) m.
(** RB_RIGHT assigned, tree.h 316. *)
Definition set_right (e v : Z) (m : tmem) : out tmem := let* n := node e m in put e (Entry (e_left n) v (e_parent n) (e_color n)) m.
(** RB_PARENT assigned, tree.h 317. *)
Definition set_parent (e v : Z) (m : tmem) : out tmem := let* n := node e m in put e (Entry (e_left n) (e_right n) v (e_color n)) m.
(** RB_COLOR assigned, tree.h 318. *)
Definition set_color (e v : Z) (m : tmem) : out tmem := let* n := node e m in put e (Entry (e_left n) (e_right n) (e_parent n) v) m.
(** RB_ROOT assigned, tree.h 319; RB_INIT (301-303) with 0. *)
Definition set_root (v : Z) (m : tmem) : tmem := Tmem v (nodes m).
(** RB_SET, tree.h 322-326. *)
Definition rb_set (e p : Z) (m : tmem) : out tmem :=
  let* m := set_parent e p m in
  let* m := set_right e 0 m in let* m := set_left e 0 m in
  set_color e RED m.
(** RB_SET_BLACKRED, tree.h 328-331. *)
Definition set_blackred (b r : Z) (m : tmem) : out tmem := let* m := set_color b BLACK m in set_color r RED m.
(** The part of both rotations that hangs [tmp] where [e] was, tree.h 343-349 and 363-369. *)
Definition relink (e tmp : Z) (m : tmem) : out tmem :=
  let* p := parent e m in let* m := set_parent tmp p m in
  if p =? 0 then Ok (set_root tmp m)
  else
    let* p := parent e m in let* l := left p m in
    let* p := parent e m in
    if e =? l then set_left p tmp m else set_right p tmp m.
(** RB_ROTATE_LEFT, tree.h 337-355; gives tmp. *)
Definition rotate_left (e : Z) (m : tmem) : out (Z * tmem) :=
  let* tmp := right e m in
  let* v := left tmp m in let* m := set_right e v m in
  let* m := (if v =? 0 then Ok m else let* w := left tmp m in set_parent w e m) in
  let* m := relink e tmp m in
  let* m := set_left tmp e m in
  let* m := set_parent e tmp m in
  let* _ := parent tmp m in Ok (tmp, m).
(** RB_ROTATE_RIGHT, tree.h 357-375. *)
Definition rotate_right (e : Z) (m : tmem) : out (Z * tmem) :=
  let* tmp := left e m in
  let* v := right tmp m in let* m := set_left e v m in
  let* m := (if v =? 0 then Ok m else let* w := right tmp m in set_parent w e m) in
  let* m := relink e tmp m in
  let* m := set_right tmp e m in
  let* m := set_parent e tmp m in
  let* _ := parent tmp m in Ok (tmp, m).

(** tmp && RB_COLOR(tmp) == RB_RED, tree.h 406-407, 411 and 427. *)
Definition is_red (e : Z) (m : tmem) : out bool := if e =? 0 then Ok false else let* c := color e m in Ok (c =? RED).
(** tmp == NULL || RB_COLOR(tmp) == RB_BLACK, tree.h 450, 459-462, 467-468, 491-494 and 499-500. *)
Definition is_black (e : Z) (m : tmem) : out bool := if e =? 0 then Ok true else let* c := color e m in Ok (c =? BLACK).
(** The loop of RB_INSERT_COLOR, tree.h 406-442. *)
Fixpoint insert_loop (fuel : nat) (elm : Z) (m : tmem) : out tmem :=
  match fuel with
  | O => NoFuel
  | S fuel =>
      let* par := parent elm m in
      let* go := is_red par m in
      if negb go then Ok m
      else
        let* gpar := parent par m in
        let* l := left gpar m in
        if par =? l then
          let* tmp := right gpar m in
          let* r := is_red tmp m in
          if r : bool then
            let* m := set_color tmp BLACK m in let* m := set_blackred par gpar m in insert_loop fuel gpar m
          else
            let* pr := right par m in
            let* (elm', par', m) := (if pr =? elm then let* (_, m) := rotate_left par m in Ok (par, elm, m) else Ok (elm, par, m)) in
            let* m := set_blackred par' gpar m in
            let* (_, m) := rotate_right gpar m in insert_loop fuel elm' m
        else
          let* tmp := left gpar m in
          let* r := is_red tmp m in
          if r : bool then
            let* m := set_color tmp BLACK m in let* m := set_blackred par gpar m in insert_loop fuel gpar m
          else
            let* pl := left par m in
            let* (elm', par', m) := (if pl =? elm then let* (_, m) := rotate_right par m in Ok (par, elm, m) else Ok (elm, par, m)) in
            let* m := set_blackred par' gpar m in
            let* (_, m) := rotate_left gpar m in insert_loop fuel elm' m
  end.
(** RB_INSERT_COLOR, tree.h 402-444. *)
Definition insert_color (fuel : nat) (elm : Z) (m : tmem) : out tmem :=
  let* m := insert_loop fuel elm m in set_color (root m) BLACK m.

(** The loop of RB_REMOVE_COLOR, tree.h 450-517; gives elm. *)
Fixpoint remove_loop (fuel : nat) (par elm : Z) (m : tmem) : out (Z * tmem) :=
  match fuel with
  | O => NoFuel
  | S fuel =>
      let* b := is_black elm m in
      if negb (b && negb (elm =? root m)) then Ok (elm, m)
      else
        let* l := left par m in
        if l =? elm then
          let* tmp := right par m in
          let* c := color tmp m in
          let* (tmp, m) := (if c =? RED then let* m := set_blackred tmp par m in let* (_, m) := rotate_left par m in let* tmp := right par m in Ok (tmp, m) else Ok (tmp, m)) in
          let* tl := left tmp m in let* bl := is_black tl m in
          let* both := (if bl : bool then let* tr := right tmp m in is_black tr m else Ok false) in
          if both : bool then
            let* m := set_color tmp RED m in let* p := parent par m in remove_loop fuel p par m
          else
            let* tr := right tmp m in let* br := is_black tr m in
            let* (tmp, m) := (if br : bool then
                let* ol := left tmp m in let* m := (if ol =? 0 then Ok m else set_color ol BLACK m) in
                let* m := set_color tmp RED m in let* (_, m) := rotate_right tmp m in let* tmp := right par m in Ok (tmp, m)
              else Ok (tmp, m)) in
            let* c := color par m in let* m := set_color tmp c m in
            let* m := set_color par BLACK m in
            let* r := right tmp m in let* m := (if r =? 0 then Ok m else set_color r BLACK m) in
            let* (_, m) := rotate_left par m in Ok (root m, m)
        else
          let* tmp := left par m in
          let* c := color tmp m in
          let* (tmp, m) := (if c =? RED then let* m := set_blackred tmp par m in let* (_, m) := rotate_right par m in let* tmp := left par m in Ok (tmp, m) else Ok (tmp, m)) in
          let* tl := left tmp m in let* bl := is_black tl m in
          let* both := (if bl : bool then let* tr := right tmp m in is_black tr m else Ok false) in
          if both : bool then
            let* m := set_color tmp RED m in let* p := parent par m in remove_loop fuel p par m
          else
            let* tl := left tmp m in let* bl := is_black tl m in
            let* (tmp, m) := (if bl : bool then
                let* or := right tmp m in let* m := (if or =? 0 then Ok m else set_color or BLACK m) in
                let* m := set_color tmp RED m in let* (_, m) := rotate_left tmp m in let* tmp := left par m in Ok (tmp, m)
              else Ok (tmp, m)) in
            let* c := color par m in let* m := set_color tmp c m in
            let* m := set_color par BLACK m in
            let* l := left tmp m in let* m := (if l =? 0 then Ok m else set_color l BLACK m) in
            let* (_, m) := rotate_right par m in Ok (root m, m)
  end.
(** RB_REMOVE_COLOR, tree.h 446-520. *)
Definition remove_color (fuel : nat) (par elm : Z) (m : tmem) : out tmem :=
  let* (elm, m) := remove_loop fuel par elm m in
  if elm =? 0 then Ok m else set_color elm BLACK m.

(** The child of [elm] is hung where [elm] was, tree.h 539-548 and 573-582; [par] and [child] as read there. *)
Definition unlink (elm par child : Z) (m : tmem) : out tmem :=
  let* m := (if child =? 0 then Ok m else set_parent child par m) in
  if par =? 0 then Ok (set_root child m)
  else let* l := left par m in if l =? elm then set_left par child m else set_right par child m.
(** while ((left = RB_LEFT(elm))) elm = left, tree.h 534-535 and 665-666. *)
Fixpoint leftmost (fuel : nat) (elm : Z) (m : tmem) : out Z :=
  match fuel with O => NoFuel | S fuel => let* l := left elm m in if l =? 0 then Ok elm else leftmost fuel l m end.
(** do … while ((left = RB_PARENT(left))), tree.h 564-567. *)
Fixpoint climb (fuel : nat) (e : Z) (m : tmem) : out unit :=
  match fuel with O => NoFuel | S fuel => let* p := parent e m in if p =? 0 then Ok tt else climb fuel p m end.
(** [elm] takes the place of [old], tree.h 551-562. *)
Definition replace (old elm : Z) (m : tmem) : out tmem :=
  let* n := node old m in let* m := put elm n m in
  let* op := parent old m in
  let* m := (if op =? 0 then Ok (set_root elm m)
             else let* l := left op m in if l =? old then set_left op elm m else set_right op elm m) in
  let* ol := left old m in let* m := set_parent ol elm m in
  let* or := right old m in if or =? 0 then Ok m else let* or := right old m in set_parent or elm m.
(** RB_REMOVE, tree.h 522-587; gives old. *)
Definition rb_remove (fuel : nat) (elm : Z) (m : tmem) : out (Z * tmem) :=
  let old := elm in
  let* l := left elm m in
  let* r := right elm m in
  let* (c, par, child, m) :=
    (if (l =? 0) || (r =? 0) then
       let child := if l =? 0 then r else l in
       let* par := parent elm m in let* c := color elm m in
       let* m := unlink elm par child m in Ok (c, par, child, m)
     else
       let* elm := right elm m in let* elm := leftmost fuel elm m in
       let* child := right elm m in let* par := parent elm m in let* c := color elm m in
       let* m := unlink elm par child m in
       let* p := parent elm m in let par := (if p =? old then elm else par) in
       let* m := replace old elm m in
       let* _ := (if par =? 0 then Ok tt else climb fuel par m) in
       Ok (c, par, child, m)) in
  let* m := (if c =? BLACK then remove_color fuel par child m else Ok m) in
  Ok (old, m).

Section Cmp.
Variable cmp : Z -> Z -> Z.
(** The search of RB_INSERT, tree.h 593-606: where the search ends, or the parent and the last comparison. *)
Fixpoint descend (fuel : nat) (elm tmp par comp : Z) (m : tmem) : out (Z * Z * Z) :=
  match fuel with
  | O => NoFuel
  | S fuel =>
      if tmp =? 0 then Ok (0, par, comp)
      else
        let comp := cmp elm tmp in
        if comp <? 0 then let* l := left tmp m in descend fuel elm l tmp comp m
        else if 0 <? comp then let* r := right tmp m in descend fuel elm r tmp comp m
        else Ok (tmp, tmp, comp)
  end.
(** RB_INSERT, tree.h 590-618. *)
Definition rb_insert (fuel : nat) (elm : Z) (m : tmem) : out (Z * tmem) :=
  let* (found, par, comp) := descend fuel elm (root m) 0 0 m in
  if negb (found =? 0) then Ok (found, m)
  else
    let* m := rb_set elm par m in
    let* m := (if par =? 0 then Ok (set_root elm m) else if comp <? 0 then set_left par elm m else set_right par elm m) in
    let* m := insert_color fuel elm m in Ok (0, m).
(** The loop of RB_FIND, tree.h 626-634. *)
Fixpoint find_loop (fuel : nat) (elm tmp : Z) (m : tmem) : out Z :=
  match fuel with
  | O => NoFuel
  | S fuel =>
      if tmp =? 0 then Ok 0
      else
        let comp := cmp elm tmp in
        if comp <? 0 then let* l := left tmp m in find_loop fuel elm l m
        else if 0 <? comp then let* r := right tmp m in find_loop fuel elm r m
        else Ok tmp
  end.
(** RB_FIND, tree.h 621-636. *)
Definition rb_find (fuel : nat) (elm : Z) (m : tmem) : out Z := find_loop fuel elm (root m) m.
(** The loop of RB_NFIND, tree.h 645-655. *)
Fixpoint nfind_loop (fuel : nat) (elm tmp res : Z) (m : tmem) : out Z :=
  match fuel with
  | O => NoFuel
  | S fuel =>
      if tmp =? 0 then Ok res
      else
        let comp := cmp elm tmp in
        if comp <? 0 then let* l := left tmp m in nfind_loop fuel elm l tmp m
        else if 0 <? comp then let* r := right tmp m in nfind_loop fuel elm r res m
        else Ok tmp
  end.
(** RB_NFIND, tree.h 639-657. *)
Definition rb_nfind (fuel : nat) (elm : Z) (m : tmem) : out Z := nfind_loop fuel elm (root m) 0 m.
End Cmp.

(** while (RB_RIGHT(elm)) elm = RB_RIGHT(elm), tree.h 687-688. *)
Fixpoint rightmost (fuel : nat) (elm : Z) (m : tmem) : out Z :=
  match fuel with O => NoFuel | S fuel => let* r := right elm m in if r =? 0 then Ok elm else rightmost fuel r m end.
(** The inner loop of RB_NEXT, tree.h 672-674. *)
Fixpoint up_right (fuel : nat) (elm : Z) (m : tmem) : out Z :=
  match fuel with
  | O => NoFuel
  | S fuel => let* p := parent elm m in
      if p =? 0 then Ok elm else let* r := right p m in if elm =? r then up_right fuel p m else Ok elm
  end.
(** RB_NEXT, tree.h 660-679. *)
Definition rb_next (fuel : nat) (elm : Z) (m : tmem) : out Z :=
  let* r := right elm m in
  if negb (r =? 0) then leftmost fuel r m
  else
    let* p := parent elm m in
    let* here := (if p =? 0 then Ok false else let* l := left p m in Ok (elm =? l)) in
    if here : bool then Ok p
    else let* e := up_right fuel elm m in parent e m.
(** The inner loop of RB_PREV, tree.h 694-696. *)
Fixpoint up_left (fuel : nat) (elm : Z) (m : tmem) : out Z :=
  match fuel with
  | O => NoFuel
  | S fuel => let* p := parent elm m in
      if p =? 0 then Ok elm else let* l := left p m in if elm =? l then up_left fuel p m else Ok elm
  end.
(** RB_PREV, tree.h 682-701. *)
Definition rb_prev (fuel : nat) (elm : Z) (m : tmem) : out Z :=
  let* l := left elm m in
  if negb (l =? 0) then rightmost fuel l m
  else
    let* p := parent elm m in
    let* here := (if p =? 0 then Ok false else let* r := right p m in Ok (elm =? r)) in
    if here : bool then Ok p
    else let* e := up_left fuel elm m in parent e m.
(** The loop of RB_MINMAX, tree.h 708-714. *)
Fixpoint minmax_loop (fuel : nat) (val tmp par : Z) (m : tmem) : out Z :=
  match fuel with
  | O => NoFuel
  | S fuel =>
      if tmp =? 0 then Ok par
      else if val <? 0 then let* l := left tmp m in minmax_loop fuel val l tmp m else let* r := right tmp m in minmax_loop fuel val r tmp m
  end.
(** RB_MINMAX, tree.h 703-716; RB_MIN with -1, RB_MAX with 1 (718-728). *)
Definition rb_minmax (fuel : nat) (val : Z) (m : tmem) : out Z := minmax_loop fuel val (root m) 0 m.
(** The loops of RB_FOREACH and RB_FOREACH_REVERSE, tree.h 730-733 and 740-743: the values of x; [nx]: RB_NEXT or RB_PREV. *)
Fixpoint walk (fuel : nat) (nx : Z -> tmem -> out Z) (x : Z) (m : tmem) : out (list Z) :=
  match fuel with
  | O => NoFuel
  | S fuel => if x =? 0 then Ok [] else let* n := nx x m in let* l := walk fuel nx n m in Ok (x :: l)
  end.
(** RB_FOREACH, tree.h 730-733. *)
Definition rb_foreach (fuel f : nat) (m : tmem) : out (list Z) := let* x := rb_minmax f (-1) m in walk fuel (rb_next f) x m.
(** RB_FOREACH_REVERSE, tree.h 740-743. *)
Definition rb_foreach_reverse (fuel f : nat) (m : tmem) : out (list Z) := let* x := rb_minmax f 1 m in walk fuel (rb_prev f) x m.
(** free of a removed element: not the header's, what the body of a loop may do. *)
Definition release (e : Z) (m : tmem) : tmem := Tmem (root m) (fun c => if c =? e then None else nodes m c).
(** A loop body that removes the elements that are not kept and frees them; as in the loops of tree.h 730-748. *)
Definition weed (f : nat) (keep : Z -> bool) (x : Z) (m : tmem) : out tmem :=
  if keep x then Ok m else let* (_, m) := rb_remove f x m in Ok (release x m).
(** The loops of RB_FOREACH_SAFE and RB_FOREACH_REVERSE_SAFE with that body, tree.h 735-738 and 745-748. *)
Fixpoint safe_walk (fuel f : nat) (nx : Z -> tmem -> out Z) (keep : Z -> bool) (x : Z) (m : tmem) : out tmem :=
  match fuel with
  | O => NoFuel
  | S fuel => if x =? 0 then Ok m else let* y := nx x m in let* m := weed f keep x m in safe_walk fuel f nx keep y m
  end.
(** The loops of RB_FOREACH and RB_FOREACH_REVERSE with that body, tree.h 730-733 and 740-743. *)
Fixpoint plain_walk (fuel f : nat) (nx : Z -> tmem -> out Z) (keep : Z -> bool) (x : Z) (m : tmem) : out tmem :=
  match fuel with
  | O => NoFuel
  | S fuel => if x =? 0 then Ok m else let* m := weed f keep x m in let* y := nx x m in plain_walk fuel f nx keep y m
  end.
(** RB_FOREACH_SAFE, tree.h 735-738. *)
Definition rb_foreach_safe (fuel f : nat) (keep : Z -> bool) (m : tmem) : out tmem := let* x := rb_minmax f (-1) m in safe_walk fuel f (rb_next f) keep x m.
(** RB_FOREACH_REVERSE_SAFE, tree.h 745-748. *)
Definition rb_foreach_reverse_safe (fuel f : nat) (keep : Z -> bool) (m : tmem) : out tmem := let* x := rb_minmax f 1 m in safe_walk fuel f (rb_prev f) keep x m.
(** RB_FOREACH with that body, tree.h 730-733. *)
Definition rb_foreach_plain (fuel f : nat) (keep : Z -> bool) (m : tmem) : out tmem := let* x := rb_minmax f (-1) m in plain_walk fuel f (rb_next f) keep x m.
(** RB_FOREACH_REVERSE with that body, tree.h 740-743. *)
Definition rb_foreach_reverse_plain (fuel f : nat) (keep : Z -> bool) (m : tmem) : out tmem := let* x := rb_minmax f 1 m in plain_walk fuel f (rb_prev f) keep x m.
