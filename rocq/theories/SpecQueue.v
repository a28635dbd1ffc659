(** What the list macros should do, on two queues as two lists of elements. *)
From Verif Require Export QueueModel.

(** Calls on queue [q] (true: the first, false: the second); [le]: an element of it, [e]: the element inserted or removed. *)
Inductive qop := InsHead (q : bool) (e : Z) | InsTail (q : bool) (e : Z) | InsAfter (q : bool) (le e : Z) | InsBefore (q : bool) (le e : Z)
| Remove (q : bool) (e : Z) | RemHead (q : bool) | RemAfter (q : bool) (le : Z) | Replace (q : bool) (e e2 : Z) | Concat (q : bool).
(** The list of queue [q]. *)
Definition pick (q : bool) (s : list Z * list Z) : list Z := if q then fst s else snd s.
(** The two lists, that of queue [q] replaced. *)
Definition put (q : bool) (l : list Z) (s : list Z * list Z) : list Z * list Z := if q then (l, snd s) else (fst s, l).

Section Universe.
(** The elements that exist. *)
Variable U : list Z.
(** An element that is in no queue. *)
Definition unused (e : Z) (s : list Z * list Z) : Prop := In e U /\ ~ In e (fst s) /\ ~ In e (snd s).
(** The meaning of a call; there is none if its precondition fails. *)
Inductive meaning : qop -> list Z * list Z -> list Z * list Z -> Prop :=
| m_head q e s : unused e s -> meaning (InsHead q e) s (put q (e :: pick q s) s)
| m_tail q e s : unused e s -> meaning (InsTail q e) s (put q (pick q s ++ [e]) s)
| m_after q a le b e s : unused e s -> pick q s = a ++ le :: b -> meaning (InsAfter q le e) s (put q (a ++ le :: e :: b) s)
| m_before q a le b e s : unused e s -> pick q s = a ++ le :: b -> meaning (InsBefore q le e) s (put q (a ++ e :: le :: b) s)
| m_remove q a e b s : pick q s = a ++ e :: b -> meaning (Remove q e) s (put q (a ++ b) s)
| m_remhead q e b s : pick q s = e :: b -> meaning (RemHead q) s (put q b s)
| m_remafter q a le e b s : pick q s = a ++ le :: e :: b -> meaning (RemAfter q le) s (put q (a ++ le :: b) s)
| m_replace q a e b e2 s : unused e2 s -> pick q s = a ++ e :: b -> meaning (Replace q e e2) s (put q (a ++ e2 :: b) s)
| m_concat q s : meaning (Concat q) s (put (negb q) [] (put q (pick q s ++ pick (negb q) s) s)).
(** The meaning of a sequence of calls. *)
Inductive meanings : list qop -> list Z * list Z -> list Z * list Z -> Prop :=
| ms_nil s : meanings [] s s
| ms_cons o os s s' s'' : meaning o s s' -> meanings os s' s'' -> meanings (o :: os) s s''.
End Universe.

(** The cells of a head: [tl] it has a last pointer, [xq] it has a cookie (queue.h 94-97, 167-170, 250-254, 330-335, 410-414). *)
Definition head_cells (tl xq : bool) (h : Z) : list Z := h :: (if tl then [h + 8] else []) ++ (if xq then [h + 16] else []).
(** The cells of an element's field at offset [F]: [dbl] it has a prev pointer (queue.h 102-105, 175-179, 259-262, 337-340, 419-423). *)
Definition elem_cells (F : Z) (dbl : bool) (e : Z) : list Z := (e + F) :: (if dbl then [e + (F + 8)] else []).
(** Two heads and the elements lie apart; no address is 0. *)
Definition apart (F : Z) (dbl tl xq : bool) (U : list Z) (hA hB : Z) : Prop :=
  NoDup (head_cells tl xq hA ++ head_cells tl xq hB ++ flat_map (elem_cells F dbl) U) /\ 0 <= F /\ 0 < hA /\ 0 < hB /\ Forall (fun e => 0 < e) U.
(** All these cells. *)
Definition cells (F : Z) (dbl tl xq : bool) (U : list Z) (hA hB : Z) : list Z := head_cells tl xq hA ++ head_cells tl xq hB ++ flat_map (elem_cells F dbl) U.

(** ** The programs: the calls of each family of macros; what a family does not provide is [Panics] *)
(** The head of queue [q]. *)
Definition head_of (hA hB : Z) (q : bool) : Z := if q then hA else hB.
(** Singly-linked lists, queue.h 128-162. *)
Definition do_slist (F : Z) (fuel : nat) (hA hB : Z) (o : qop) (m : mem) : out mem :=
  match o with
  | InsHead q e => slist_insert_head F (head_of hA hB q) e m
  | InsAfter q le e => slist_insert_after F le e m
  | RemHead q => slist_remove_head F (head_of hA hB q) m
  | RemAfter q le => slist_remove_after F le m
  | Remove q e => slist_remove F fuel (head_of hA hB q) e m
  | _ => Panics
  end.
(** Lists, queue.h 202-245. *)
Definition do_list (F : Z) (hA hB : Z) (o : qop) (m : mem) : out mem :=
  match o with
  | InsHead q e => list_insert_head F (head_of hA hB q) e m
  | InsAfter q le e => list_insert_after F le e m
  | InsBefore q le e => insert_before F le e m
  | Remove q e => list_remove F e m
  | Replace q e e2 => list_replace F e e2 m
  | _ => Panics
  end.
(** Simple queues, queue.h 285-325. *)
Definition do_simpleq (F : Z) (hA hB : Z) (o : qop) (m : mem) : out mem :=
  match o with
  | InsHead q e => simpleq_insert_head F (head_of hA hB q) e m
  | InsTail q e => simpleq_insert_tail F (head_of hA hB q) e m
  | InsAfter q le e => simpleq_insert_after F (head_of hA hB q) le e m
  | RemHead q => simpleq_remove_head F (head_of hA hB q) m
  | RemAfter q le => simpleq_remove_after F (head_of hA hB q) le m
  | Concat q => simpleq_concat (head_of hA hB q) (head_of hA hB (negb q)) m
  | _ => Panics
  end.
(** XOR simple queues, queue.h 366-404. *)
Definition do_xsimpleq (F w : Z) (hA hB : Z) (o : qop) (m : mem) : out mem :=
  match o with
  | InsHead q e => x_insert_head F w (head_of hA hB q) e m
  | InsTail q e => x_insert_tail F w (head_of hA hB q) e m
  | InsAfter q le e => x_insert_after F w (head_of hA hB q) le e m
  | RemHead q => x_remove_head F w (head_of hA hB q) m
  | RemAfter q le => x_remove_after F w (head_of hA hB q) le m
  | _ => Panics
  end.
(** Tail queues, queue.h 465-534. *)
Definition do_tailq (F : Z) (hA hB : Z) (o : qop) (m : mem) : out mem :=
  match o with
  | InsHead q e => tailq_insert_head F (head_of hA hB q) e m
  | InsTail q e => tailq_insert_tail F (head_of hA hB q) e m
  | InsAfter q le e => tailq_insert_after F (head_of hA hB q) le e m
  | InsBefore q le e => insert_before F le e m
  | Remove q e => tailq_remove F (head_of hA hB q) e m
  | Replace q e e2 => tailq_replace F (head_of hA hB q) e e2 m
  | Concat q => tailq_concat F (head_of hA hB q) (head_of hA hB (negb q)) m
  | _ => Panics
  end.
(** Which calls a family provides: queue.h 128-162. *)
Definition has_slist (o : qop) : bool := match o with InsHead _ _ | InsAfter _ _ _ | RemHead _ | RemAfter _ _ | Remove _ _ => true | _ => false end.
(** queue.h 202-245. *)
Definition has_list (o : qop) : bool := match o with InsHead _ _ | InsAfter _ _ _ | InsBefore _ _ _ | Remove _ _ | Replace _ _ _ => true | _ => false end.
(** queue.h 285-325. *)
Definition has_simpleq (o : qop) : bool := match o with InsHead _ _ | InsTail _ _ | InsAfter _ _ _ | RemHead _ | RemAfter _ _ | Concat _ => true | _ => false end.
(** queue.h 366-404. *)
Definition has_xsimpleq (o : qop) : bool := match o with InsHead _ _ | InsTail _ _ | InsAfter _ _ _ | RemHead _ | RemAfter _ _ => true | _ => false end.
(** queue.h 465-534. *)
Definition has_tailq (o : qop) : bool := match o with RemHead _ | RemAfter _ _ => false | _ => true end.
(** A sequence of calls. *)
Fixpoint run (f : qop -> mem -> out mem) (os : list qop) (m : mem) : out mem :=
  match os with [] => Ok m | o :: os => let* m := f o m in run f os m end.
