(** What the splay trees of sys/tree.h are to be: sets of elements in the order of their keys, and what they may cost.

    Independent of how the macros keep them. *)
From Verif Require Import Base SplayModel SpecTree.
Import ListNotations.

(** The calls. *)
Inductive sop := SInsert (e : Z) | SRemove (e : Z) | SFind (e : Z) | SNext (e : Z) | SMin | SMax | SForeach.
Definition sop_elem (o : sop) : option Z := match o with SInsert e | SRemove e | SFind e | SNext e => Some e | SMin | SMax | SForeach => None end.

(** [sturns key l ops rs l']: the calls [ops] on the elements [l] give the results [rs] and leave the elements [l'].
    An insertion gives NULL, or the element with the same key, which stays.  A removal takes out the element with the key of the one named, and gives the one named
    (which is the one taken out, if that is the one named); NULL if there is none. *)
Inductive sturns (key : Z -> Z) : list Z -> list sop -> list (list Z) -> list Z -> Prop :=
| s_nil l : sturns key l [] [] l
| s_new a e b ops rs l : lower key a e -> higher key e b -> sturns key (a ++ e :: b) ops rs l -> sturns key (a ++ b) (SInsert e :: ops) ([0] :: rs) l
| s_dup x e l ops rs l' : In x l -> key x = key e -> sturns key l ops rs l' -> sturns key l (SInsert e :: ops) ([x] :: rs) l'
| s_del a x b e ops rs l : key x = key e -> sturns key (a ++ b) ops rs l -> sturns key (a ++ x :: b) (SRemove e :: ops) ([e] :: rs) l
| s_none l e ops rs l' : (forall x, In x l -> key x <> key e) -> sturns key l ops rs l' -> sturns key l (SRemove e :: ops) ([0] :: rs) l'
| s_find x e l ops rs l' : In x l -> key x = key e -> sturns key l ops rs l' -> sturns key l (SFind e :: ops) ([x] :: rs) l'
| s_lost l e ops rs l' : (forall x, In x l -> key x <> key e) -> sturns key l ops rs l' -> sturns key l (SFind e :: ops) ([0] :: rs) l'
| s_next a x b ops rs l : sturns key (a ++ x :: b) ops rs l -> sturns key (a ++ x :: b) (SNext x :: ops) ([first b] :: rs) l
| s_min l ops rs l' : sturns key l ops rs l' -> sturns key l (SMin :: ops) ([first l] :: rs) l'
| s_max l ops rs l' : sturns key l ops rs l' -> sturns key l (SMax :: ops) ([first (rev l)] :: rs) l'
| s_each l ops rs l' : sturns key l ops rs l' -> sturns key l (SForeach :: ops) (l :: rs) l'.

(** Running the calls. *)
Definition do_splay (cmp : Z -> Z -> Z) (fuel : nat) (o : sop) (m : smem) : out (list Z * smem) :=
  let one := fun r => let* (x, m) := r in Ok ([x], m) in
  match o with
  | SInsert e => one (splay_insert cmp fuel e m)
  | SRemove e => one (splay_remove cmp fuel e m)
  | SFind e => one (splay_find cmp fuel e m)
  | SNext e => one (splay_next cmp fuel e m)
  | SMin => one (splay_min_max fuel (-1) m)
  | SMax => one (splay_min_max fuel 1 m)
  | SForeach => splay_foreach cmp fuel fuel m
  end.
Fixpoint run_splay (cmp : Z -> Z -> Z) (fuel : nat) (ops : list sop) (m : smem) : out (list (list Z) * smem) :=
  match ops with
  | [] => Ok ([], m)
  | o :: ops => let* (r, m) := do_splay cmp fuel o m in let* (rs, m) := run_splay cmp fuel ops m in Ok (r :: rs, m)
  end.

(** How many accesses a call is: a loop over the tree is one for the least element and one more for each element it visits. *)
Definition access (o : sop) (r : list Z) : nat := match o with SForeach => S (length r) | _ => 1 end.
Fixpoint accesses (ops : list sop) (rs : list (list Z)) : nat := match ops, rs with o :: ops, r :: rs => (access o r + accesses ops rs)%nat | _, _ => 0%nat end.
(** SPLAY_NEXT called by itself. *)
Definition is_next (o : sop) : bool := match o with SNext _ => true | _ => false end.
(** The numbers 1 to [n], as elements that are their own keys. *)
Definition upto (n : nat) : list Z := map Z.of_nat (seq 1 n).
