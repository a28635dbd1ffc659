(** What a thread-local variable is, without storage: the value of a variable is the last one the same thread wrote to it. *)
From Verif Require Import Base TlsModel.

(** The history of all threads, oldest first. *)
Definition writes (t v : nat) (e : nat * top) : bool := match snd e with Wr w _ => (fst e =? t)%nat && (w =? v)%nat | _ => false end.
Definition latest (t v : nat) (h : list (nat * top)) : option Z := match find (writes t v) (rev h) with Some (_, Wr _ x) => Some x | _ => None end.
(** Accesses and deletions of [v] by [t]. *)
Definition uses (t v : nat) (e : nat * top) : bool := match snd e with Rd w | Wr w _ | Del w => (fst e =? t)%nat && (w =? v)%nat | _ => false end.
Definition unused (t v : nat) (h : list (nat * top)) : bool := match find (uses t v) (rev h) with None | Some (_, Del _) => true | _ => false end.
(** What operation [o] of [t] must yield after [h]; [init]: the value before the first write. *)
Definition answer (init : option Z) (h : list (nat * top)) (t : nat) (o : top) : tres :=
  match o with
  | Rd v => RVal (match latest t v h with None => init | x => x end)
  | Emp v => RBool (unused t v h)
  | _ => RUnit
  end.
(** The answers to the operations [l] of one thread, in order. *)
Fixpoint answers (init : option Z) (t : nat) (h l : list top) : list tres :=
  match l with [] => [] | o :: l => answer init (map (pair t) h) t o :: answers init t (h ++ [o]) l end.
(** Programs that do not redirect the variable; those that do not delete it either. *)
Definition own_op (o : top) : bool := match o with Upd _ _ => false | _ => true end.
Definition rw_op (o : top) : bool := match o with Rd _ | Wr _ _ => true | _ => false end.
Definition kept_op (o : top) : bool := match o with Rd _ | Wr _ _ | Emp _ => true | _ => false end.
Definition var_of (o : top) : nat := match o with Rd v | Wr v _ | Emp v | Del v | Upd v _ => v end.
