(** What the red-black trees of sys/tree.h are to be: sets of elements in the order of their keys.

    Independent of how the macros keep them. *)
From Verif Require Import Base TreeModel.
Import ListNotations.

(** The calls that change a tree. *)
Inductive rbop := Insert (e : Z) | Remove (e : Z).
Definition op_elem (o : rbop) : Z := match o with Insert e => e | Remove e => e end.

(** The elements in the order of their keys. *)
Definition lower (key : Z -> Z) (a : list Z) (e : Z) : Prop := forall x, In x a -> key x < key e.
Definition higher (key : Z -> Z) (e : Z) (b : list Z) : Prop := forall x, In x b -> key e < key x.
Fixpoint ordered (key : Z -> Z) (l : list Z) : Prop := match l with [] => True | x :: l => higher key x l /\ ordered key l end.

(** [turns key l ops rs l']: the calls [ops] on the elements [l] give the results [rs] and leave the elements [l'].
    An insertion gives NULL, or the element with the same key, which stays; a removal gives the element, which must be there. *)
Inductive turns (key : Z -> Z) : list Z -> list rbop -> list Z -> list Z -> Prop :=
| t_nil l : turns key l [] [] l
| t_new a e b ops rs l : lower key a e -> higher key e b -> turns key (a ++ e :: b) ops rs l -> turns key (a ++ b) (Insert e :: ops) (0 :: rs) l
| t_dup x e l ops rs l' : In x l -> key x = key e -> turns key l ops rs l' -> turns key l (Insert e :: ops) (x :: rs) l'
| t_del a e b ops rs l : turns key (a ++ b) ops rs l -> turns key (a ++ e :: b) (Remove e :: ops) (e :: rs) l.

(** The user's comparison compares keys. *)
Definition compares (cmp : Z -> Z -> Z) (key : Z -> Z) : Prop :=
  forall e f, (cmp e f < 0 <-> key e < key f) /\ (cmp e f = 0 <-> key e = key f).

(** Running the calls. *)
Definition do_rb (cmp : Z -> Z -> Z) (fuel : nat) (o : rbop) (m : tmem) : out (Z * tmem) :=
  match o with Insert e => rb_insert cmp fuel e m | Remove e => rb_remove fuel e m end.
Fixpoint run_rb (cmp : Z -> Z -> Z) (fuel : nat) (ops : list rbop) (m : tmem) : out (list Z * tmem) :=
  match ops with
  | [] => Ok ([], m)
  | o :: ops => let* (r, m) := do_rb cmp fuel o m in let* (rs, m) := run_rb cmp fuel ops m in Ok (r :: rs, m)
  end.

(** The first element of a list, NULL of none. *)
Definition first (l : list Z) : Z := match l with [] => 0 | x :: _ => x end.

(** What the searches and walks must give when the elements are [l]; [fuel]: rounds of one call. *)
Record answers (cmp : Z -> Z -> Z) (key : Z -> Z) (fuel : nat) (m : tmem) (l : list Z) : Prop := {
  a_min : rb_minmax fuel (-1) m = Ok (first l);
  a_max : rb_minmax fuel 1 m = Ok (first (rev l));
  a_find : forall e x, In x l -> key x = key e -> rb_find cmp fuel e m = Ok x;
  a_nofind : forall e, (forall x, In x l -> key x <> key e) -> rb_find cmp fuel e m = Ok 0;
  a_nfind : forall e a b, l = a ++ b -> lower key a e -> (forall x, In x b -> key e <= key x) -> rb_nfind cmp fuel e m = Ok (first b);
  a_next : forall a x b, l = a ++ x :: b -> rb_next fuel x m = Ok (first b);
  a_prev : forall a x b, l = a ++ x :: b -> rb_prev fuel x m = Ok (first (rev a));
  a_foreach : rb_foreach (S (length l)) fuel m = Ok l;
  a_reverse : rb_foreach_reverse (S (length l)) fuel m = Ok (rev l)
}.

(** The number of rounds that the header promises for [n] elements, tree.h 55-56: 2 lg (n + 1). *)
Definition rounds (n : nat) : nat := 2 * Nat.log2 (n + 1).

(** A way down from [x] to NULL, left ([true]) or right at each element, and the elements on it. *)
Fixpoint way (w : list bool) (x : Z) (m : tmem) : option (list Z) :=
  if x =? 0 then match w with [] => Some [] | _ => None end
  else match w, nodes m x with
    | d :: w, Some n => option_map (cons x) (way w (if d then e_left n else e_right n) m)
    | _, _ => None
    end.
(** How many of them are black. *)
Definition blacks (m : tmem) (p : list Z) : nat := length (filter (fun x => match nodes m x with Some n => e_color n =? BLACK | None => false end) p).
(** The header's conditions, tree.h 47-56. *)
Definition red_black (m : tmem) (l : list Z) : Prop :=
  (forall w w' p p', way w (root m) m = Some p -> way w' (root m) m = Some p' -> blacks m p = blacks m p') /\
  (forall e n, In e l -> nodes m e = Some n -> e_color n = RED -> exists q, e_parent n <> 0 /\ nodes m (e_parent n) = Some q /\ e_color q = BLACK) /\
  (forall e n, In e l -> nodes m e = Some n -> e_color n = RED \/ e_color n = BLACK) /\
  (forall w p, way w (root m) m = Some p -> (length p <= rounds (length l))%nat).
