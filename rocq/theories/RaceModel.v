(** raii_deferred on one scope by several threads: src/raii.c 67-85, 449-465; called on the creator's scope by promise_set
    (future.c 29, calloc_full), thrd_returning (137-138) and raii_get_args of a pack made by thrd_spawn_ex (raii.c 573).

    Steps are single accesses to the shared array header, and realloc.  Sequentially consistent.  Simplified: an entry is one cell
    (its data); a->elements is loaded once for the two uses in raii.c 68-72; of the two loads in line 84 that of base comes
    first; allocation succeeds. *)
From Verif Require Export Base.

(** Where a thread is in raii_deferred, raii.c 67-85 and 449-465. *)
Inductive apc :=
| A0                        (* 68: load elements *)
| A1 (n : nat)              (* 77: realloc *)
| A2 (k : nat)              (* 81: store base *)
| A3                        (* 84: load base *)
| A4 (b : option nat)       (* 84: load elements *)
| A5 (b : option nat) (n : nat) (* 84: store elements *)
| A6 (b : option nat) (n : nat) (* 459-461: fill the entry *)
| AEnd.
(** An allocated block: still allocated, its cells. *)
Record ablock := ABlock { b_live : bool; cells : list (option Z) }.
(** The header, the blocks ever allocated, and the threads with what each defers. *)
Record race := Race { elems : nat; base : option nat; blocks : list ablock; threads : list (Z * apc) }.

(** Update of a list (no counterpart in the source). *)
Definition setn {A} (l : list A) (i : nat) (x : A) : list A := firstn i l ++ match skipn i l with [] => [] | _ :: r => x :: r end.
(** realloc: releases the old block and copies it. *)
Definition realloc (b : option nat) (cap : nat) (bs : list ablock) : out (list ablock) :=
  match b with
  | None => Ok (bs ++ [ABlock true (repeat None cap)])
  | Some k => match nth_error bs k with
              | None => Undef WildPointer
              | Some x => if b_live x then Ok (setn bs k (ABlock false (cells x)) ++ [ABlock true (firstn cap (cells x) ++ repeat None (cap - length (cells x)))])
                          else Undef DoubleFree
              end
  end.
(** deferred->data = data. *)
Definition fill (b : option nat) (n : nat) (d : Z) (bs : list ablock) : out (list ablock) :=
  match b with
  | None => Undef NullDeref
  | Some k => match nth_error bs k with
              | None => Undef WildPointer
              | Some x => if negb (b_live x) then Undef UseAfterFree
                          else if (n <? length (cells x))%nat then Ok (setn bs k (ABlock true (setn (cells x) n (Some d)))) else Undef OobWrite
              end
  end.
(** A step of thread [t]; [None]: it has finished. *)
Definition rstep (t : nat) (r : race) : option (out race) :=
  match nth_error (threads r) t with
  | None => None
  | Some (d, pc) =>
      let go pc := setn (threads r) t (d, pc) in
      match pc with
      | A0 => Some (Ok (Race (elems r) (base r) (blocks r) (go (if (elems r mod 16 =? 0)%nat then A1 (elems r) else A3))))
      | A1 n => Some (let* bs := realloc (base r) (n + 16) (blocks r) in Ok (Race (elems r) (base r) bs (go (A2 (length (blocks r))))))
      | A2 k => Some (Ok (Race (elems r) (Some k) (blocks r) (go A3)))
      | A3 => Some (Ok (Race (elems r) (base r) (blocks r) (go (A4 (base r)))))
      | A4 b => Some (Ok (Race (elems r) (base r) (blocks r) (go (A5 b (elems r)))))
      | A5 b n => Some (Ok (Race (S n) (base r) (blocks r) (go (A6 b n))))
      | A6 b n => Some (let* bs := fill b n d (blocks r) in Ok (Race (elems r) (base r) bs (go AEnd)))
      | AEnd => None
      end
  end.
(** Runs a schedule. *)
Fixpoint rsched (ts : list nat) (r : race) : out race :=
  match ts with [] => Ok r | t :: ts => match rstep t r with Some o => let* r := o in rsched ts r | None => rsched ts r end end.
(** What raii_deferred_run will call on, raii.c 403-412: the first [elems] entries. *)
Definition entries (r : race) : list (option Z) :=
  match base r with
  | None => []
  | Some k => match nth_error (blocks r) k with Some x => firstn (elems r) (cells x) | None => [] end
  end.
