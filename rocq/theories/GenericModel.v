(** The type-generic atomic operations of include/catomic.h 2640-2646 and 2733-2796 (64-bit targets without stdatomic.h, which the library never
    includes), the floating-point ones, 2302-2548, and join_work of examples/work-steal.c 175-180.

    The generic macros convert the address of the object to atomic_ullong *, whatever the object's type.  A block of memory is a list of bytes,
    the object starts at an offset of it.  Every operation is one indivisible step; memory orders are not modelled. *)
From Verif Require Export Base.

(** The operations: atomic_load 2745-2748, atomic_store and atomic_init 2738-2743, 2751, atomic_exchange 2783-2787, atomic_fetch_add 2754-2757, _sub 2760,
    _or 2764-2767, _xor 2770-2774, _and 2777-2781; the argument before its conversion to c89atomic_uint64. *)
Inductive aop := OLoad | OStore (v : Z) | OExchange (v : Z) | OAdd (v : Z) | OSub (v : Z) | OOr (v : Z) | OXor (v : Z) | OAnd (v : Z).
(** What __atomic_fetch_add and the others (catomic.h 1048-1093) leave in a 64-bit word. *)
Definition word_op (o : aop) (w : Z) : Z :=
  match o with
  | OLoad => w
  | OStore v | OExchange v => u64 v
  | OAdd v => u64 (w + u64 v)
  | OSub v => u64 (w - u64 v)
  | OOr v => Z.lor w (u64 v)
  | OXor v => Z.lxor w (u64 v)
  | OAnd v => Z.land w (u64 v)
  end.
(** The result of an operation on a word; a store has none (catomic.h 1048-1093). *)
Definition word_result (o : aop) (w : Z) : option Z := match o with OStore _ => None | _ => Some w end.
(** A generic operation at offset [i] of block [b], 2738-2787: its result and the block after it.  A store does not read, a load does not write. *)
Definition generic (o : aop) (b : list Z) (i : Z) : out (option Z * list Z) :=
  match o with
  | OStore v => let* b' := blit b i (to_le 8 (u64 v)) in Ok (None, b')
  | OLoad => let* l := rdn strict b i 8 in Ok (Some (le l), b)
  | _ => let* l := rdn strict b i 8 in let* b' := blit b i (to_le 8 (word_op o (le l))) in Ok (word_result o (le l), b')
  end.
(** atomic_compare_exchange_strong, 2789-2796 with 2633: [expected] is at offset [j] of block [e]. *)
Definition generic_cas (b : list Z) (i : Z) (e : list Z) (j desired : Z) : out (bool * list Z * list Z) :=
  let* x := rdn strict e j 8 in
  let* l := rdn strict b i 8 in
  if le l =? le x then let* b' := blit b i (to_le 8 (u64 desired)) in Ok (true, b', e)
  else let* e' := blit e j l in Ok (false, b, e').

(** ** Floating point: c89atomic_if32 and c89atomic_if64, 2306-2316, view the bits as an integer of [n] bits. *)
(** c89atomic_fetch_add_explicit_f32/f64, 2400-2416: result and new contents. *)
Definition f_fetch_add (n dst src : Z) : Z * Z := (dst, (dst + src) mod 2 ^ n).
(** c89atomic_fetch_sub_explicit_f32/f64, 2419-2435. *)
Definition f_fetch_sub (n dst src : Z) : Z * Z := (dst, (dst - src) mod 2 ^ n).
(** c89atomic_compare_exchange_strong_explicit_f32/f64, 2370-2382: success, new contents, new *expected. *)
Definition f_cas (dst expected desired : Z) : bool * Z * Z := if dst =? expected then (true, desired, expected) else (false, dst, dst).

(** ** join_work, examples/work-steal.c 175-180 *)
(** A task of a group: not run, run but not joined, joined; each runs print_task (222-231), whose last act is join_work. *)
Inductive tpos := Waiting | Ran | Joined.
(** join_count of the continuation (40), the tasks, how often the continuation was started. *)
Record group := Group { join_count : Z; tasks : list tpos; started : nat }.
(** Update of a list (no counterpart in the source). *)
Fixpoint sett (i : nat) (x : tpos) (l : list tpos) : list tpos :=
  match l, i with [], _ => [] | _ :: l, O => x :: l | y :: l, S i => y :: sett i x l end.
(** A step of task [i]; atomic_fetch_sub of the 64-bit counter is one access, its result is converted to int (176). *)
Definition task_step (i : nat) (g : group) : option group :=
  match nth_error (tasks g) i with
  | Some Waiting => Some (Group (join_count g) (sett i Ran (tasks g)) (started g))
  | Some Ran => Some (Group (u64 (join_count g - 1)) (sett i Joined (tasks g)) (if s32 (join_count g) =? 1 then S (started g) else started g))
  | _ => None
  end.
(** Any interleaving of the threads that run the tasks (no single place in the code); steps of finished tasks are ignored. *)
Fixpoint group_run (s : list nat) (g : group) : group :=
  match s with [] => g | i :: s => group_run s (match task_step i g with Some g => g | None => g end) end.
(** main, 253-272: join_count is set to the number of tasks (256), each of which has the continuation as its second argument (268). *)
Definition new_group (n : nat) : group := Group (Z.of_nat n) (repeat Waiting n) 0.
