(** The tables of thrd_spawn, thrd_sync and thrd_then: src/future.c 203-315, include/raii.h 235-249.

    Simplified: creating a thread and allocating succeed; the workers run elsewhere (FutureModel), here only what each leaves
    in its promise is given, and what scope->err of the creator holds when its turn comes.  A thread is named by the number
    of its promise. *)
From Verif Require Export Base.

(** promise.result at the end: NULL, or value.object, size and the bytes at extended ([size] of them). *)
Inductive presult := PNull | PRes (value size : Z) (ext : list Z).
(** struct result_data, raii.h 235-239; the result is a copy of the promise's: value and, when copied, the bytes it points to. *)
Record rdata := RData { is_ready : bool; r_value : option (Z * list Z) }.
(** struct future_pool, raii.h 241-249.  Cells of the tables that were never written hold [None]; [alive]: promises of threads
    whose future has not been freed. *)
Record pool := Pool { thread_count : Z; cpu_present : Z; p_futures : list (option nat); p_results : list (option rdata); alive : list nat }.
(** thrd_scope, future.c 203-218. *)
Definition thrd_scope (cpu : Z) : pool := Pool 0 cpu [] [] [].

(** try_realloc of a table to [bytes] bytes. *)
Definition regrow {A} (l : list (option A)) (bytes : Z) : list (option A) :=
  let n := Z.to_nat (bytes / 8) in firstn n l ++ repeat None (n - length l).
(** table[i] = x. *)
Definition put {A} (l : list (option A)) (i : Z) (x : A) : out (list (option A)) :=
  if (0 <=? i) && (i <? Z.of_nat (length l)) then Ok (firstn (Z.to_nat i) l ++ Some x :: skipn (S (Z.to_nat i)) l) else Undef OobWrite.
(** table[i], read. *)
Definition fetch {A} (l : list (option A)) (i : Z) : out A :=
  if (0 <=? i) && (i <? Z.of_nat (length l)) then match nth_error l (Z.to_nat i) with Some (Some x) => Ok x | _ => Undef UninitRead end else Undef OobRead.
(** thrd_spawn, future.c 220-250, for the thread with promise [id]. *)
Definition thrd_spawn (id : nat) (p : pool) : out pool :=
  if cpu_present p =? 0 then Undef DivZero
  else
    let '(fs, rs) :=
      if u64 (thread_count p) mod cpu_present p =? 0 then
        let n := u64 (u64 (u64 (thread_count p) + cpu_present p) * 8) in (regrow (p_futures p) n, regrow (p_results p) n)
      else (p_futures p, p_results p) in
    let* fs := put fs (thread_count p) id in
    let* rs := put rs (thread_count p) (RData false None) in
    if thread_count p =? 2147483647 then Undef SignedOverflow
    else Ok (Pool (thread_count p + 1) (cpu_present p) fs rs (alive p ++ [id])).
(** thrd_spawn once for each, future.c 220-250 (the caller). *)
Fixpoint spawns (ids : list nat) (p : pool) : out pool :=
  match ids with [] => Ok p | id :: ids => let* p := thrd_spawn id p in spawns ids p end.

(** One round of thrd_sync, future.c 267-282.  [res], [err]: of each promise, and scope->err at that time. *)
Definition sync_one (keep : bool) (res : nat -> presult) (err : nat -> Z) (i : Z) (p : pool) : out pool :=
  let* id := fetch (p_futures p) i in
  if negb (existsb (Nat.eqb id) (alive p)) then Undef UseAfterFree
  else
    match res id with
    | PNull => Undef NullDeref
    | PRes v size ext =>
        let copy := if 0 <? size then (0, firstn (Z.to_nat size) ext) else (v, []) in
        if (0 <? size) && (Z.of_nat (length ext) <? size) then Undef OobRead
        else
          let* _ := fetch (p_results p) i in
          let* rs := put (p_results p) i (RData true (Some copy)) in
          let p := Pool (thread_count p) (cpu_present p) (p_futures p) rs (filter (fun k => negb (Nat.eqb k id)) (alive p)) in
          if keep then if err id =? 0 then Ok p else Panics else Undef UseAfterFree
    end.
(** The loop of thrd_sync, future.c 265-283. *)
Fixpoint sync_from (n : nat) (keep : bool) (res : nat -> presult) (err : nat -> Z) (i : Z) (p : pool) : out pool :=
  match n with O => Ok p | S n => let* p := sync_one keep res err i p in sync_from n keep res err (i + 1) p end.
(** thrd_sync, future.c 261-286, without the final raii_deferred_clean (below). *)
Definition thrd_sync (keep : bool) (res : nat -> presult) (err : nat -> Z) (p : pool) : out pool :=
  sync_from (Z.to_nat (thread_count p)) keep res err 0 p.

(** thrd_then, future.c 288-293: the calls made, as (first argument, index, value). *)
Fixpoint then_from (n : nat) (cb : Z -> Z -> Z * list Z -> Z) (rs : list (option rdata)) (i acc : Z) : out (list (Z * Z * (Z * list Z))) :=
  match n with
  | O => Ok []
  | S n =>
      let* r := fetch rs i in
      if is_ready r then
        match r_value r with
        | None => Undef NullDeref
        | Some v => let* l := then_from n cb rs (i + 1) (cb acc i v) in Ok ((acc, i, v) :: l)
        end
      else then_from n cb rs (i + 1) acc
  end.
(** thrd_then, future.c 288-293. *)
Definition thrd_then (cb : Z -> Z -> Z * list Z -> Z) (p : pool) (acc : Z) : out (list (Z * Z * (Z * list Z))) :=
  then_from (Z.to_nat (thread_count p)) cb (p_results p) 0 acc.

(** ** The creator's scope, which owns all its promises (promise_create, future.c 13-21: calloc_default) *)
(** [owned]: promises deferred on it, [gone]: released ones, [over]: raii_deferred_free has run on it (raii.c 427-443 then does
    nothing any more, C27). *)
Record owner := Owner { owned : list nat; gone : list nat; over : bool }.
(** promise_create, future.c 13-21. *)
Definition promise_create (id : nat) (o : owner) : owner := Owner (owned o ++ [id]) (gone o) (over o).
(** raii_deferred_clean, raii.c 445-447; called at the end of thrd_sync, future.c 284. *)
Definition raii_deferred_clean (o : owner) : owner := if over o then o else Owner [] (gone o ++ owned o) true.
(** f->value->type, first read of thrd_get, future.c 112. *)
Definition promise_read (id : nat) (o : owner) : out unit := if existsb (Nat.eqb id) (gone o) then Undef UseAfterFree else Ok tt.
