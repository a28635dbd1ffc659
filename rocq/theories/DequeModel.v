(** The work-stealing deque of examples/work-steal.c 46-152.

    One owner (push, take) and any number of thieves (steal), interleaved access by access, sequentially consistent.  Simplified:
    loads of variables only the owner writes (bottom and array, read by the owner) are folded into the next step; malloc succeeds; the
    copy loop of resize, which touches only memory other threads do not write, is one step. *)
From Verif Require Export Base.

(** array_t (50-53): size and buffer; [None]: never written. *)
Record warray := WArray { a_size : Z; a_buf : Z -> option Z }.
(** Results (48): an item, EMPTY, ABORT, or a word that was never written. *)
Inductive wres := Item (w : Z) | Empty | Abort | Junk.
(** x of take (134) and steal (151) when it is returned. *)
Definition res_of (x : option Z) : wres := match x with Some w => Item w | None => Junk end.

(** The owner's calls, 98 and 111. *)
Inductive owner_op := Push (w : Z) | Take.
(** Where the owner is: push 98-109, resize 70-81, take 111-135. *)
Inductive opc :=
| OIdle
| P1 (w b : Z)            (* load top *)
| P2 (w b t : Z)          (* load array, full? *)
| R1 (w b : Z)            (* resize: load top *)
| R2 (w b t : Z)          (* resize: copy and store array *)
| P4 (w b : Z)            (* store to the buffer *)
| P5 (w b : Z)            (* store bottom *)
| T1 (b : Z)              (* load top *)
| T2 (b t : Z)            (* store bottom *)
| T3 (b t : Z)            (* load from the buffer *)
| T4 (b t : Z) (x : option Z) (* compare and exchange top *)
| T5 (b : Z) (r : wres)   (* store bottom, return *) .
(** Where a thief is in steal, 137-152. *)
Inductive tpc :=
| S0
| S1 (t : Z)              (* load bottom *)
| S2 (t : Z)              (* load array *)
| S3 (t : Z) (k : nat)    (* load from the buffer of array [k] *)
| S4 (t : Z) (x : option Z) (* compare and exchange top *) .
(** [arrays]: all arrays so far, the last is q->array (none is freed).  [pushed]: items whose push has published them, [took], [stole]:
    results of take and of all steals, in order. *)
Record deque := Deque { top : Z; bottom : Z; arrays : list warray; oprog : list owner_op; opos : opc; thieves : list tpc;
                        pushed : list Z; took : list wres; stole : list wres }.
(** init, 62-68, and threads about to start. *)
Definition dinit (size : Z) (prog : list owner_op) (n : nat) : deque :=
  Deque 0 0 [WArray size (fun _ => None)] prog OIdle (repeat S0 n) [] [] [].

(** q->array (59). *)
Definition cur (q : deque) : warray := last (arrays q) (WArray 0 (fun _ => None)).
(** a->buffer[i % a->size], read (120, 145) and written (106). *)
Definition cell (a : warray) (i : Z) : option Z := a_buf a (i mod a_size a).
(** a->buffer[i % a->size] = w, 106. *)
Definition put_cell (a : warray) (i w : Z) : warray := WArray (a_size a) (fun k => if k =? i mod a_size a then Some w else a_buf a k).
(** The copy loop of resize, 78-79, from [i], [n] rounds. *)
Fixpoint copy (n : nat) (i : Z) (a new : warray) : warray :=
  match n with
  | O => new
  | S n => copy n (i + 1) a (WArray (a_size new) (fun k => if k =? i mod a_size new then cell a i else a_buf new k))
  end.
(** The new array of resize, 73-79. *)
Definition resized (a : warray) (t b : Z) : warray := copy (Z.to_nat (b - t)) t a (WArray (u64 (a_size a * 2)) (fun _ => None)).

(** Updates of the owner's place, of bottom (108, 115, 128), of the arrays (81, 106), and return from take (134). *)
Definition owner_at (q : deque) (pc : opc) : deque := Deque (top q) (bottom q) (arrays q) (oprog q) pc (thieves q) (pushed q) (took q) (stole q).
(** Store to bottom, 108, 115, 128. *)
Definition with_bottom (q : deque) (b : Z) (pc : opc) : deque := Deque (top q) b (arrays q) (oprog q) pc (thieves q) (pushed q) (took q) (stole q).
(** Store to the array, 81, 106. *)
Definition with_arrays (q : deque) (l : list warray) (pc : opc) : deque := Deque (top q) (bottom q) l (oprog q) pc (thieves q) (pushed q) (took q) (stole q).
(** Return from take, 134. *)
Definition taking (q : deque) (r : wres) : deque := Deque (top q) (bottom q) (arrays q) (oprog q) OIdle (thieves q) (pushed q) (took q ++ [r]) (stole q).

(** A step of the owner, 98-135 with 70-81; [None]: nothing left to do. *)
Definition ostep (q : deque) : option (out deque) :=
  match opos q with
  | OIdle =>
      match oprog q with
      | [] => None
      | Push w :: l => Some (Ok (Deque (top q) (bottom q) (arrays q) l (P1 w (bottom q)) (thieves q) (pushed q) (took q) (stole q)))
      | Take :: l => Some (Ok (Deque (top q) (bottom q) (arrays q) l (T1 (u64 (bottom q - 1))) (thieves q) (pushed q) (took q) (stole q)))
      end
  | P1 w b => Some (Ok (owner_at q (P2 w b (top q))))
  | P2 w b t => Some (Ok (owner_at q (if u64 (a_size (cur q) - 1) <? u64 (b - t) then R1 w b else P4 w b)))
  | R1 w b => Some (Ok (owner_at q (R2 w b (top q))))
  | R2 w b t => Some (if a_size (cur q) =? 0 then Undef DivZero else Ok (with_arrays q (arrays q ++ [resized (cur q) t b]) (P4 w b)))
  | P4 w b => Some (if a_size (cur q) =? 0 then Undef DivZero else Ok (with_arrays q (removelast (arrays q) ++ [put_cell (cur q) b w]) (P5 w b)))
  | P5 w b => Some (Ok (Deque (top q) (u64 (b + 1)) (arrays q) (oprog q) OIdle (thieves q) (pushed q ++ [w]) (took q) (stole q)))
  | T1 b => Some (Ok (owner_at q (T2 b (top q))))
  | T2 b t => Some (Ok (with_bottom q b (T3 b t)))
  | T3 b t =>
      if t <=? b then
        if a_size (cur q) =? 0 then Some (Undef DivZero)
        else if t =? b then Some (Ok (owner_at q (T4 b t (cell (cur q) b)))) else Some (Ok (taking q (res_of (cell (cur q) b))))
      else Some (Ok (owner_at q (T5 b Empty)))
  | T4 b t x =>
      if top q =? t then Some (Ok (Deque (u64 (t + 1)) (bottom q) (arrays q) (oprog q) (T5 b (res_of x)) (thieves q) (pushed q) (took q) (stole q)))
      else Some (Ok (owner_at q (T5 b Empty)))
  | T5 b r => Some (Ok (taking (with_bottom q (u64 (b + 1)) OIdle) r))
  end.

(** Updates of a thief's place, and return from steal (149, 151). *)
Definition sett (l : list tpc) (i : nat) (x : tpc) : list tpc := firstn i l ++ match skipn i l with [] => [] | _ :: r => x :: r end.
(** A thief's next place, 137-152. *)
Definition thief_at (q : deque) (i : nat) (pc : tpc) : deque := Deque (top q) (bottom q) (arrays q) (oprog q) (opos q) (sett (thieves q) i pc) (pushed q) (took q) (stole q).
(** Return from steal, 149 and 151. *)
Definition stealing (q : deque) (i : nat) (tp : Z) (r : wres) : deque := Deque tp (bottom q) (arrays q) (oprog q) (opos q) (sett (thieves q) i S0) (pushed q) (took q) (stole q ++ [r]).
(** A step of thief [i], 137-152; when steal returns it may be called again. *)
Definition sstep (i : nat) (q : deque) : option (out deque) :=
  match nth_error (thieves q) i with
  | None => None
  | Some pc =>
      Some (match pc with
            | S0 => Ok (thief_at q i (S1 (top q)))
            | S1 t => if t <? bottom q then Ok (thief_at q i (S2 t)) else Ok (stealing q i (top q) Empty)
            | S2 t => Ok (thief_at q i (S3 t (Nat.pred (length (arrays q)))))
            | S3 t k => match nth_error (arrays q) k with
                        | None => Undef WildPointer
                        | Some a => if a_size a =? 0 then Undef DivZero else Ok (thief_at q i (S4 t (cell a t)))
                        end
            | S4 t x => if top q =? t then Ok (stealing q i (u64 (t + 1)) (res_of x)) else Ok (stealing q i (top q) Abort)
            end)
  end.
(** A step of a thread, [None]: the owner; a schedule (no single place in the code). *)
Definition dstep (t : option nat) (q : deque) : option (out deque) := match t with None => ostep q | Some i => sstep i q end.
(** A schedule: any interleaving of the threads' steps (no single place in the code). *)
Fixpoint dsched (ts : list (option nat)) (q : deque) : out deque :=
  match ts with [] => Ok q | t :: ts => match dstep t q with Some o => let* q := o in dsched ts q | None => dsched ts q end end.
