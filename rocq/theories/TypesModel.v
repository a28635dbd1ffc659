(** The macros align_up, Kb, Mb and Gb of include/rtypes.h with the integer types of C: promotions, usual arithmetic conversions, wrapping of unsigned and overflow of signed
    arithmetic.

    Simplified: the types are those of 8, 16, 32 and 64 bits, signed or not; a conversion to a signed type that does not fit wraps, as with GCC. *)
From Verif Require Export Base.
Import ListNotations.

(** A type, for the operands of include/rtypes.h 91 and 121-123: width and whether it is signed. *)
Record ty := Ty { width : Z; signed : bool }.
(** A value with its type, an operand of include/rtypes.h 91 and 121-123. *)
Record tv := Tv { type : ty; val : Z }.
(** int, the type of the constants of include/rtypes.h 91 and 121-123. *)
Definition int_ : ty := Ty 32 true.
(** u64, include/rtypes.h 121-123. *)
Definition u64_ : ty := Ty 64 false.
(** The integer promotions of the operands of include/rtypes.h 91 and 121-123. *)
Definition promote (t : ty) : ty := if width t <? 32 then int_ else t.
(** The usual arithmetic conversions in include/rtypes.h 91 and 121-123. *)
Definition common (a b : ty) : ty :=
  let a := promote a in let b := promote b in
  if width a =? width b then Ty (width a) (signed a && signed b) else if width a <? width b then b else a.
(** The values of a type, for include/rtypes.h 91 and 121-123. *)
Definition fits (t : ty) (x : Z) : bool := if signed t then (- 2 ^ (width t - 1) <=? x) && (x <? 2 ^ (width t - 1)) else (0 <=? x) && (x <? 2 ^ width t).
(** A conversion, in include/rtypes.h 91 and 121-123. *)
Definition wrap (t : ty) (x : Z) : Z :=
  let y := x mod 2 ^ width t in if signed t && (2 ^ (width t - 1) <=? y) then y - 2 ^ width t else y.
(** The result of an arithmetic operator of include/rtypes.h 91 and 121-123. *)
Definition arith (t : ty) (x : Z) : out tv := if signed t then if fits t x then Ok (Tv t x) else Undef SignedOverflow else Ok (Tv t (wrap t x)).
(** A binary operator of include/rtypes.h 91 and 121-123 on converted operands. *)
Definition binary (f : Z -> Z -> Z) (a b : tv) : out tv := let t := common (type a) (type b) in arith t (f (wrap t (val a)) (wrap t (val b))).
(** ~x, include/rtypes.h 91. *)
Definition bit_not (a : tv) : tv := let t := promote (type a) in Tv t (if signed t then Z.lnot (val a) else wrap t (Z.lnot (val a))).
(** A constant, include/rtypes.h 91, 121-123. *)
Definition const (n : Z) : tv := Tv int_ n.
(** align_up(num, align), include/rtypes.h 91. *)
Definition align_up (num align : tv) : out tv :=
  let* m := binary Z.sub align (const 1) in
  let* s := binary Z.add num m in
  let* m' := binary Z.sub align (const 1) in
  binary Z.land s (bit_not m').

(** count * 1024 * … with [k] factors, include/rtypes.h 121-123. *)
Fixpoint times_1024 (k : nat) (a : tv) : out tv := match k with O => Ok a | S k => let* b := binary Z.mul a (const 1024) in times_1024 k b end.
(** An argument a + … + z written without parentheses: in count * 1024 * … the factors belong to its last term; include/rtypes.h 121-123. *)
Fixpoint scaled_sum (k : nat) (acc : option tv) (terms : list tv) : out tv :=
  match terms with
  | [] => Undef UninitRead
  | [t] => let* t := times_1024 k t in match acc with None => Ok t | Some a => binary Z.add a t end
  | t :: l => let* a := match acc with None => Ok t | Some a => binary Z.add a t end in scaled_sum k (Some a) l
  end.
(** Kb (1 factor), Mb (2) and Gb (3) of a sum of terms, include/rtypes.h 121-123: a u64. *)
Definition size_macro (k : nat) (terms : list tv) : out Z := let* r := scaled_sum k None terms in Ok (wrap u64_ (val r)).
