(** Outcomes, machine integers and byte blocks shared by all models.

    The build modelled is 64-bit, little-endian, POSIX, release
    (include/rtypes.h 29-69 for the integer types).  This file holds
    definitions only; lemmas are in BaseLemmas.v. *)
From Coq Require Export ZArith List Bool Lia.
Export ListNotations.
Open Scope Z_scope.

(** Reasons for undefined behaviour.  C has no such values: they make
    "the program may do anything" a distinct outcome of the model. *)
Inductive ub :=
| OobRead        (* a read outside the block                         *)
| OobWrite       (* a write outside the block                        *)
| BadShift       (* shift count >= width of the operand              *)
| BadBuiltin     (* __builtin_ctzll/clzll of 0 (src/swar.c 44-64)    *)
| SignedOverflow (* abs(INT_MIN), -INT64_MIN                         *)
| NullDeref      (* a field of a NULL object                         *)
| UseAfterFree   (* a field of a released object                     *)
| DoubleFree     (* releasing a released object                      *)
| WildPointer    (* an address computed from a value that is no address *)
| UninitRead     (* use of an uninitialised field                    *)
| DeadJump       (* longjmp into a frame that has been left           *)
| DivZero.       (* integer division by zero                          *)

(** Result of running a piece of C. *)
Inductive out (A : Type) :=
| Ok (a : A)
| Undef (u : ub)
| Panics          (* raii_panic / ex_throw leaves the function        *)
| NoFuel.         (* the loop bound given to the model was too small  *)
Arguments Ok {A} a.
Arguments Undef {A} u.
Arguments Panics {A}.
Arguments NoFuel {A}.

(** Sequencing of C statements (no counterpart in the source). *)
Definition bind {A B} (x : out A) (f : A -> out B) : out B :=
  match x with
  | Ok a => f a
  | Undef u => Undef u
  | Panics => Panics
  | NoFuel => NoFuel
  end.
Notation "'let*' x := e 'in' k" := (bind e (fun x => k))
  (at level 200, x pattern, e at level 100, k at level 200, right associativity).

(** The two readings of C: what an out-of-bounds read yields ([None]:
    undefined; [Some g]: the byte [g] gives for that offset) and whether
    a shift by the full width is undefined or masked as on x86-64. *)
Record sem := Sem { oob : option (Z -> Z); wide_shift : bool }.

(** ISO C reading. *)
Definition strict : sem := Sem None false.
(** Machine reading with garbage [g] around every block. *)
Definition machine (g : Z -> Z) : sem := Sem (Some g) true.

(** uint64_t, uint32_t, uint16_t, unsigned char conversions
    (include/rtypes.h 29-36). *)
Definition u64 (x : Z) : Z := x mod 18446744073709551616.
Definition u32 (x : Z) : Z := x mod 4294967296.
Definition u16 (x : Z) : Z := x mod 65536.
Definition u8 (x : Z) : Z := x mod 256.
(** Conversions to int64_t and int32_t (two's complement, as GCC defines them). *)
Definition s64 (x : Z) : Z :=
  let y := u64 x in if y <? 9223372036854775808 then y else y - 18446744073709551616.
Definition s32 (x : Z) : Z :=
  let y := u32 x in if y <? 2147483648 then y else y - 4294967296.
(** Bitwise complement of a uint64_t. *)
Definition not64 (x : Z) : Z := u64 (Z.lnot x).

(** x << n and x >> n on uint64_t. *)
Definition shl64 (S : sem) (x n : Z) : out Z :=
  if (0 <=? n) && (n <? 64) then Ok (u64 (Z.shiftl x n))
  else if wide_shift S then Ok (u64 (Z.shiftl x (n mod 64)))
  else Undef BadShift.
Definition shr64 (S : sem) (x n : Z) : out Z :=
  if (0 <=? n) && (n <? 64) then Ok (Z.shiftr x n)
  else if wide_shift S then Ok (Z.shiftr x (n mod 64))
  else Undef BadShift.

(** Byte [i] of block [b]; the block is the object the pointer points into. *)
Definition rd (S : sem) (b : list Z) (i : Z) : out Z :=
  if (0 <=? i) && (i <? Z.of_nat (length b))
  then Ok (nth (Z.to_nat i) b 0)
  else match oob S with
       | Some g => Ok (u8 (g i))
       | None => Undef OobRead
       end.

(** [n] bytes starting at [i] (the reading half of memcpy). *)
Fixpoint rdn (S : sem) (b : list Z) (i : Z) (n : nat) : out (list Z) :=
  match n with
  | O => Ok []
  | Datatypes.S n' =>
      let* x := rd S b i in
      let* l := rdn S b (i + 1) n' in
      Ok (x :: l)
  end.

(** Store the bytes [l] at offset [i] of [b] (the writing half of memcpy). *)
Definition blit (b : list Z) (i : Z) (l : list Z) : out (list Z) :=
  if (0 <=? i) && (i + Z.of_nat (length l) <=? Z.of_nat (length b))
  then Ok (firstn (Z.to_nat i) b ++ l ++ skipn (Z.to_nat i + length l) b)
  else Undef OobWrite.

(** Little-endian value of a byte list, and back. *)
Fixpoint le (l : list Z) : Z :=
  match l with
  | [] => 0
  | b :: l' => b + 256 * le l'
  end.
Fixpoint to_le (n : nat) (x : Z) : list Z :=
  match n with
  | O => []
  | Datatypes.S n' => x mod 256 :: to_le n' (x / 256)
  end.
