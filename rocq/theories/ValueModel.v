(** The value behind a pointer: raii_value and get_arg (src/raii.c 549-555, 579-581) and the members of values_type (include/raii.h 98-125).

    An object is the list of its bytes, from the address on to its end; [None] is NULL. Simplified: a function that ends by "return;" (554) and whose value is used has undefined
    behaviour (N1570 6.9.1p12), whatever the compiler makes of the constraint violation; the bits of float and double are not interpreted. *)
From Verif Require Export Base.
Import ListNotations.

(** sizeof(values_type): the largest members are char[256], include/raii.h 123-124. *)
Definition union_size : nat := 256.
(** raii_value, src/raii.c 549-555: the whole union is copied. *)
Definition raii_value (data : option (list Z)) : out (list Z) :=
  match data with
  | None => Undef UninitRead
  | Some b => if (length b <? union_size)%nat then Undef OobRead else Ok (firstn union_size b)
  end.
(** get_arg, src/raii.c 579-581. *)
Definition get_arg (params : option (list Z)) : out (list Z) := raii_value params.
(** The kinds of members: width in bytes and signedness, include/raii.h 99-122 (pointers and size_t: 8 bytes, unsigned; bool: 1 byte). *)
Record member := Member { bytes_of : nat; is_signed : bool }.
(** integer, u_int, long_long (and s_long), max_size (and u_long, pointers, thread), s_short, u_short, schar, uchar (and boolean): include/raii.h 99-122. *)
Definition members : list member := [Member 4 true; Member 4 false; Member 8 true; Member 8 false; Member 2 true; Member 2 false; Member 1 true; Member 1 false].
(** Reading a member of a union value: its first bytes, little-endian, two's complement (include/raii.h 98-125). *)
Definition read_member (m : member) (v : list Z) : Z :=
  let x := le (firstn (bytes_of m) v) in
  let w := 2 ^ (8 * Z.of_nat (bytes_of m)) in
  if is_signed m && (w <=? 2 * x) then x - w else x.
(** thrd_get's value of a finished result, src/future.c 116-119: through NULL (thrd_value(0), include/raii.h 299) when there is none. *)
Definition result_value (r : option (list Z)) : out (list Z) :=
  match r with
  | None => Undef NullDeref
  | Some _ => raii_value r
  end.
