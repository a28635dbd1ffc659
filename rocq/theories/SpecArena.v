(** Specification vocabulary for arenas (C45-C49). *)
From Verif Require Export ArenaModel.

(** Two address ranges without a common byte. *)
Definition apart (a n b m : Z) : Prop := a + n <= b \/ b + m <= a.

(** The system allocator: NULL, or a 16-byte aligned block in the lower half of the
    address space that shares no byte with a block still allocated (an
    empty request counts as one byte). *)
Definition honest (P : allocator) : Prop := forall k h n, 0 <= n ->
  P k h n = 0 \/
  (0 < P k h n /\ P k h n + n < 9223372036854775808 /\ P k h n mod 16 = 0 /\
   forall b, In b h -> b_live b = true -> apart (P k h n) (Z.max 1 n) (b_addr b) (b_size b)).

(** The chunks of arena [a]: those reached from it along the next pointers. *)
Inductive owned (m : mem) (a : Z) : Z -> Prop :=
| owned_first b h : find a (heap m) = Some b -> b_hdr b = Some h -> h_next h <> 0 -> owned m a (h_next h)
| owned_next c b h : owned m a c -> find c (heap m) = Some b -> b_hdr b = Some h -> h_next h <> 0 -> owned m a (h_next h).

(** A returned block (arena, address, size) lies in a live chunk of its arena, past the 256-byte header. *)
Definition well_placed (m : mem) (g : Z * Z * Z) : Prop :=
  let '(a, p, n) := g in
  exists c x, owned m a c /\ find c (heap m) = Some x /\ b_live x = true /\ c + 256 <= p /\ p + n <= c + b_size x.
(** Two returned blocks do not overlap. *)
Definition blocks_apart (g g' : Z * Z * Z) : Prop := apart (snd (fst g)) (snd g) (snd (fst g')) (snd g').
