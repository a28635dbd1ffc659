(** Atomic operations as TinyCC compiles them for processors other than x86: c89atomic_compare_and_swap_8/16/32/64 (include/catomic.h 1371-1372, 1390-1391, 1409-1410, 1439-1440), the loads
    (1869-1891), the loops of fetch_sub, fetch_and, fetch_xor, fetch_or (1642-1859) and compare_exchange (1915-1991) built from it; c89atomic_cas_32, c89atomic_cas_64 and
    c89atomic_swap of TinyCC for Windows (2581-2620).

    Simplified: one thread, as that is enough for what is found; atomic_compare_exchange_strong is that of the compiler and does what C11 says. *)
From Verif Require Export AtomicModel.
Import ListNotations.

(** atomic_compare_exchange_strong of C11 on the value of the object and of *expected: the result, the object, *expected (include/catomic.h 1372 calls it). *)
Definition c11_cas (v e d : Z) : bool * Z * Z := if v =? e then (true, d, e) else (false, v, v).
(** c89atomic_compare_and_swap_8/16/32/64, include/catomic.h 1371-1372: the result of the exchange is what is returned; the found value stays in the parameter. *)
Definition tcc_cas (v e d : Z) : Z * Z := let '(b, v', _) := c11_cas v e d in ((if b then 1 else 0), v').
(** c89atomic_load_explicit_8/16/32/64, include/catomic.h 1869-1891: the result and the variable. *)
Definition tcc_load (v : Z) : Z * Z := tcc_cas v 0 0.
(** The loops, include/catomic.h 1640-1646 and so on to 1859: the result and the variable. *)
Fixpoint tcc_fetch (fuel : nat) (w : Z) (o : rmw) (v : Z) : out (Z * Z) :=
  match fuel with
  | O => NoFuel
  | S fuel => let '(r, v') := tcc_cas v v (new_value w o v) in if r =? v then Ok (v, v') else tcc_fetch fuel w o v'
  end.
(** c89atomic_compare_exchange_strong_explicit_8/16/32/64, include/catomic.h 1916-1991: the result, the variable, *expected. *)
Definition tcc_exchange (v e d : Z) : bool * Z * Z :=
  let '(ev, e) := tcc_load e in
  let '(r, v) := tcc_cas v ev d in
  if r =? ev then (true, v, e) else (false, v, r).
(** c89atomic_cas_32 and c89atomic_cas_64 of TinyCC for Windows, include/catomic.h 2581-2583, 2595-2597: [cmp] is the pointer passed, [e] what it points to; the exchange is given the
    address of the parameter. *)
Definition tcc_cas_win (v cmp e d : Z) : bool * Z * Z := let '(b, v', _) := c11_cas v cmp d in (b, v', e).
(** c89atomic_swap of TinyCC for Windows, include/catomic.h 2609-2611: [set_address] is the address of the parameter set. *)
Definition tcc_swap_win (v cmp e set_address : Z) : bool * Z * Z := tcc_cas_win v cmp e set_address.
