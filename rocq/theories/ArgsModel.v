(** Argument packs: src/raii.c 557-692, include/raii.h 98-131, 177-189.

    A slot (raii_values_t) is represented by the first eight bytes of its union, as an unsigned number: no accessor
    for the letters reads further.  Simplified: try_calloc and try_realloc succeed and realloc keeps the contents;
    a pointer is a number, memory around the call is eight-byte cells. *)
From Verif Require Export DeferModel.

(** The arguments behind the descriptor, in the order passed: an integer or pointer register slot (eight bytes, of which
    an int fills the lower four), or a double (its bits). *)
Inductive varg := AWord (w : Z) | ADouble (w : Z).
(** What raii_args_ex can touch: the length of the string at an address, the eight bytes at an address ([None]: not accessible). *)
Record amem := Mem { slen : Z -> Z; cell : Z -> option Z }.
(** A store of eight bytes through a pointer argument, raii.c 656-660. *)
Definition poke (a v : Z) (m : amem) : amem := Mem (slen m) (fun x => if x =? a then Some v else cell m x).

(** Letters of the descriptor (ASCII). *)
Definition c_l := 108. Definition c_z := 122. Definition c_u := 117. Definition c_i := 105. Definition c_d := 100. Definition c_c := 99.
(** Letters of the descriptor (ASCII), the cases of raii_args_ex. *)
Definition c_s := 115. Definition c_a := 97. Definition c_x := 120. Definition c_f := 102. Definition c_p := 112.
(** sizeof(raii_values_t): a 256-byte union and two words, raii.h 123-131. *)
Definition VALUES_SIZE : Z := 272.

(** va_arg for an integer or pointer, for a double; reading a missing argument or one of the other class is undefined. *)
Definition next_word (l : list varg) : out (Z * list varg) := match l with AWord w :: r => Ok (w, r) | _ => Undef WildPointer end.
(** va_arg(ap, double). *)
Definition next_double (l : list varg) : out (Z * list varg) := match l with ADouble w :: r => Ok (w, r) | _ => Undef WildPointer end.

(** The label default of the switch, raii.c 655-660: memcpy(params->args[i].value.object, p, sizeof(p)). *)
Definition arg_default (old : Z) (l : list varg) (m : amem) : out (Z * list varg * amem) :=
  let* (p, l) := next_word l in
  if old =? 0 then Undef NullDeref
  else match cell m p with
       | None => Undef OobRead
       | Some v => match cell m old with None => Undef OobWrite | Some _ => Ok (old, l, poke old v m) end
       end.
(** One round of the loop, raii.c 602-662, on a zeroed slot. *)
Definition arg_step (c : Z) (l : list varg) (m : amem) : out (Z * list varg * amem) :=
  if (c =? c_l) || (c =? c_z) || (c =? c_d) || (c =? c_a) || (c =? c_x) then let* (w, l) := next_word l in Ok (u64 w, l, m)
  else if (c =? c_u) || (c =? c_i) then let* (w, l) := next_word l in Ok (u32 w, l, m)
  else if c =? c_c then let* (w, l) := next_word l in Ok (w mod 256, l, m)
  else if c =? c_s then
    let* (w, l) := next_word l in
    if VALUES_SIZE <? slen m w then Undef NullDeref (* strncpy to char_ptr of a zeroed slot *) else Ok (u64 w, l, m)
  else if c =? c_f then let* (w, l) := next_double l in Ok (u64 w, l, m)
  else if c =? c_p then let* (w, l) := next_word l in arg_default (u64 w) l m
  else arg_default 0 l m.
(** raii_args_ex, raii.c 593-670; also raii_args_for and args_for, 672-692. *)
Fixpoint raii_args_ex (desc : list Z) (l : list varg) (m : amem) : out (list Z * amem) :=
  match desc with
  | [] => Ok ([], m)
  | c :: desc => let* (r, m) := arg_step c l m in let '(v, l) := r in let* (vs, m) := raii_args_ex desc l m in Ok (v :: vs, m)
  end.

(** Members of the union, raii.h 98-125, of a slot. *)
Definition as_int (v : Z) : Z := let x := v mod 4294967296 in if x <? 2147483648 then x else x - 4294967296.
(** Member u_int of the union, raii.h 100. *)
Definition as_uint (v : Z) : Z := v mod 4294967296.
(** Members s_long, long_long of the union, raii.h 102-104. *)
Definition as_long (v : Z) : Z := let x := v mod 18446744073709551616 in if x <? 9223372036854775808 then x else x - 18446744073709551616.
(** Member schar of the union, raii.h 114. *)
Definition as_schar (v : Z) : Z := let x := v mod 256 in if x <? 128 then x else x - 256.

(** args_in, raii.c 587-591, [index] an int converted to size_t (get_args). *)
Definition args_in (slots : list Z) (index : Z) : out Z :=
  if u64 index <? Z.of_nat (length slots) then match nth_error slots (Z.to_nat (u64 index)) with Some v => Ok v | None => Undef OobRead end else Undef NullDeref.

(** A scope with the defer_set flags of the packs used with it. *)
Record argst := ArgSt { a_scope : scope; a_set : Z -> bool }.
(** raii_get_args with a scope, raii.c 565-577; [p]: address of the pack, [free]: address of args_free. *)
Definition raii_get_args (E : env) (free p : Z) (slots : list Z) (item : Z) (st : argst) : out (Z * argst) :=
  let* st :=
    if a_set st p then Ok st
    else let* (_, s) := raii_deferred E free p (a_scope st) in Ok (ArgSt s (fun q => if q =? p then true else a_set st q)) in
  let* v := args_in slots item in Ok (v, st).
(** Any history of accesses: pack and index; [slots p]: the values of pack [p]. *)
Fixpoint accesses (E : env) (free : Z) (slots : Z -> list Z) (h : list (Z * Z)) (st : argst) : out argst :=
  match h with
  | [] => Ok st
  | (p, i) :: h => let* (_, st) := raii_get_args E free p (slots p) i st in accesses E free slots h st
  end.
