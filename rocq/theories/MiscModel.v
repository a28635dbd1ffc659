(** Type tags (src/raii.c 694-736, include/raii.h 30-90), the Windows mmap
    emulation (src/mman.c) and the first library call of a thread
    (src/raii.c 99-127, 192-198, 471-473). *)
From Verif Require Export Base DeferModel Base64Model.

(** ** type tags *)

(** enum raii_type, include/raii.h 30-90, in declaration order. *)
Inductive raii_type :=
| T_NULL | T_INT | T_ENUM | T_INTEGER | T_UINT | T_SLONG | T_ULONG | T_LLONG | T_MAXSIZE | T_FLOAT | T_DOUBLE
| T_BOOL | T_SHORT | T_USHORT | T_CHAR | T_UCHAR | T_UCHAR_P | T_CHAR_P | T_CONST_CHAR | T_STRING | T_ARRAY
| T_HASH | T_OBJ | T_PTR | T_FUNC | T_NAN | T_DEF_ARR | T_DEF_FUNC | T_ROUTINE | T_OA_HASH | T_REFLECT_TYPE
| T_REFLECT_INFO | T_REFLECT_VALUE | T_MAP_VALUE | T_MAP_STRUCT | T_MAP_ITER | T_MAP_ARR | T_ERR_PTR
| T_ERR_CONTEXT | T_PROMISE | T_FUTURE | T_FUTURE_ARG | T_EVENT_ARG | T_ARGS | T_PROCESS | T_SCHED | T_CHANNEL
| T_STRUCT | T_UNION | T_VALUE | T_NO_INSTANCE | T_ARENA | T_THREAD | T_GUARDED_STATUS | T_QUEUE | T_SPAWN
| T_POOL | T_SYNC | T_COUNT.

(** The enumerators again, as a list: include/raii.h 31-89. *)
Definition raii_types : list raii_type :=
  [T_NULL; T_INT; T_ENUM; T_INTEGER; T_UINT; T_SLONG; T_ULONG; T_LLONG; T_MAXSIZE; T_FLOAT; T_DOUBLE;
   T_BOOL; T_SHORT; T_USHORT; T_CHAR; T_UCHAR; T_UCHAR_P; T_CHAR_P; T_CONST_CHAR; T_STRING; T_ARRAY;
   T_HASH; T_OBJ; T_PTR; T_FUNC; T_NAN; T_DEF_ARR; T_DEF_FUNC; T_ROUTINE; T_OA_HASH; T_REFLECT_TYPE;
   T_REFLECT_INFO; T_REFLECT_VALUE; T_MAP_VALUE; T_MAP_STRUCT; T_MAP_ITER; T_MAP_ARR; T_ERR_PTR;
   T_ERR_CONTEXT; T_PROMISE; T_FUTURE; T_FUTURE_ARG; T_EVENT_ARG; T_ARGS; T_PROCESS; T_SCHED; T_CHANNEL;
   T_STRUCT; T_UNION; T_VALUE; T_NO_INSTANCE; T_ARENA; T_THREAD; T_GUARDED_STATUS; T_QUEUE; T_SPAWN;
   T_POOL; T_SYNC; T_COUNT].
Scheme Equality for raii_type.
(** An enumerator's value is its position (C 6.7.2.2; include/raii.h 30-90 gives none explicitly). *)
Fixpoint position (t : raii_type) (l : list raii_type) : Z :=
  match l with
  | [] => 0
  | x :: l' => if raii_type_beq t x then 0 else 1 + position t l'
  end.
(** The value of an enumerator of raii.h 30-90. *)
Definition code (t : raii_type) : Z := position t raii_types.

(** type_of, raii.c 694-696: the first 32-bit word of the object; [None] is a NULL pointer. *)
Definition type_of (self : option Z) : out Z := match self with Some w => Ok (u32 w) | None => Undef NullDeref end.
(** raii.c 698-700; the number given here is the status field of the unique_t (include/raii.h 162-175), not its first word. *)
Definition is_guard (self : option Z) : bool :=
  match self with None => false | Some w => u32 w =? code T_GUARDED_STATUS end.
(** raii.c 702-704. *)
Definition is_type (self : option Z) (check : Z) : out bool := let* t := type_of self in Ok (t =? check).
(** raii.c 706-708. *)
Definition is_instance_of (self check : option Z) : out bool :=
  let* a := type_of self in let* b := type_of check in Ok (a =? b).
(** raii.c 710-712. *)
Definition is_value (self : option Z) : out bool :=
  let* a := type_of self in Ok ((code T_NULL <? a) && (a <? code T_NAN)).
(** raii.c 714-716. *)
Definition is_instance (self : option Z) : out bool :=
  let* a := type_of self in Ok ((code T_NAN <? a) && (a <? code T_NO_INSTANCE)).
(** raii.c 718-720. *)
Definition is_valid (self : option Z) : out bool :=
  let* v := is_value self in if v then Ok true else is_instance self.
(** raii.c 722-728; the argument of is_zero is converted to size_t. *)
Definition is_zero (n : Z) : bool := u64 n =? 0.
(** is_empty, raii.c 726-728. *)
Definition is_empty (self : option Z) : bool := match self with None => true | Some _ => false end.
(** raii.c 730-736. *)
Definition is_true (b : bool) : bool := Bool.eqb b true.
(** is_false, raii.c 734-736. *)
Definition is_false (b : bool) : bool := Bool.eqb b false.

(** ** mmap emulation *)

(** include/compat/sys/mman.h 51-54. *)
Definition PROT_NONE : Z := 0.
(** include/compat/sys/mman.h 53. *)
Definition PROT_READ : Z := 1.
(** include/compat/sys/mman.h 54. *)
Definition PROT_WRITE : Z := 2.
(** include/compat/sys/mman.h 55. *)
Definition PROT_EXEC : Z := 4.
(** Windows SDK constants used in mman.c 42-60. *)
Definition PAGE_READONLY : Z := 2.
(** Windows SDK, used in mman.c 43-45. *)
Definition PAGE_READWRITE : Z := 4.
(** Windows SDK, used in mman.c 43-45. *)
Definition PAGE_EXECUTE_READ : Z := 32.
(** Windows SDK, used in mman.c 43-45. *)
Definition PAGE_EXECUTE_READWRITE : Z := 64.
(** Windows SDK, used in mman.c 58-60. *)
Definition FILE_MAP_WRITE : Z := 2.
(** Windows SDK, used in mman.c 58-60. *)
Definition FILE_MAP_READ : Z := 4.
(** mman.c 25-27. *)
Definition FILE_MAP_EXECUTE : Z := 32.

(** __map_mmap_prot_page, mman.c 36-49. *)
Definition map_prot_page (prot : Z) : Z :=
  if prot =? PROT_NONE then 0
  else if negb (Z.land prot PROT_EXEC =? 0)
  then if negb (Z.land prot PROT_WRITE =? 0) then PAGE_EXECUTE_READWRITE else PAGE_EXECUTE_READ
  else if negb (Z.land prot PROT_WRITE =? 0) then PAGE_READWRITE else PAGE_READONLY.

(** __map_mmap_prot_file, mman.c 51-65. *)
Definition map_prot_file (prot : Z) : Z :=
  if prot =? PROT_NONE then 0
  else
    let a := if negb (Z.land prot PROT_READ =? 0) then Z.lor 0 FILE_MAP_READ else 0 in
    let a := if negb (Z.land prot PROT_WRITE =? 0) then Z.lor a FILE_MAP_WRITE else a in
    if negb (Z.land prot PROT_EXEC =? 0) then Z.lor a FILE_MAP_EXECUTE else a.

(** What mmap asks of Windows: CreateFileMapping(h, NULL, protect, size_high,
    size_low, NULL) and MapViewOfFile(fm, access, off_high, off_low, view). *)
Record request := Request {
  r_protect : Z; r_size_high : Z; r_size_low : Z;
  r_access : Z; r_off_high : Z; r_off_low : Z; r_view : Z }.
(** EINVAL of mman.c 93-98, or the request. *)
Inductive mapping := EINVAL | Ask (r : request).

(** The two definitions of OffsetType, include/compat/sys/mman.h 40-44: int64_t on
    64-bit Windows, uint32_t otherwise; [conv] is conversion to it, [add] is +. *)
Definition off_conv (win64 : bool) (x : Z) : Z := if win64 then s64 x else u32 x.
(** Addition of two OffsetType, mman.c 82. *)
Definition off_add (win64 : bool) (x y : Z) : out Z :=
  if win64
  then if (-9223372036854775808 <=? x + y) && (x + y <? 9223372036854775808) then Ok (x + y) else Undef SignedOverflow
  else Ok (u32 (x + y)).
(** mman.c 77, 84: the low half ([sizeof(OffsetType) <= sizeof(DWORD)] is [negb win64]). *)
Definition low_half (win64 : bool) (x : Z) : Z := if win64 then u32 (Z.land x 4294967295) else u32 x.
(** mman.c 78, 85: the high half. *)
Definition high_half (win64 : bool) (x : Z) : Z := if win64 then u32 (Z.land (Z.shiftr x 32) 4294967295) else 0.

(** mmap, mman.c 67-128, up to the two system calls; the handle, the address
    hint and the results of the system calls are not modelled. *)
Definition mmap (win64 : bool) (len prot off : Z) : out mapping :=
  let* max := off_add win64 off (off_conv win64 len) in
  if (len =? 0) || (prot =? PROT_EXEC) then Ok EINVAL
  else Ok (Ask (Request (map_prot_page prot) (high_half win64 max) (low_half win64 max)
                        (map_prot_file prot) (high_half win64 off) (low_half win64 off) len)).

(** ** first library call on a thread *)

(** The thread's [raii] variable: NULL until raii_init has run (raii.c 99-101). *)
Definition thread := option scope.

(** raii_init, raii.c 103-127; [a] and [stack] are the address of the thread's
    buffer and the current exception context's list.  Signal set-up and atexit
    registration are not modelled here. *)
Definition init_call (a stack : Z) (t : thread) : thread :=
  match t with
  | Some s => Some s
  | None => Some (raii_init a stack 0)
  end.

(** The address of RAII_FREE (include/exception.h 41): some word. *)
Definition FREE_FN : Z := 2.
(** calloc_full on a scope pointer, raii.c 248-259: the allocation comes first, then
    the scope's protector is read. *)
Definition calloc_on (E : env) (size : Z) (t : thread) : out (Z * thread) :=
  match t with
  | None => if place E 0 size =? 0 then Panics else Undef NullDeref
  | Some s => let* (r, s') := malloc_full E size FREE_FN s in
              match r with None => Panics | Some a => Ok (a, Some s') end
  end.

(** str_encode64_ex on a scope pointer, swar.c 786-823 (the text itself is
    [Base64Model.str_encode64_ex]). *)
Definition encode64_on (E : env) (t : thread) (s : list Z) : out (option (list Z) * thread) :=
  let len := Z.of_nat (length s) in
  let olen := u64 (str_base64_len len + 1) in
  if olen <? len then Ok (None, t)
  else let* (a, t') := calloc_on E olen t in
       let* r := str_encode64_ex s in Ok (r, t').

(** str_decode64_ex on a scope pointer, swar.c 825-875. *)
Definition decode64_on (E : env) (t : thread) (s : list Z) : out (option (list Z) * thread) :=
  let* count := decode_count s 0 in
  if (count =? 0) || negb (count mod 4 =? 0) then Ok (None, t)
  else let* (a, t') := calloc_on E (u64 (count / 4 * 3 + 1)) t in
       let* r := str_decode64_ex s in Ok (r, t').

(** raii_encode64, raii.c 192-194, and raii_decode64, raii.c 196-198. *)
Definition raii_encode64 (E : env) (a stack : Z) (t : thread) (s : list Z) := encode64_on E (init_call a stack t) s.
(** raii_decode64, raii.c 196-198. *)
Definition raii_decode64 (E : env) (t : thread) (s : list Z) := decode64_on E t s.

(** raii_defer, raii.c 471-473. *)
Definition raii_defer (E : env) (f d : Z) (t : thread) : out thread :=
  match t with
  | None => Undef NullDeref
  | Some s => let* (i, s') := raii_deferred E f d s in Ok (Some s')
  end.
(** raii_mid, raii.c 131-133. *)
Definition raii_mid (t : thread) : out Z := match t with None => Undef NullDeref | Some s => Ok (mid s) end.

(** A thread's history of such calls. *)
Inductive tcall := CEncode (s : list Z) | CDecode (s : list Z) | CInit | CDefer (f d : Z) | CMid.
(** Calls of the functions above in sequence (the caller, no counterpart in the source). *)
Definition step_call (E : env) (a stack : Z) (c : tcall) (t : thread) : out thread :=
  match c with
  | CEncode s => let* (r, t') := raii_encode64 E a stack t s in Ok t'
  | CDecode s => let* (r, t') := raii_decode64 E t s in Ok t'
  | CInit => Ok (init_call a stack t)
  | CDefer f d => raii_defer E f d t
  | CMid => let* m := raii_mid t in Ok t
  end.
(** Calls of the functions above in sequence (the caller, no counterpart in the source). *)
Fixpoint run_calls (E : env) (a stack : Z) (l : list tcall) (t : thread) : out thread :=
  match l with
  | [] => Ok t
  | c :: l' => let* t' := step_call E a stack c t in run_calls E a stack l' t'
  end.
