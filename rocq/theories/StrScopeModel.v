(** The string functions of src/swar.c 627-742 and 786-875 together with the scope they are given: where their memory comes from and who
    releases it.  Their texts are computed by StrModel and Base64Model, the scope is that of DeferModel. *)
From Verif Require Export StrModel Base64Model DeferModel.
Open Scope Z_scope.

(** A call of one of the functions on a scope, or any other use of the scope. *)
Inductive scall :=
| Split (t : list Z) (delim : option (list Z))
| Concat (args : list (list Z))
| Replace (h needle repl : list Z)
| Memdup (src : list Z) (len : Z)
| Encode (t : list Z)
| Decode (t : list Z)
| Other (o : op).

(** calloc_full(scope, 1, size, RAII_FREE), src/raii.c 248-259; [rfree] is the address of RAII_FREE.  A failing try_calloc panics. *)
Definition scoped (E : env) (rfree size : Z) (s : scope) : out (Z * scope) :=
  let* (a, s1) := malloc_full E size rfree s in
  match a with None => Panics | Some a => Ok (a, s1) end.

(** What a call leaves: the functions and blocks it registered, its result (0 = NULL) and the scope.  The text is computed first; the code
    allocates in between, which makes no difference unless both fail (simplification).
    - str_split_ex, swar.c 627-666: the table and the text in one block (644-648);
    - str_concat_ex, 668-692: try_calloc (677), registered at the end by raii_deferred (688-689), no protector;
    - str_replace_ex, 694-732 (714-717);
    - str_memdup_ex, 738-742;
    - str_encode64_ex, 786-823 (796);
    - str_decode64_ex, 825-875 (842): at an invalid padding (864-867) the block stays registered and the result is NULL. *)
Definition str_call (fuel : nat) (S : sem) (E : env) (rfree : Z) (c : scall) (s : scope) : out (list (Z * Z) * Z * scope) :=
  let own size := let* (a, s1) := scoped E rfree size s in Ok ([(rfree, a)], a, s1) in
  match c with
  | Split t delim =>
      let* r := str_split_ex fuel S t delim in
      match r with None => Ok ([], 0, s) | Some (tb, text, _) => own (8 * Z.of_nat (length tb) + Z.of_nat (length text)) end
  | Concat args =>
      let* b := str_concat_ex args in
      let a := place E (ticks s) (Z.of_nat (length b)) in
      if a =? 0 then Panics else
      let* (_, s1) := raii_deferred E rfree a (tick s) in Ok ([(rfree, a)], a, s1)
  | Replace h needle repl =>
      let* r := str_replace_ex fuel h needle repl in
      match r with None => Ok ([], 0, s) | Some b => own (Z.of_nat (length b)) end
  | Memdup src len =>
      let* b := str_memdup_ex src 0 len in own (Z.of_nat (length b))
  | Encode t =>
      let* r := str_encode64_ex t in
      match r with None => Ok ([], 0, s) | Some b => own (Z.of_nat (length b)) end
  | Decode t =>
      let* count := decode_count t 0 in
      if (count =? 0) || negb (count mod 4 =? 0) then Ok ([], 0, s)
      else
        let* r := str_decode64_ex t in
        let* (l, a, s1) := own (u64 (count / 4 * 3 + 1)) in
        Ok (l, match r with None => 0 | Some _ => a end, s1)
  | Other o => let* (r, s1) := run_ops E [o] s in Ok (r, 0, s1)
  end.
(** Calls in sequence (the caller, no counterpart in the source). *)
Fixpoint str_calls (fuel : nat) (S : sem) (E : env) (rfree : Z) (cs : list scall) (s : scope) : out (list (Z * Z) * list Z * scope) :=
  match cs with
  | [] => Ok ([], [], s)
  | c :: cs =>
      let* (l, a, s1) := str_call fuel S E rfree c s in
      let* (l2, r, s2) := str_calls fuel S E rfree cs s1 in
      Ok (l ++ l2, a :: r, s2)
  end.

(** The same functions with a NULL scope: str_split_ex, str_concat_ex and str_replace_ex take plain memory (swar.c 647-648, 677, 688, 716-717), the
    others pass NULL on to calloc_full, which dereferences it (raii.c 250) after its allocation.  Result: 0 = NULL, [t] requests were made before. *)
Definition str_call_null (fuel : nat) (S : sem) (E : env) (t : nat) (c : scall) : out Z :=
  let plain size := let a := place E t size in if a =? 0 then Panics else Ok a in
  let null size := if place E t size =? 0 then Panics else Undef NullDeref in
  match c with
  | Split s delim =>
      let* r := str_split_ex fuel S s delim in
      match r with None => Ok 0 | Some (tb, text, _) => plain (8 * Z.of_nat (length tb) + Z.of_nat (length text)) end
  | Concat args => let* b := str_concat_ex args in plain (Z.of_nat (length b))
  | Replace h needle repl =>
      let* r := str_replace_ex fuel h needle repl in
      match r with None => Ok 0 | Some b => plain (Z.of_nat (length b)) end
  | Memdup src len => let* b := str_memdup_ex src 0 len in null (Z.of_nat (length b))
  | Encode s =>
      let* r := str_encode64_ex s in
      match r with None => Ok 0 | Some b => null (Z.of_nat (length b)) end
  | Decode s =>
      let* count := decode_count s 0 in
      if (count =? 0) || negb (count mod 4 =? 0) then Ok 0 else null (u64 (count / 4 * 3 + 1))
  | Other _ => Undef NullDeref
  end.
