(** Model of the string functions of src/swar.c 391-493 and 603-742 and of
    is_str_eq, is_str_empty, is_str_in of src/raii.c 738-748.

    A C string argument is a block of bytes [b] and an offset; where a function
    only receives whole strings the argument is the content [s] (no NUL) and
    the block is [cblk s].  Allocations succeed (simplification: the out of
    memory paths panic).  strlen inside the other functions is [c_strlen];
    simd_strlen is proved equal to it (C14). *)
From Verif Require Export SwarModel.
Open Scope Z_scope.

(** The block of a C string whose content is [s]. *)
Definition cblk (s : list Z) : list Z := s ++ [0].

(** strlen: index of the first NUL; running off the block is undefined (libc). *)
Fixpoint scan0 (l : list Z) : out Z :=
  match l with
  | [] => Undef OobRead
  | x :: l' => if x =? 0 then Ok 0 else let* n := scan0 l' in Ok (n + 1)
  end.
(** strlen of libc at offset [o] of the block. *)
Definition c_strlen (b : list Z) (o : Z) : out Z := scan0 (skipn (Z.to_nat o) b).

(** src/swar.c 432-436: the byte loop up to the first aligned address; [A] is
    the address of the block.  Result: [inl] the length or [inr] the cursor. *)
Fixpoint strlen_head (n : nat) (S : sem) (A : Z) (b : list Z) (o p : Z) : out (Z + Z) :=
  match n with
  | O => NoFuel
  | Datatypes.S n' =>
      if (A + p) mod 8 =? 0 then Ok (inr p)
      else let* x := rd S b p in
           if x =? 0 then Ok (inl (p - o)) else strlen_head n' S A b o (p + 1)
  end.

(** src/swar.c 450-457: himagic and lomagic for 64-bit words. *)
Definition himagic : Z := Z.lor (u64 (Z.shiftl (u64 (Z.shiftl 0x80808080 16)) 16)) 0x80808080.
(** src/swar.c 451-456. *)
Definition lomagic : Z := Z.lor (u64 (Z.shiftl (u64 (Z.shiftl 0x01010101 16)) 16)) 0x01010101.

(** src/swar.c 472-489: which of the eight bytes is zero, if any. *)
Fixpoint strlen_bytes (n : nat) (S : sem) (b : list Z) (p k : Z) : out (option Z) :=
  match n with
  | O => Ok None
  | Datatypes.S n' =>
      let* x := rd S b (p + k) in
      if x =? 0 then Ok (Some k) else strlen_bytes n' S b p (k + 1)
  end.

(** src/swar.c 464-492: the word loop; [log] collects the offsets of the words loaded. *)
Fixpoint strlen_loop (fuel : nat) (S : sem) (b : list Z) (o p : Z) (log : list Z) : out (Z * list Z) :=
  match fuel with
  | O => NoFuel
  | Datatypes.S f =>
      let* w := cast S b p in
      let log := log ++ [p] in
      if negb (Z.land (Z.land (u64 (w - lomagic)) (not64 w)) himagic =? 0) then
        let* r := strlen_bytes 8 S b p 0 in
        match r with
        | Some k => Ok (p - o + k, log)
        | None => strlen_loop f S b o (p + 8) log
        end
      else strlen_loop f S b o (p + 8) log
  end.

(** src/swar.c 425-493, simd_strlen, with the offsets of the words it loads. *)
Definition simd_strlen (fuel : nat) (S : sem) (A : Z) (b : list Z) (o : Z) : out (Z * list Z) :=
  let* h := strlen_head 8 S A b o o in
  match h with
  | inl n => Ok (n, [])
  | inr p => strlen_loop fuel S b o p []
  end.

(** src/swar.c 405-409: the byte loop that looks for the difference inside a word. *)
Fixpoint strcmp_bytes (n : nat) (S : sem) (b0 b1 : list Z) (pos len : Z) : out (option Z) :=
  match n with
  | O => Ok None
  | Datatypes.S n' =>
      if pos <? len then
        let* x := rd S b0 pos in
        let* y := rd S b1 pos in
        if negb (x =? y) || (x =? 0) || (y =? 0) then Ok (Some (x - y))
        else strcmp_bytes n' S b0 b1 (pos + 1) len
      else Ok None
  end.
(** src/swar.c 402-413: the word loop. *)
Fixpoint strcmp_words (n : nat) (S : sem) (b0 b1 : list Z) (blk fast len : Z) : out (option Z) :=
  match n with
  | O => NoFuel
  | Datatypes.S n' =>
      if blk <? fast then
        let* w0 := cast S b0 (blk * 8) in
        let* w1 := cast S b1 (blk * 8) in
        if negb (Z.lxor w0 w1 =? 0) then
          let* r := strcmp_bytes (Z.to_nat len) S b0 b1 (blk * 8) len in
          match r with
          | Some d => Ok (Some d)
          | None => strcmp_words n' S b0 b1 (blk + 1) fast len
          end
        else strcmp_words n' S b0 b1 (blk + 1) fast len
      else Ok None
  end.
(** src/swar.c 415-420: the trailing byte loop. *)
Fixpoint strcmp_tail (n : nat) (S : sem) (b0 b1 : list Z) (offset len : Z) : out Z :=
  match n with
  | O => NoFuel
  | Datatypes.S n' =>
      if offset <? len then
        let* x := rd S b0 offset in
        let* y := rd S b1 offset in
        if negb (x =? y) then Ok (x - y) else strcmp_tail n' S b0 b1 (offset + 1) len
      else Ok 0
  end.
(** src/swar.c 391-423, simd_strcmp on two strings at the start of their blocks. *)
Definition simd_strcmp (S : sem) (b0 b1 : list Z) : out Z :=
  let* n := c_strlen b0 0 in
  let len := s32 n in
  let fast := len / 8 + 1 in
  let offset := (fast - 1) * 8 in
  let fast := if len <=? 8 then 0 else fast in
  let* r := strcmp_words (Z.to_nat fast + 1) S b0 b1 0 fast len in
  match r with
  | Some d => Ok d
  | None => strcmp_tail 9 S b0 b1 offset len
  end.

(** src/raii.c 742-744, is_str_eq (NULL arguments are not modelled here). *)
Definition is_str_eq (S : sem) (b0 b1 : list Z) : out bool :=
  let* d := simd_strcmp S b0 b1 in Ok (d =? 0).
(** src/raii.c 746-748, is_str_empty. *)
Definition is_str_empty (S : sem) (b : list Z) : out bool := is_str_eq S b (cblk []).

(** src/swar.c 614-618: the inner loop of strpos; yields d. *)
Fixpoint strpos_inner (n : nat) (text pat : list Z) (d e plen : Z) : out Z :=
  match n with
  | O => NoFuel
  | Datatypes.S n' =>
      if d <? plen then
        let* x := rd strict pat d in
        let* y := rd strict text e in
        if x =? y then strpos_inner n' text pat (d + 1) (e + 1) plen else Ok d
      else Ok d
  end.
(** src/swar.c 612-622: the outer loop. *)
Fixpoint strpos_outer (n : nat) (text pat : list Z) (c last plen : Z) : out Z :=
  match n with
  | O => NoFuel
  | Datatypes.S n' =>
      if c <=? last then
        let* d := strpos_inner (Z.to_nat plen + 1) text pat 0 c plen in
        if d =? plen then Ok (s32 c) else strpos_outer n' text pat (c + 1) last plen
      else Ok (-1)
  end.
(** src/swar.c 603-625, strpos. *)
Definition strpos (text pat : list Z) : out Z :=
  let* tl := c_strlen text 0 in
  let* pl := c_strlen pat 0 in
  if tl <? pl then Ok (-1)
  else strpos_outer (Z.to_nat (tl - pl) + 2) text pat 0 (tl - pl) pl.
(** src/raii.c 738-740, is_str_in. *)
Definition is_str_in (text pat : list Z) : out bool :=
  let* p := strpos text pat in Ok (0 <=? p).

(** strstr of libc on the string content [l] (up to its first NUL) for the
    pattern content [p]: distance to the first occurrence. *)
Fixpoint prefixb (p l : list Z) : bool :=
  match p, l with
  | [], _ => true
  | _, [] => false
  | x :: p', y :: l' => (x =? y) && prefixb p' l'
  end.
(** strstr of libc, on contents. *)
Fixpoint c_strstr (p l : list Z) : option Z :=
  if prefixb p l then Some 0
  else match l with
       | [] => None
       | _ :: l' => match c_strstr p l' with Some k => Some (k + 1) | None => None end
       end.
(** Content of the C string at offset [o] of block [b]. *)
Fixpoint upto0 (l : list Z) : list Z :=
  match l with [] => [] | x :: l' => if x =? 0 then [] else x :: upto0 l' end.
(** Content of the C string at offset [o] of block [b]. *)
Definition content (b : list Z) (o : Z) : list Z := upto0 (skipn (Z.to_nat o) b).
(** strstr at offset [o] of block [b]: the offset found. *)
Definition strstr_at (b : list Z) (o : Z) (p : list Z) : option Z :=
  match c_strstr p (content b o) with Some k => Some (o + k) | None => None end.

(** src/swar.c 734-736, str_copy: [src] is the block and offset read. *)
Definition str_copy (dest : list Z) (d : Z) (src : list Z) (o len : Z) : out (list Z) :=
  let* n := (if len =? 0 then c_strlen src o else Ok len) in
  let* l := rdn strict src o (Z.to_nat n) in
  blit dest d l.

(** src/swar.c 738-742, str_memdup_ex: the new block (calloc of len + 1). *)
Definition str_memdup_ex (src : list Z) (o len : Z) : out (list Z) :=
  let* l := rdn strict src o (Z.to_nat len) in
  blit (repeat 0 (Z.to_nat (len + 1))) 0 l.

(** src/swar.c 638-641: counting the words. *)
Fixpoint split_count (fuel : nat) (b : list Z) (p : Z) (delim : list Z) (n : Z) : out Z :=
  match fuel with
  | O => NoFuel
  | Datatypes.S f =>
      match strstr_at b p delim with
      | None => Ok n
      | Some q => split_count f b (q + Z.of_nat (length delim)) delim (n + 1)
      end
  end.
(** A store into the pointer table ([ptrs]); each entry is NULL or an offset
    into the text part of the same block. *)
Definition pset (t : list (option Z)) (i : Z) (v : option Z) : out (list (option Z)) :=
  if (0 <=? i) && (i <? Z.of_nat (length t))
  then Ok (firstn (Z.to_nat i) t ++ v :: skipn (Z.to_nat i + 1) t) else Undef OobWrite.
(** src/swar.c 651-657: cutting the copy. *)
Fixpoint split_cut (fuel : nat) (t : list (option Z)) (i : Z) (text : list Z) (p : Z) (delim : list Z)
    : out (list (option Z) * Z * list Z) :=
  match fuel with
  | O => NoFuel
  | Datatypes.S f =>
      match strstr_at text p delim with
      | None => Ok (t, i, text)
      | Some q =>
          let* text := blit text q [0] in
          let p := q + Z.of_nat (length delim) in
          let* t := pset t (i + 1) (Some p) in
          split_cut f t (i + 1) text p delim
      end
  end.
(** src/swar.c 627-666, str_split_ex.  The calloc'd block is kept as its two
    parts, the pointer table of nbWords+1 entries and the sLen+1 bytes of text;
    [delim = None] is a NULL delimiter.  Result: None is NULL; otherwise the
    table, the text and the word count. *)
Definition str_split_ex (fuel : nat) (S : sem) (s : list Z) (delim : option (list Z))
    : out (option (list (option Z) * list Z * Z)) :=
  let* e := is_str_eq S (cblk s) (cblk []) in
  if e then Ok None
  else
    let delim := match delim with Some d => d | None => [32] end in
    let* nb := split_count fuel (cblk s) 0 delim 1 in
    let* sLen := c_strlen (cblk s) 0 in
    let t := repeat None (Z.to_nat (nb + 1)) in
    let text := repeat 0 (Z.to_nat (sLen + 1)) in
    let* text := str_copy text 0 (cblk s) 0 sLen in
    let* t := pset t 0 (Some 0) in
    let* (t, i, text) := (if 1 <? nb then split_cut fuel t 0 text 0 delim else Ok (t, 0, text)) in
    let* t := pset t (i + 1) None in
    Ok (Some (t, text, s32 nb)).

(** src/swar.c 674-675: adding up the lengths. *)
Fixpoint concat_size (args : list (list Z)) (n : Z) : out Z :=
  match args with
  | [] => Ok n
  | s :: r => let* k := c_strlen (cblk s) 0 in concat_size r (u64 (n + k))
  end.
(** src/swar.c 681-685: copying the arguments. *)
Fixpoint concat_copy (args : list (list Z)) (res : list Z) (p : Z) : out (list Z) :=
  match args with
  | [] => Ok res
  | s :: r =>
      let* res := str_copy res p (cblk s) 0 0 in
      let* k := c_strlen (cblk s) 0 in
      concat_copy r res (u64 (p + k))
  end.
(** src/swar.c 668-692, str_concat_ex. *)
Definition str_concat_ex (args : list (list Z)) : out (list Z) :=
  let* n := concat_size args 0 in
  concat_copy args (repeat 0 (Z.to_nat (u64 (n + 1)))) 0.

(** src/swar.c 703-709: counting the occurrences; yields (i, cnt). *)
Fixpoint replace_count (fuel : nat) (h : list Z) (needle : list Z) (i cnt : Z) : out (Z * Z) :=
  match fuel with
  | O => NoFuel
  | Datatypes.S f =>
      let* x := rd strict h i in
      if x =? 0 then Ok (i, cnt)
      else match strstr_at h i needle with
           | Some q => if q =? i
                       then replace_count f h needle (u64 (u64 (i + u64 (Z.of_nat (length needle) - 1)) + 1)) (cnt + 1)
                       else replace_count f h needle (u64 (i + 1)) cnt
           | None => replace_count f h needle (u64 (i + 1)) cnt
           end
  end.
(** src/swar.c 719-728: building the result; [hp] is the cursor in the haystack. *)
Fixpoint replace_build (fuel : nat) (h needle repl : list Z) (hp : Z) (res : list Z) (i : Z) : out (list Z * Z) :=
  match fuel with
  | O => NoFuel
  | Datatypes.S f =>
      let* x := rd strict h hp in
      if x =? 0 then Ok (res, i)
      else if match strstr_at h hp needle with Some q => q =? hp | None => false end then
        let* res := str_copy res i (cblk repl) 0 (Z.of_nat (length repl)) in
        replace_build f h needle repl (hp + Z.of_nat (length needle)) res (i + Z.of_nat (length repl))
      else
        let* res := blit res i [x] in
        replace_build f h needle repl (hp + 1) res (i + 1)
  end.
(** src/swar.c 694-732, str_replace_ex on non-NULL arguments; None is NULL. *)
Definition str_replace_ex (fuel : nat) (h needle repl : list Z) : out (option (list Z)) :=
  let newl := Z.of_nat (length repl) in
  let oldl := Z.of_nat (length needle) in
  let* (i, cnt) := replace_count fuel (cblk h) needle 0 0 in
  if cnt =? 0 then Ok None
  else
    let size := u64 (u64 (i + u64 (cnt * u64 (newl - oldl))) + 1) in
    let* (res, i) := replace_build fuel (cblk h) needle repl 0 (repeat 0 (Z.to_nat size)) 0 in
    let* res := blit res i [0] in
    Ok (Some res).
