(** Model of the word-at-a-time search functions of src/swar.c 11-201 and
    495-533 (64-bit little-endian, POSIX branches of the #ifdefs).

    Pointers into the caller's buffer are offsets into the block [b];
    [o] is the offset of the argument [s].  uint32_t results are [u32]. *)
From Verif Require Export Base.

(** src/swar.c 11-15, _copySign. *)
Definition copySign (src dst : Z) : Z :=
  let m := not64 (u64 (Z.shiftr src 63)) in
  s64 (Z.lxor (u64 (dst + m)) m).

(** src/swar.c 17-21, cast: memcpy of 8 bytes into a uintptr_t. *)
Definition cast (S : sem) (b : list Z) (o : Z) : out Z :=
  let* l := rdn S b o 8 in Ok (le l).

(** src/swar.c 24-34, cast8. *)
Definition cast8 (S : sem) (b : list Z) (o len : Z) : out Z :=
  let* x := cast S b o in
  let* m := shl64 S 1 (u32 (len * 8)) in
  let mask := u64 (m - 1) in
  let mask := Z.lor mask (u64 (- (if len =? 8 then 1 else 0))) in
  Ok (Z.land x mask).

(** src/swar.c 36-40, extend: memset of all 8 bytes. *)
Definition extend (c : Z) : Z := le (repeat (u8 c) 8).

(** src/swar.c 44-52, countr_zero: __builtin_ctzll. *)
Fixpoint ctz_from (n : nat) (x i : Z) : Z :=
  match n with
  | O => i
  | Datatypes.S n' => if Z.testbit x i then i else ctz_from n' x (i + 1)
  end.
(** src/swar.c 44-52, countr_zero. *)
Definition countr_zero (x : Z) : out Z :=
  if x =? 0 then Undef BadBuiltin else Ok (ctz_from 64 x 0).

(** src/swar.c 56-64, countl_zero: __builtin_clzll. *)
Fixpoint clz_from (n : nat) (x i : Z) : Z :=
  match n with
  | O => i
  | Datatypes.S n' => if Z.testbit x (63 - i) then i else clz_from n' x (i + 1)
  end.
(** src/swar.c 56-64, countl_zero. *)
Definition countl_zero (x : Z) : out Z :=
  if x =? 0 then Undef BadBuiltin else Ok (clz_from 64 x 0).

(** src/swar.c 68-70, countr_index. *)
Definition countr_index (x : Z) : out Z :=
  if x =? 0 then Ok 0 else let* k := countr_zero x in Ok (k + 1).

(** src/swar.c 74-75: 0x7f7f7f7f7f7f7f7f and 0x0101010101010101. *)
Definition m7f : Z := 0x7f7f7f7f7f7f7f7f.
(** src/swar.c 75. *)
Definition m01 : Z := 0x0101010101010101.

(** src/swar.c 73-77, haszero. *)
Definition haszero (x : Z) : bool :=
  negb (Z.land (Z.land (u64 (x - m01)) (not64 x)) (not64 m7f) =? 0).

(** src/swar.c 80-82, hasbyte. *)
Definition hasbyte (x c : Z) : bool := haszero (Z.lxor x (extend c)).

(** src/swar.c 92-113: the part of _memchr8 that turns the loaded word into
    a word with the high bit set in each matching byte. *)
Definition match_lanes (Printable : bool) (x c : Z) : Z :=
  let x := Z.lxor x (extend c) in
  let x := if Printable then u64 (x + m7f)
           else Z.lor (u64 (Z.land x m7f + m7f)) x in
  let x := not64 x in
  Z.land x (not64 m7f).

(** src/swar.c 115-130: the four ways to turn it into an index. *)
Definition lane_index (Exists Reverse : bool) (x : Z) : out Z :=
  if Exists then
    if negb Reverse then let* k := countr_zero x in Ok (u32 (Z.quot k 8))
    else let* k := countl_zero x in Ok (u32 (7 - Z.quot k 8))
  else
    if negb Reverse then let* k := countr_index x in Ok (u32 (Z.quot (k - 8) 8))
    else let* k := countl_zero (Z.lor x 1) in Ok (u32 (7 - Z.quot (k + 1) 8)).

(** src/swar.c 85-130, _memchr8, on an already loaded word. *)
Definition memchr8_word (Printable Exists Reverse : bool) (x c : Z) : out Z :=
  lane_index Exists Reverse (match_lanes Printable x c).

(** src/swar.c 85-130, _memchr8. *)
Definition memchr8_ (S : sem) (Printable Exists Reverse : bool) (b : list Z) (o c : Z) : out Z :=
  let* x := cast S b o in memchr8_word Printable Exists Reverse x c.

(** src/swar.c 133-135, memchr8. *)
Definition memchr8 (S : sem) (b : list Z) (o c : Z) : out Z := memchr8_ S false false false b o c.
(** src/swar.c 139-141, memchr8k. *)
Definition memchr8k (S : sem) (b : list Z) (o c : Z) : out Z := memchr8_ S false true false b o c.

(** src/swar.c 148-149 and 179-180: partLen and partMask. *)
Definition part_len (len : Z) : Z :=
  if Z.land len 7 =? 0 then 8 else Z.land len 7.
(** src/swar.c 149 and 180, partMask. *)
Definition part_mask (S : sem) (len : Z) : out Z :=
  if len <? 8 then shr64 S (not64 0) (u32 (64 - u32 (part_len len * 8))) else Ok 0.

(** src/swar.c 191-200: the word loop of _memchr; [p] is the offset of the
    cursor, [e] the offset of [end]. *)
Fixpoint memchr_loop (fuel : nat) (S : sem) (Printable Known : bool)
    (b : list Z) (o e p c : Z) : out Z :=
  match fuel with
  | O => NoFuel
  | Datatypes.S f =>
      let* w := cast S b p in
      if hasbyte w c then
        let* k := memchr8_ S Printable true false b p c in Ok (u32 ((p - o) + k))
      else
        let p := p + 8 in
        if negb Known && (p =? e) then Ok (u32 (-1))
        else memchr_loop f S Printable Known b o e p c
  end.

(** src/swar.c 174-201, _memchr. *)
Definition memchr_ (fuel : nat) (S : sem) (Printable Known : bool)
    (b : list Z) (o len c : Z) : out Z :=
  let* pm := part_mask S len in
  let* w := cast S b o in
  let first := Z.land w (not64 (Z.land pm (extend c))) in
  if hasbyte first c then memchr8_word Printable true false first c
  else memchr_loop fuel S Printable Known b o (o + len) (o + part_len len) c.

(** src/swar.c 158-170: the word loop of _memrchr. *)
Fixpoint memrchr_loop (fuel : nat) (S : sem) (Printable Known : bool)
    (b : list Z) (o p c : Z) : out Z :=
  match fuel with
  | O => NoFuel
  | Datatypes.S f =>
      let* w := cast S b p in
      if hasbyte w c then
        let* k := memchr8_ S Printable true true b p c in Ok (u32 ((p - o) + k))
      else
        let p := p - 8 in
        if negb Known && (p =? o) then Ok (u32 (-1))
        else memrchr_loop f S Printable Known b o p c
  end.

(** src/swar.c 144-171, _memrchr: the first word is loaded at [s + len]. *)
Definition memrchr_ (fuel : nat) (S : sem) (Printable Known : bool)
    (b : list Z) (o len c : Z) : out Z :=
  let p := o + len in
  let* pm := part_mask S len in
  let* w := cast S b p in
  let first := Z.land w (not64 (Z.land pm (extend c))) in
  let p := p - part_len len in
  if hasbyte first c then
    let* k := memchr8_word Printable true true first c in Ok (u32 ((p - o) + k))
  else memrchr_loop fuel S Printable Known b o p c.

(** A char* result: NULL or an offset into the block of the argument. *)
Inductive cptr := PNull | PAt (off : Z).

(** src/swar.c 495-497, simd_memchr. *)
Definition simd_memchr (fuel : nat) (S : sem) (b : list Z) (o c len : Z) : out cptr :=
  let* k := memchr_ fuel S false false b o len c in Ok (PAt (o + k)).
(** src/swar.c 499-501, simd_memrchr. *)
Definition simd_memrchr (fuel : nat) (S : sem) (b : list Z) (o c len : Z) : out cptr :=
  let* k := memrchr_ fuel S false false b o len c in Ok (PAt (o + k - 3)).
(** src/swar.c 504-506, memchrk. *)
Definition memchrk (fuel : nat) (S : sem) (b : list Z) (o len c : Z) : out Z :=
  memchr_ fuel S false true b o len c.
(** src/swar.c 509-511, pmemchr. *)
Definition pmemchr (fuel : nat) (S : sem) (b : list Z) (o len c : Z) : out Z :=
  memchr_ fuel S true false b o len c.
(** src/swar.c 514-516, pmemchrk. *)
Definition pmemchrk (fuel : nat) (S : sem) (b : list Z) (o len c : Z) : out Z :=
  memchr_ fuel S true true b o len c.
(** src/swar.c 520-522, memrchrk. *)
Definition memrchrk (fuel : nat) (S : sem) (b : list Z) (o len c : Z) : out Z :=
  memrchr_ fuel S false true b o len c.
(** src/swar.c 525-527, pmemrchr. *)
Definition pmemrchr (fuel : nat) (S : sem) (b : list Z) (o len c : Z) : out Z :=
  memrchr_ fuel S true false b o len c.
(** src/swar.c 530-532, pmemrchrk. *)
Definition pmemrchrk (fuel : nat) (S : sem) (b : list Z) (o len c : Z) : out Z :=
  memrchr_ fuel S true true b o len c.
