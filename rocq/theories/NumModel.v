(** Model of the number conversions of src/swar.c 203-389 and 535-601.

    Output buffers are blocks; every store goes through [blit], which makes a
    store outside the block undefined.  Doubles of simd_atod are replaced by
    exact rationals (simplification: no rounding). *)
From Coq Require Export QArith.
From Verif Require Export SwarModel.
Open Scope Z_scope.

(** src/swar.c 205-211, the table [pairs] of utoa2p. *)
Definition pairs : list Z :=
  [0x00; 0x10; 0x20; 0x30; 0x40; 0x50; 0x60; 0x70; 0x80; 0x90;
   0x01; 0x11; 0x21; 0x31; 0x41; 0x51; 0x61; 0x71; 0x81; 0x91;
   0x02; 0x12; 0x22; 0x32; 0x42; 0x52; 0x62; 0x72; 0x82; 0x92;
   0x03; 0x13; 0x23; 0x33; 0x43; 0x53; 0x63; 0x73; 0x83; 0x93;
   0x04; 0x14; 0x24; 0x34; 0x44; 0x54; 0x64; 0x74; 0x84; 0x94].

(** src/swar.c 204-219, utoa2p.  The table bound is checked in both readings. *)
Definition utoa2p (x : Z) : out Z :=
  let b50 := u32 (- (if 50 <=? x then 1 else 0)) in
  let x2 := u32 (x - Z.land 50 b50) in
  let* pv := rd strict pairs x2 in
  let t := u16 (pv + Z.land b50 5) in
  Ok (u16 (Z.lor (Z.land (Z.lor t (Z.shiftl t 4)) 0x0f0f) 0x3030)).

(** src/swar.c 222-225, utoa2p_ex: stores the two digits at offset [i] of [s]. *)
Definition utoa2p_ex (x : Z) (s : list Z) (i : Z) : out (list Z) :=
  let* t := utoa2p x in blit s i (to_le 2 t).

(** abs from stdlib: takes an int (the argument is converted, src/swar.c 233, 270). *)
Definition abs_int (x : Z) : out Z :=
  let y := s32 x in
  if y =? -2147483648 then Undef SignedOverflow else Ok (Z.abs y).

(** src/swar.c 239-244, the digit-pair loop of itoa8; state (x, tmp, n). *)
Fixpoint itoa8_loop (fuel : nat) (S : sem) (x tmp n : Z) : out (Z * Z * Z) :=
  match fuel with
  | O => NoFuel
  | Datatypes.S f =>
      if 100 <=? x then
        let n := n + 2 in
        let* tmp := shl64 S tmp 16 in
        let* d := utoa2p (Z.rem x 100) in
        let tmp := Z.lor tmp d in
        itoa8_loop f S (Z.quot x 100) tmp n
      else Ok (x, tmp, n)
  end.

(** src/swar.c 228-260, itoa8: returns the length and the buffer. *)
Definition itoa8 (S : sem) (x : Z) (buf : list Z) : out (Z * list Z) :=
  let neg := x <? 0 in
  let* buf := blit buf 0 [45] in
  let o := if neg then 1 else 0 in
  let* x := abs_int x in
  let* (x, tmp, n) := itoa8_loop 6 S x 0 0 in
  let n := n + 2 in
  let* tmp := shl64 S tmp 16 in
  let* d := utoa2p x in
  let tmp := Z.lor tmp d in
  let n := n - (if x <? 10 then 1 else 0) in
  let* tmp := shr64 S tmp (if x <? 10 then 8 else 0) in
  let* buf := blit buf o (to_le 8 tmp) in
  let* buf := blit buf (o + n) [0] in
  Ok (u32 (n + o), buf).

(** src/swar.c 275-279, the loop of simd_itoa filling [tmp] backwards; state (x, p, tmp). *)
Fixpoint itoa_loop (fuel : nat) (x p : Z) (tmp : list Z) : out (Z * Z * list Z) :=
  match fuel with
  | O => NoFuel
  | Datatypes.S f =>
      if 100 <=? x then
        let p := p - 2 in
        let* tmp := utoa2p_ex (Z.rem x 100) tmp p in
        itoa_loop f (Z.quot x 100) p tmp
      else Ok (x, p, tmp)
  end.

(** src/swar.c 265-292, simd_itoa.  [tmp0] is the initial content of the local
    array char tmp[20]; the final memcpy reads 20 bytes from [p]. *)
Definition simd_itoa (S : sem) (tmp0 : list Z) (x : Z) (buf : list Z) : out (Z * list Z) :=
  let neg := x <? 0 in
  let* buf := blit buf 0 [45] in
  let o := if neg then 1 else 0 in
  let* x := abs_int x in
  let* (x, p, tmp) := itoa_loop 6 x 20 tmp0 in
  let p := p - 2 in
  let* tmp := utoa2p_ex x tmp p in
  let p := p + (if x <? 10 then 1 else 0) in
  let len := 20 - p in
  let* l := rdn S tmp p 20 in
  let* buf := blit buf o l in
  let* buf := blit buf (o + len) [0] in
  Ok (u32 (len + o), buf).

(** src/swar.c 298-303 and 353-361: load and "apply len". *)
Definition load_len (S : sem) (b : list Z) (o len : Z) : out Z :=
  let* x := cast S b o in
  let* x := shl64 S x (u32 (64 - u32 (len * 8))) in
  Ok (Z.land x (u64 (- (if 0 <? len then 1 else 0)))).

(** src/swar.c 295-315, atou8. *)
Definition atou8 (S : sem) (b : list Z) (o len : Z) : out Z :=
  let* x := load_len S b o len in
  let x := Z.shiftr (u64 (Z.land x 0x0f0f0f0f0f0f0f0f * (2^8 * 10 + 1))) 8 in
  let x := Z.shiftr (u64 (Z.land x 0x00ff00ff00ff00ff * (2^16 * 100 + 1))) 16 in
  let x := Z.shiftr (u64 (Z.land x 0x0000ffff0000ffff * (2^32 * 10000 + 1))) 32 in
  Ok (u32 x).

(** src/swar.c 319-336, simd_atou. *)
Definition simd_atou (S : sem) (b : list Z) (o len : Z) : out Z :=
  let* (x, o, len) :=
    if 8 <? len then
      let lh := len mod 8 in
      let* x := atou8 S b o lh in
      let x := u64 (x * 100000000) in
      let len := len - lh in
      let o := o + lh in
      if 8 <? len then
        let* y := atou8 S b o 8 in
        Ok (u64 (u64 (x + y) * 100000000), o + 8, len - 8)
      else Ok (x, o, len)
    else Ok (0, o, len) in
  let* y := atou8 S b o len in
  Ok (u64 (x + y)).

(** src/swar.c 339-347, simd_atoi.  [-x] on INT64_MIN is undefined in the strict
    reading and wraps on the machine ([wide_shift] stands for both). *)
Definition simd_atoi (S : sem) (b : list Z) (o len : Z) : out Z :=
  let* c := rd S b o in
  let neg := negb (len =? 0) && (c =? 45) in
  let ls := negb (len =? 0) && ((c =? 45) || (c =? 43)) in
  let k := if ls then 1 else 0 in
  let* y := simd_atou S b (o + k) (len - k) in
  let x := s64 y in
  if neg then
    if (x =? -9223372036854775808) && negb (wide_shift S) then Undef SignedOverflow
    else Ok (s64 (- x))
  else Ok x.

(** src/swar.c 350-375, htou8. *)
Definition htou8 (S : sem) (b : list Z) (o len : Z) : out Z :=
  let* x := load_len S b o len in
  let x := u64 (x + u64 (Z.shiftr (Z.land x 0x4040404040404040) 6 * 9)) in
  let x := Z.shiftr (u64 (Z.land x 0x0f0f0f0f0f0f0f0f * (2^12 + 1))) 8 in
  let x := Z.shiftr (u64 (Z.land x 0x00ff00ff00ff00ff * (2^24 + 1))) 16 in
  let x := Z.shiftr (u64 (Z.land x 0x0000ffff0000ffff * (2^48 + 1))) 32 in
  Ok (u32 x).

(** src/swar.c 378-389, simd_htou. *)
Definition simd_htou (S : sem) (b : list Z) (o len : Z) : out Z :=
  if 8 <? len then
    let lh := len - 8 in
    let* x := htou8 S b o lh in
    let* x := shl64 S x 32 in
    let* y := htou8 S b (o + lh) (len - lh) in
    Ok (u64 (x + y))
  else
    let* y := htou8 S b o len in Ok (u64 (0 + y)).

(** src/swar.c 558-560: scales[i] = 10^-(i+1), 20 entries. *)
Definition scale (i : Z) : out Q :=
  if (0 <=? i) && (i <? 20) then Ok (1 # Z.to_pos (10 ^ (i + 1))) else Undef OobRead.

(** src/swar.c 537-563, simd_atod over exact rationals. *)
Definition simd_atod (fuel : nat) (S : sem) (b : list Z) (o len : Z) : out Q :=
  let* k := pmemchr fuel S b o len 46 in
  let ilen := s32 k in
  if ilen =? -1 then let* v := simd_atoi S b o len in Ok (inject_Z v)
  else
    let* ipart := simd_atoi S b o (u32 ilen) in
    let o := o + (ilen + 1) in
    let len := u32 (len - (ilen + 1)) in
    let* d := simd_atou S b o len in
    let dpart := copySign ipart (u64 (s64 d)) in
    let* sc := scale len in
    Ok (inject_Z ipart + inject_Z dpart * sc)%Q.

(** src/swar.c 572-576, the loop of _utoap; state (x, tmp). *)
Fixpoint utoap_loop (fuel : nat) (S : sem) (N i x tmp : Z) : out (Z * Z) :=
  match fuel with
  | O => NoFuel
  | Datatypes.S f =>
      if i <? N - 2 then
        let x := x / 100 in
        let* tmp := shl64 S tmp 16 in
        let* d := utoa2p (x mod 100) in
        let tmp := Z.lor tmp d in
        utoap_loop f S N (i + 2) x tmp
      else Ok (x, tmp)
  end.

(** src/swar.c 566-582, _utoap: returns x and the buffer. *)
Definition utoap_ (S : sem) (N x : Z) (s : list Z) (o : Z) : out (Z * list Z) :=
  let* d := utoa2p (x mod 100) in
  let* (x, tmp) := utoap_loop 5 S N 0 x d in
  let* tmp := shr64 S tmp (Z.land N 1 * 8) in
  let* s := blit s o (to_le 8 tmp) in
  Ok (x, s).

(** src/swar.c 585-601, utoap. *)
Definition utoap (S : sem) (N x : Z) (s : list Z) : out (list Z) :=
  let* s :=
    if N <=? 8 then let* (_, s) := utoap_ S N x s 0 in Ok s
    else if N <=? 16 then
      let* (x, s) := utoap_ S (N - 8) x s 8 in
      let x := x / (if Z.land N 1 =? 1 then 10 else 100) in
      let* (_, s) := utoap_ S 8 x s 0 in Ok s
    else
      let* (x, s) := utoap_ S (N - 16) x s 16 in
      let x := x / (if Z.land N 1 =? 1 then 10 else 100) in
      let* (x, s) := utoap_ S 8 x s 8 in
      let* (_, s) := utoap_ S 8 (x / 100) s 0 in Ok s in
  blit s N [0].
