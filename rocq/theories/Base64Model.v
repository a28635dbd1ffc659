(** Model of the base64 functions of src/swar.c 744-875.

    The source string is its content [s] (bytes before the NUL; strlen is C14);
    allocation succeeds.  A NULL result is [None], otherwise the new block. *)
From Verif Require Export Base.
Open Scope Z_scope.

(** src/swar.c 744-745, base64_table (A-Z, a-z, 0-9, + and /). *)
Definition base64_table : list Z :=
  [65; 66; 67; 68; 69; 70; 71; 72; 73; 74; 75; 76; 77; 78; 79; 80; 81; 82; 83; 84; 85; 86; 87; 88; 89; 90;
   97; 98; 99; 100; 101; 102; 103; 104; 105; 106; 107; 108; 109; 110; 111; 112; 113; 114; 115; 116; 117; 118; 119; 120; 121; 122;
   48; 49; 50; 51; 52; 53; 54; 55; 56; 57; 43; 47; 0].

(** src/swar.c 747-769, base64_decode_table. *)
Definition base64_decode_table : list Z :=
  [
   128; 128; 128; 128; 128; 128; 128; 128; 128; 128; 128; 128; 128; 128; 128; 128;
   128; 128; 128; 128; 128; 128; 128; 128; 128; 128; 128; 128; 128; 128; 128; 128;
   128; 128; 128; 128; 128; 128; 128; 128; 128; 128; 128; 62; 128; 128; 128; 63;
   52; 53; 54; 55; 56; 57; 58; 59; 60; 61; 128; 128; 128; 0; 128; 128;
   128; 0; 1; 2; 3; 4; 5; 6; 7; 8; 9; 10; 11; 12; 13; 14;
   15; 16; 17; 18; 19; 20; 21; 22; 23; 24; 25; 128; 128; 128; 128; 128;
   128; 26; 27; 28; 29; 30; 31; 32; 33; 34; 35; 36; 37; 38; 39; 40;
   41; 42; 43; 44; 45; 46; 47; 48; 49; 50; 51; 128; 128; 128; 128; 128;
   128; 128; 128; 128; 128; 128; 128; 128; 128; 128; 128; 128; 128; 128; 128; 128;
   128; 128; 128; 128; 128; 128; 128; 128; 128; 128; 128; 128; 128; 128; 128; 128;
   128; 128; 128; 128; 128; 128; 128; 128; 128; 128; 128; 128; 128; 128; 128; 128;
   128; 128; 128; 128; 128; 128; 128; 128; 128; 128; 128; 128; 128; 128; 128; 128;
   128; 128; 128; 128; 128; 128; 128; 128; 128; 128; 128; 128; 128; 128; 128; 128;
   128; 128; 128; 128; 128; 128; 128; 128; 128; 128; 128; 128; 128; 128; 128; 128;
   128; 128; 128; 128; 128; 128; 128; 128; 128; 128; 128; 128; 128; 128; 128; 128;
   128; 128; 128; 128; 128; 128; 128; 128; 128; 128; 128; 128; 128; 128; 128; 128].

(** src/swar.c 771-774, str_base64_len; [4294967292] is [~3u]. *)
Definition str_base64_len (n : Z) : Z :=
  Z.land (u64 (u64 (4 * n) / 3 + 3)) 4294967292.

(** src/swar.c 776-784, is_base64. *)
Fixpoint is_base64 (s : list Z) : out bool :=
  match s with
  | [] => Ok true
  | c :: s' => let* t := rd strict base64_decode_table c in
               if t =? 128 then Ok false else is_base64 s'
  end.

(** One [*pos++ = base64_table[v]]. *)
Definition put64 (blk : list Z) (pos v : Z) : out (list Z) :=
  let* c := rd strict base64_table v in blit blk pos [c].

(** src/swar.c 800-820: the group loop and the tail; [l] are the bytes from
    begin to end.  Yields the block and pos. *)
Fixpoint encode_loop (l blk : list Z) (pos : Z) : out (list Z * Z) :=
  match l with
  | b0 :: b1 :: b2 :: l' =>
      let* blk := put64 blk pos (Z.shiftr b0 2) in
      let* blk := put64 blk (pos + 1) (Z.lor (Z.shiftl (Z.land b0 3) 4) (Z.shiftr b1 4)) in
      let* blk := put64 blk (pos + 2) (Z.lor (Z.shiftl (Z.land b1 15) 2) (Z.shiftr b2 6)) in
      let* blk := put64 blk (pos + 3) (Z.land b2 63) in
      encode_loop l' blk (pos + 4)
  | [b0] =>
      let* blk := put64 blk pos (Z.shiftr b0 2) in
      let* blk := put64 blk (pos + 1) (Z.shiftl (Z.land b0 3) 4) in
      let* blk := blit blk (pos + 2) [61] in
      let* blk := blit blk (pos + 3) [61] in
      Ok (blk, pos + 4)
  | [b0; b1] =>
      let* blk := put64 blk pos (Z.shiftr b0 2) in
      let* blk := put64 blk (pos + 1) (Z.lor (Z.shiftl (Z.land b0 3) 4) (Z.shiftr b1 4)) in
      let* blk := put64 blk (pos + 2) (Z.shiftl (Z.land b1 15) 2) in
      let* blk := blit blk (pos + 3) [61] in
      Ok (blk, pos + 4)
  | [] => Ok (blk, pos)
  end.

(** src/swar.c 786-823, str_encode64_ex. *)
Definition str_encode64_ex (s : list Z) : out (option (list Z)) :=
  let len := Z.of_nat (length s) in
  let olen := u64 (str_base64_len len + 1) in
  if olen <? len then Ok None
  else
    let* (blk, pos) := encode_loop s (repeat 0 (Z.to_nat olen)) 0 in
    let* blk := blit blk pos [0] in
    Ok (Some blk).

(** src/swar.c 834-838: number of characters with a table entry. *)
Fixpoint decode_count (l : list Z) (n : Z) : out Z :=
  match l with
  | [] => Ok n
  | c :: l' => let* t := rd strict base64_decode_table c in
               decode_count l' (if t =? 128 then n else n + 1)
  end.

(** src/swar.c 846-872: the decoding loop over the remaining bytes [l]; [block]
    holds the values collected so far (block[0..count)), [pad] the number of '='.
    [None] is the return at the invalid padding. *)
Fixpoint decode_loop (l block : list Z) (pad : Z) (blk : list Z) (pos : Z) : out (option (list Z * Z)) :=
  match l with
  | [] => Ok (Some (blk, pos))
  | c :: l' =>
      let* tmp := rd strict base64_decode_table c in
      if tmp =? 128 then decode_loop l' block pad blk pos
      else
        let pad := if c =? 61 then pad + 1 else pad in
        match block ++ [tmp] with
        | [v0; v1; v2; v3] =>
            let* blk := blit blk pos [u8 (Z.lor (Z.shiftl v0 2) (Z.shiftr v1 4))] in
            let* blk := blit blk (pos + 1) [u8 (Z.lor (Z.shiftl v1 4) (Z.shiftr v2 2))] in
            let* blk := blit blk (pos + 2) [u8 (Z.lor (Z.shiftl v2 6) v3)] in
            if pad =? 0 then decode_loop l' [] pad blk (pos + 3)
            else if pad =? 1 then Ok (Some (blk, pos + 2))
            else if pad =? 2 then Ok (Some (blk, pos + 1))
            else Ok None
        | block => decode_loop l' block pad blk pos
        end
  end.

(** src/swar.c 825-875, str_decode64_ex. *)
Definition str_decode64_ex (s : list Z) : out (option (list Z)) :=
  let* count := decode_count s 0 in
  if (count =? 0) || negb (count mod 4 =? 0) then Ok None
  else
    let olen := u64 (count / 4 * 3 + 1) in
    let* r := decode_loop s [] 0 (repeat 0 (Z.to_nat olen)) 0 in
    match r with
    | None => Ok None
    | Some (blk, pos) => let* blk := blit blk pos [0] in Ok (Some blk)
    end.
