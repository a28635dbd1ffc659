(** Specification vocabulary for strings and numbers.  Nothing here mentions
    the model of the code. *)
From Coq Require Export ZArith List Bool Lia.
From Coq Require String Ascii.
Export ListNotations.
Open Scope Z_scope.

(** Element [i] of a list. *)
Definition item (l : list Z) (i : Z) : Z := nth (Z.to_nat i) l 0.
(** The sub-list of [n] elements starting at [i]. *)
Definition slice (l : list Z) (i n : Z) : list Z := firstn (Z.to_nat n) (skipn (Z.to_nat i) l).
(** Every element is a byte. *)
Definition all_bytes (l : list Z) : Prop := Forall (fun x => 0 <= x < 256) l.

(** [i] is the position of the first (last) [c] in [l]. *)
Definition first_at (c : Z) (l : list Z) (i : Z) : Prop :=
  0 <= i < Z.of_nat (length l) /\ item l i = c /\ forall j, 0 <= j < i -> item l j <> c.
Definition last_at (c : Z) (l : list Z) (i : Z) : Prop :=
  0 <= i < Z.of_nat (length l) /\ item l i = c /\
  forall j, i < j < Z.of_nat (length l) -> item l j <> c.

(** Value of a little-endian byte string. *)
Fixpoint le_value (l : list Z) : Z :=
  match l with [] => 0 | b :: l' => b + 256 * le_value l' end.

(** Byte [i] of a word. *)
Definition byte_of (x i : Z) : Z := (x / 256 ^ i) mod 256.

(** Decimal digits and the number they denote, most significant first. *)
Definition is_digit (c : Z) : Prop := 48 <= c <= 57.
Definition dec_value (l : list Z) : Z := fold_left (fun a c => 10 * a + (c - 48)) l 0.

(** [s] is the canonical decimal text of [x]: optional '-', no leading zero. *)
Definition decimal_text (x : Z) (s : list Z) : Prop :=
  exists ds, ds <> [] /\ Forall is_digit ds /\
    (1 < Z.of_nat (length ds) -> item ds 0 <> 48) /\
    ((0 <= x /\ s = ds /\ dec_value ds = x) \/ (x < 0 /\ s = 45 :: ds /\ dec_value ds = - x)).

(** Hexadecimal digits in either case. *)
Definition is_hex (c : Z) : Prop := 48 <= c <= 57 \/ 65 <= c <= 70 \/ 97 <= c <= 102.
Definition hex_digit (c : Z) : Z :=
  if c <=? 57 then c - 48 else if c <=? 70 then c - 65 + 10 else c - 97 + 10.
Definition hex_value (l : list Z) : Z := fold_left (fun a c => 16 * a + hex_digit c) l 0.

(** The buffer [b] holds, at offset [o], the bytes [s] followed by a NUL. *)
Definition holds_cstr (b : list Z) (o : Z) (s : list Z) : Prop :=
  slice b o (Z.of_nat (length s) + 1) = s ++ [0].

(** [s] is an optional sign followed by at least one digit, and denotes [v]. *)
Definition signed_text (s : list Z) (v : Z) : Prop :=
  exists ds, ds <> [] /\ Forall is_digit ds /\
   ((s = ds /\ v = dec_value ds) \/ (s = 43 :: ds /\ v = dec_value ds) \/ (s = 45 :: ds /\ v = - dec_value ds)).

(** The searched byte and the [len] bytes at [o] are 7-bit (the documented domain
    of the functions with prefix p). *)
Definition printable_window (b : list Z) (o len c : Z) : Prop :=
  c < 128 /\ forall j, 0 <= j < len -> item b (o + j) < 128.

(** Bytes of a literal, and a literal with terminator and trailing bytes
    (for the examples). *)
Definition bs (s : String.string) : list Z :=
  map (fun a => Z.of_nat (Ascii.nat_of_ascii a)) (String.list_ascii_of_string s).
Definition cs (s : String.string) : list Z := (bs s ++ [0] ++ repeat 170 8)%list.
