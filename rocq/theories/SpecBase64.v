(** RFC 4648 base64 as operations on bit strings.  Nothing here mentions the
    model of the code. *)
From Verif Require Export SpecText.
Open Scope Z_scope.

(** The bits of a byte, most significant first, and of a byte string. *)
Definition byte_bits (x : Z) : list bool := map (Z.testbit x) [7; 6; 5; 4; 3; 2; 1; 0].
Definition bits (s : list Z) : list bool := flat_map byte_bits s.
(** Number denoted by bits, most significant first. *)
Definition bits_value (l : list bool) : Z := fold_left (fun a (b : bool) => 2 * a + if b then 1 else 0) l 0.
(** Groups of six bits, the last one padded with zero bits on the right. *)
Fixpoint sextets (l : list bool) : list Z :=
  match l with
  | [] => []
  | a :: b :: c :: d :: e :: f :: l' => bits_value [a; b; c; d; e; f] :: sextets l'
  | _ => [bits_value (firstn 6 (l ++ repeat false 6))]
  end.
(** The alphabet of RFC 4648, table 1. *)
Definition symbol (v : Z) : Z :=
  if v <? 26 then 65 + v else if v <? 52 then 97 + (v - 26) else if v <? 62 then 48 + (v - 52)
  else if v =? 62 then 43 else 47.
(** The encoding: the symbols, then '=' up to a multiple of four characters. *)
Definition rfc4648 (s : list Z) : list Z :=
  let t := map symbol (sextets (bits s)) in t ++ repeat 61 (Z.to_nat ((- Z.of_nat (length t)) mod 4)).

(** Letters, digits, '+', '/' and '='. *)
Definition base64_char (c : Z) : Prop :=
  65 <= c <= 90 \/ 97 <= c <= 122 \/ 48 <= c <= 57 \/ c = 43 \/ c = 47 \/ c = 61.

(** The sub-list of base64 characters. *)
Inductive base64_part : list Z -> list Z -> Prop :=
| part_nil : base64_part [] []
| part_keep c s p : base64_char c -> base64_part s p -> base64_part (c :: s) (c :: p)
| part_drop c s p : ~ base64_char c -> base64_part s p -> base64_part (c :: s) p.
(** Number of '=' in a list. *)
Definition pads (l : list Z) : Z := Z.of_nat (count_occ Z.eq_dec l 61).
(** The first group of four with a '=' has more than two of them. *)
Inductive bad_padding : list Z -> Prop :=
| bad_here g l : length g = 4%nat -> 2 < pads g -> bad_padding (g ++ l)
| bad_later g l : length g = 4%nat -> pads g = 0 -> bad_padding l -> bad_padding (g ++ l).
