(** The option scanner of include/compat/getopt.c: exchange, _getopt_initialize, _getopt_internal (with long options, long_only and "W;"), getopt.

    Simplified: elements of argv are numbers of strings that do not change ([text]: the contents without the NUL, as signed chars); a pointer into
    an element is its number and an offset.  argv has argc elements and a NULL after them (C11 5.1.2.2.1).  Messages are not printed, but the
    elements a message would print are read where that can go wrong (1009).  The branches for _LIBC are left out, as the file is not built there.
    ints do not overflow: the counters stay below argc + 2. *)
From Verif Require Export Base.
Import ListNotations.

(** A char pointer of getopt.c 115, 147: NULL, a place in an element of argv, or the literal "" of line 858. *)
Inductive ptr := Null | At (x off : Z) | Empty.
(** enum ordering, getopt.c 188-191. *)
Inductive mode := REQUIRE_ORDER | PERMUTE | RETURN_IN_ORDER.
(** struct option, getopt.h 101-113; the flag is an address, 0 for NULL. *)
Record lopt := Lopt { o_name : list Z; o_has_arg : Z; o_flag : Z; o_val : Z }.
(** The variables of getopt.c 115-191 and 252-253, *longind, and the stores made through flags (the latest first). *)
Record gst := Gst { argv : list Z; optind : Z; inited : bool; nextchar : ptr; first_nonopt : Z; last_nonopt : Z; ordering : mode;
                    optarg : ptr; optopt : Z; longind : Z; flags : list (Z * Z) }.
(** argv, assigned by exchange in getopt.c 348-350 and 365-367. *)
Definition set_argv a (s : gst) : gst := Gst a (optind s) (inited s) (nextchar s) (first_nonopt s) (last_nonopt s) (ordering s) (optarg s) (optopt s) (longind s) (flags s).
(** optind, assigned in getopt.c 528, 571, 582, 590, 601 and later. *)
Definition set_optind i (s : gst) : gst := Gst (argv s) i (inited s) (nextchar s) (first_nonopt s) (last_nonopt s) (ordering s) (optarg s) (optopt s) (longind s) (flags s).
(** nextchar, assigned in getopt.c 398, 619 and later. *)
Definition set_nextchar p (s : gst) : gst := Gst (argv s) (optind s) (inited s) p (first_nonopt s) (last_nonopt s) (ordering s) (optarg s) (optopt s) (longind s) (flags s).
(** first_nonopt and last_nonopt, assigned in getopt.c 377-378, 396, 553-588. *)
Definition set_nonopts f l (s : gst) : gst := Gst (argv s) (optind s) (inited s) (nextchar s) f l (ordering s) (optarg s) (optopt s) (longind s) (flags s).
(** optarg, assigned in getopt.c 524, 612 and later. *)
Definition set_optarg p (s : gst) : gst := Gst (argv s) (optind s) (inited s) (nextchar s) (first_nonopt s) (last_nonopt s) (ordering s) p (optopt s) (longind s) (flags s).
(** optopt, assigned in getopt.c 704, 766, 798, 860, 912, 956, 1151. *)
Definition set_optopt c (s : gst) : gst := Gst (argv s) (optind s) (inited s) (nextchar s) (first_nonopt s) (last_nonopt s) (ordering s) (optarg s) c (longind s) (flags s).
(** *longind, assigned in getopt.c 804 and 1092. *)
Definition set_longind i (s : gst) : gst := Gst (argv s) (optind s) (inited s) (nextchar s) (first_nonopt s) (last_nonopt s) (ordering s) (optarg s) (optopt s) i (flags s).
(** *(pfound->flag) = pfound->val, getopt.c 807 and 1095. *)
Definition set_flag a v (s : gst) : gst := Gst (argv s) (optind s) (inited s) (nextchar s) (first_nonopt s) (last_nonopt s) (ordering s) (optarg s) (optopt s) (longind s) ((a, v) :: flags s).
(** What the caller gives: optstring, longopts (None for NULL), whether longind is not NULL, long_only, opterr, and whether POSIXLY_CORRECT is in the environment; getopt.c 400, 508-515, 517. *)
Record cfg := Cfg { c_os : list Z; c_long : option (list lopt); c_longind : bool; c_only : bool; c_opterr : bool; c_posix : bool }.

(** A read of argv[i], getopt.c 348-367, 580, 612, 619 and later. *)
Definition rda (l : list Z) (i : Z) : out Z := if (0 <=? i) && (i <? Z.of_nat (length l)) then Ok (nth (Z.to_nat i) l 0) else if i =? Z.of_nat (length l) then Undef NullDeref else Undef OobRead.
(** A store to argv[i], getopt.c 349-350 and 366-367. *)
Definition wra (l : list Z) (i x : Z) : out (list Z) :=
  if (0 <=? i) && (i <? Z.of_nat (length l)) then Ok (firstn (Z.to_nat i) l ++ x :: skipn (S (Z.to_nat i)) l) else Undef OobWrite.
(** The for loops of exchange, getopt.c 346-352 and 363-369: [n] swaps from [a] and [b] on. *)
Fixpoint swap_run (n : nat) (a b : Z) (l : list Z) : out (list Z) :=
  match n with
  | O => Ok l
  | S n => let* tem := rda l a in let* y := rda l b in let* l := wra l a y in let* l := wra l b tem in swap_run n (a + 1) (b + 1) l
  end.
(** The while loop of exchange, getopt.c 337-373. *)
Fixpoint exchange_loop (fuel : nat) (bottom middle top : Z) (l : list Z) : out (list Z) :=
  if (middle <? top) && (bottom <? middle) then
    match fuel with
    | O => NoFuel
    | S fuel =>
        if middle - bottom <? top - middle then
          let len := middle - bottom in
          let* l := swap_run (Z.to_nat len) bottom (top - (middle - bottom)) l in exchange_loop fuel bottom middle (top - len) l
        else
          let len := top - middle in
          let* l := swap_run (Z.to_nat len) bottom middle l in exchange_loop fuel (bottom + len) middle top l
    end
  else Ok l.
(** exchange, getopt.c 301-379. *)
Definition exchange (s : gst) : out gst :=
  let* l := exchange_loop (length (argv s)) (first_nonopt s) (last_nonopt s) (optind s) (argv s) in
  Ok (set_nonopts (first_nonopt s + (optind s - last_nonopt s)) (optind s) (set_argv l s)).
(** my_index, getopt.c 218-230: the rest of the string from the first occurrence on. *)
Fixpoint my_index (s : list Z) (c : Z) : option (list Z) :=
  match s with [] => None | x :: t => if x =? c then Some (x :: t) else my_index t c end.
(** str[0] of a string given as its characters, getopt.c 404, 409, 518, 799, 1105. *)
Definition hd0 (s : list Z) : Z := match s with [] => 0 | c :: _ => c end.
(** _getopt_initialize, getopt.c 386-450; gives the string to use in this call. *)
Definition initialize (c : cfg) (s : gst) : list Z * gst :=
  let m := if hd0 (c_os c) =? 45 then RETURN_IN_ORDER else if hd0 (c_os c) =? 43 then REQUIRE_ORDER else if c_posix c then REQUIRE_ORDER else PERMUTE in
  let os := if (hd0 (c_os c) =? 45) || (hd0 (c_os c) =? 43) then tl (c_os c) else c_os c in
  (os, Gst (argv s) (optind s) (inited s) Null (optind s) (optind s) m (optarg s) (optopt s) (longind s) (flags s)).
(** strncmp (name, s, n) == 0, getopt.c 656 and 977. *)
Fixpoint strncmp0 (a b : list Z) (n : nat) : bool :=
  match n with
  | O => true
  | S n => match a, b with [], [] => true | x :: a, y :: b => if x =? y then strncmp0 a b n else false | _, _ => false end
  end.
(** The loop over the long options, getopt.c 655-679 and 976-996: the option found so far and its index, exact, ambig.  [len] is nameend - nextchar; [strict] is whether a second
    abbreviation is ambiguous whatever it is (677: long_only; 994: always). *)
Fixpoint search (strict : bool) (tbl : list lopt) (i : Z) (name : list Z) (len : Z) (pf : option lopt) (ind : Z) (ambig : bool) : option lopt * Z * bool * bool :=
  match tbl with
  | [] => (pf, ind, false, ambig)
  | p :: tbl =>
      if strncmp0 (o_name p) name (Z.to_nat len) then
        if u32 len =? u32 (Z.of_nat (length (o_name p))) then (Some p, i, true, ambig)
        else match pf with
             | None => search strict tbl (i + 1) name len (Some p) i ambig
             | Some q => search strict tbl (i + 1) name len pf ind (ambig || strict || negb (o_has_arg q =? o_has_arg p) || negb (o_flag q =? o_flag p) || negb (o_val q =? o_val p))
             end
      else search strict tbl (i + 1) name len pf ind ambig
  end.
(** nameend - nextchar, getopt.c 650 and 971: the characters before the '='. *)
Fixpoint name_len (s : list Z) : Z := match s with [] => 0 | c :: t => if c =? 61 then 0 else 1 + name_len t end.
(** The end of a long option that was found, getopt.c 802-810 and 1090-1098: nextchar, *longind, the flag. *)
Definition found (c : cfg) (p : lopt) (i : Z) (s : gst) : Z * gst :=
  let s := if c_longind c then set_longind i s else s in
  if negb (o_flag p =? 0) then (0, set_flag (o_flag p) (o_val p) s) else (o_val p, s).

Section Text.
Variable text : Z -> list Z.
(** *p of a char pointer, getopt.c 547, 650, 868, 872 and later. *)
Definition chr (p : ptr) : out Z :=
  match p with
  | Null => Undef NullDeref
  | Empty => Ok 0
  | At x off => if (0 <=? off) && (off <? Z.of_nat (length (text x))) then Ok (nth (Z.to_nat off) (text x) 0) else if off =? Z.of_nat (length (text x)) then Ok 0 else Undef OobRead
  end.
(** The string a pointer points to, for strlen, strncmp and the loop of getopt.c 650, 656, 702. *)
Definition rest_of (p : ptr) : list Z := match p with At x off => skipn (Z.to_nat off) (text x) | _ => [] end.
(** p + n, getopt.c 717, 868. *)
Definition plus (p : ptr) (n : Z) : ptr := match p with At x off => At x (off + n) | p => p end.
(** nextchar += strlen (nextchar), getopt.c 702, 764, 797, 802, 1018, 1055, 1086, 1090. *)
Definition to_end (s : gst) : gst := set_nextchar (plus (nextchar s) (Z.of_nat (length (rest_of (nextchar s))))) s.
(** argv[i][j], getopt.c 543, 619, 639-640, 817. *)
Definition elem_chr (s : gst) (i j : Z) : out Z := let* x := rda (argv s) i in chr (At x j).
(** NONOPTION_P, getopt.c 543. *)
Definition nonoption_p (s : gst) : out bool := let* a := elem_chr s (optind s) 0 in if negb (a =? 45) then Ok true else let* b := elem_chr s (optind s) 1 in Ok (b =? 0).
(** argc, the length of argv; getopt.c 509. *)
Definition argc (s : gst) : Z := Z.of_nat (length (argv s)).
(** The loop that skips non-options, getopt.c 570-571. *)
Fixpoint skip_nonopts (fuel : nat) (s : gst) : out gst :=
  if optind s <? argc s then
    let* b := nonoption_p s in
    if b then match fuel with O => NoFuel | S fuel => skip_nonopts fuel (set_optind (optind s + 1) s) end else Ok s
  else Ok s.
(** !strcmp (argv[optind], "--"), getopt.c 579. *)
Definition is_dashdash (t : list Z) : bool := match t with [45; 45] => true | _ => false end.
(** Putting the options before the non-options skipped, and skipping more of them, getopt.c 557-573. *)
Definition permute (s : gst) : out gst :=
  match ordering s with
  | PERMUTE =>
      let* s := (if negb (first_nonopt s =? last_nonopt s) && negb (last_nonopt s =? optind s) then exchange s
                 else if negb (last_nonopt s =? optind s) then Ok (set_nonopts (optind s) (last_nonopt s) s) else Ok s) in
      let* s := skip_nonopts (length (argv s)) s in
      Ok (set_nonopts (first_nonopt s) (optind s) s)
  | _ => Ok s
  end.
(** The element "--", getopt.c 579-591. *)
Definition dashes (s : gst) : out gst :=
  let* dd := (if negb (optind s =? argc s) then let* x := rda (argv s) (optind s) in Ok (is_dashdash (text x)) else Ok false) in
  if dd : bool then
    let s := set_optind (optind s + 1) s in
    let* s := (if negb (first_nonopt s =? last_nonopt s) && negb (last_nonopt s =? optind s) then exchange s
               else if first_nonopt s =? last_nonopt s then Ok (set_nonopts (optind s) (last_nonopt s) s) else Ok s) in
    Ok (set_optind (argc s) (set_nonopts (first_nonopt s) (argc s) s))
  else Ok s.
(** The end of the elements, a non-option that stays where it is, or an option element, getopt.c 596-620. *)
Definition arrive (c : cfg) (s : gst) : out (option Z * gst) :=
  if optind s =? argc s then Ok (Some (-1), if negb (first_nonopt s =? last_nonopt s) then set_optind (first_nonopt s) s else s)
  else
    let* b := nonoption_p s in
    if b : bool then
      match ordering s with
      | REQUIRE_ORDER => Ok (Some (-1), s)
      | _ => let* x := rda (argv s) (optind s) in Ok (Some 1, set_optind (optind s + 1) (set_optarg (At x 0) s))
      end
    else
      let* x := rda (argv s) (optind s) in
      let* two := match c_long c with None => Ok 0 | Some _ => let* d := chr (At x 1) in Ok (if d =? 45 then 1 else 0) end in
      Ok (None, set_nextchar (At x (1 + two)) s).
(** Advancing to the next element, getopt.c 548-620: a value returned by getopt, or none and nextchar set. *)
Definition advance (c : cfg) (s : gst) : out (option Z * gst) :=
  let s := set_nonopts (first_nonopt s) (if optind s <? last_nonopt s then optind s else last_nonopt s) s in
  let s := set_nonopts (if optind s <? first_nonopt s then optind s else first_nonopt s) (last_nonopt s) s in
  let* s := permute s in
  let* s := dashes s in
  arrive c s.
(** The value for a missing argument, optstring[0] == ':' ? ':' : '?', getopt.c 799, 957-960, 1087, 1152-1155. *)
Definition missing (os : list Z) : Z := if hd0 os =? 58 then 58 else 63.
(** Whether the element is a long option, getopt.c 638-640. *)
Definition is_long (c : cfg) (os : list Z) (s : gst) : out bool :=
  match c_long c with
  | None => Ok false
  | Some _ =>
      let* d := elem_chr s (optind s) 1 in
      if d =? 45 then Ok true
      else if c_only c then let* e := elem_chr s (optind s) 2 in if negb (e =? 0) then Ok true else Ok (match my_index os d with None => true | Some _ => false end)
      else Ok false
  end.
(** A long option, getopt.c 642-863; None goes on as a short option. *)
Definition long_option (c : cfg) (os : list Z) (tbl : list lopt) (s : gst) : out (option (Z * gst)) :=
  let name := rest_of (nextchar s) in
  let len := name_len name in
  match search (c_only c) tbl 0 name len None (-1) false with
  | (_, _, false, true) => Ok (Some (63, set_optopt 0 (set_optind (optind s + 1) (to_end s))))
  | (Some p, i, _, _) =>
      let s := set_optind (optind s + 1) s in
      let* eq := chr (plus (nextchar s) len) in
      if negb (eq =? 0) then
        if negb (o_has_arg p =? 0) then Ok (Some (found c p i (to_end (set_optarg (plus (nextchar s) (len + 1)) s))))
        else Ok (Some (63, set_optopt (o_val p) (to_end s)))
      else if o_has_arg p =? 1 then
        if optind s <? argc s then let* x := rda (argv s) (optind s) in Ok (Some (found c p i (to_end (set_optind (optind s + 1) (set_optarg (At x 0) s)))))
        else Ok (Some (missing os, set_optopt (o_val p) (to_end s)))
      else Ok (Some (found c p i (to_end s)))
  | (None, _, _, _) =>
      let* d := elem_chr s (optind s) 1 in
      let* e := chr (nextchar s) in
      if negb (c_only c) || (d =? 45) || match my_index os e with None => true | Some _ => false end
      then Ok (Some (63, set_optopt 0 (set_optind (optind s + 1) (set_nextchar Empty s))))
      else Ok None
  end.
(** -W, getopt.c 917-1102; [pe] is print_errors, [ch] the character. *)
Definition w_option (c : cfg) (os : list Z) (pe : bool) (ch : Z) (s : gst) : out (Z * gst) :=
  let* n := chr (nextchar s) in
  if (n =? 0) && (optind s =? argc s) then Ok (missing os, set_optopt ch s)
  else
    let* s := (if negb (n =? 0) then Ok (set_optind (optind s + 1) (set_optarg (nextchar s) s))
               else let* x := rda (argv s) (optind s) in Ok (set_optind (optind s + 1) (set_optarg (At x 0) s))) in
    let s := set_nextchar (optarg s) s in
    let name := rest_of (nextchar s) in
    let len := name_len name in
    match c_long c with
    | None => Undef NullDeref
    | Some tbl =>
        match search true tbl 0 name len None 0 false with
        | (_, _, false, true) =>
            let* _ := (if pe then rda (argv s) (optind s) else Ok 0) in
            Ok (63, set_optind (optind s + 1) (to_end s))
        | (Some p, i, _, _) =>
            let* eq := chr (plus (nextchar s) len) in
            if negb (eq =? 0) then
              if negb (o_has_arg p =? 0) then Ok (found c p i (to_end (set_optarg (plus (nextchar s) (len + 1)) s)))
              else Ok (63, to_end s)
            else if o_has_arg p =? 1 then
              if optind s <? argc s then let* x := rda (argv s) (optind s) in Ok (found c p i (to_end (set_optind (optind s + 1) (set_optarg (At x 0) s))))
              else Ok (missing os, to_end s)
            else Ok (found c p i (to_end s))
        | (None, _, _, _) => Ok (87, set_nextchar Null s)
        end
    end.
(** A short option, getopt.c 865-1165. *)
Definition short_option (c : cfg) (os : list Z) (pe : bool) (s : gst) : out (Z * gst) :=
  let* ch := chr (nextchar s) in
  let s := set_nextchar (plus (nextchar s) 1) s in
  let* n := chr (nextchar s) in
  let s := if n =? 0 then set_optind (optind s + 1) s else s in
  match my_index os ch with
  | None => Ok (63, set_optopt ch s)
  | Some temp =>
      if ch =? 58 then Ok (63, set_optopt ch s)
      else if (hd0 temp =? 87) && (hd0 (tl temp) =? 59) then w_option c os pe ch s
      else if hd0 (tl temp) =? 58 then
        if hd0 (tl (tl temp)) =? 58 then
          Ok (ch, set_nextchar Null (if negb (n =? 0) then set_optind (optind s + 1) (set_optarg (nextchar s) s) else set_optarg Null s))
        else if negb (n =? 0) then Ok (ch, set_nextchar Null (set_optind (optind s + 1) (set_optarg (nextchar s) s)))
        else if optind s =? argc s then Ok (missing os, set_nextchar Null (set_optopt ch s))
        else let* x := rda (argv s) (optind s) in Ok (ch, set_nextchar Null (set_optind (optind s + 1) (set_optarg (At x 0) s)))
      else Ok (ch, s)
  end.
(** Decoding the current element, getopt.c 622-1165. *)
Definition decode (c : cfg) (os : list Z) (pe : bool) (s : gst) : out (Z * gst) :=
  let* l := is_long c os s in
  match c_long c with
  | Some tbl => if l : bool then let* r := long_option c os tbl s in match r with Some r => Ok r | None => short_option c os pe s end else short_option c os pe s
  | None => short_option c os pe s
  end.
(** nextchar == NULL || *nextchar == '\0', getopt.c 546. *)
Definition at_end (s : gst) : out bool := match nextchar s with Null => Ok true | p => let* ch := chr p in Ok (ch =? 0) end.
(** _getopt_internal after the initialization, getopt.c 546-1165. *)
Definition scan_call (c : cfg) (os : list Z) (pe : bool) (s : gst) : out (Z * gst) :=
  let* e := at_end s in
  if e : bool then let* (r, s) := advance c s in match r with Some r => Ok (r, s) | None => decode c os pe s end
  else decode c os pe s.
(** _getopt_internal, getopt.c 508-1166. *)
Definition getopt_internal (c : cfg) (s : gst) : out (Z * gst) :=
  let pe := if hd0 (c_os c) =? 58 then false else c_opterr c in
  if argc s <? 1 then Ok (-1, s)
  else
    let s := set_optarg Null s in
    if (optind s =? 0) || negb (inited s) then
      let s := if optind s =? 0 then set_optind 1 s else s in
      let (os, s) := initialize c s in
      scan_call c os pe (Gst (argv s) (optind s) true (nextchar s) (first_nonopt s) (last_nonopt s) (ordering s) (optarg s) (optopt s) (longind s) (flags s))
    else scan_call c (c_os c) pe s.
(** getopt, getopt.c 1168-1178. *)
Definition getopt (os : list Z) (opterr posix : bool) (s : gst) : out (Z * gst) := getopt_internal (Cfg os None false false opterr posix) s.

(** What the caller sees after a call: the value returned, optarg, optopt, *longind, and the stores through flags; getopt.c 115, 157, 804, 807. *)
Record event := Ev { e_ret : Z; e_arg : ptr; e_opt : Z; e_ind : Z; e_flags : list (Z * Z) }.
(** The variables the caller sees, getopt.c 115, 157. *)
Definition see (r : Z) (s : gst) : event := Ev r (optarg s) (optopt s) (longind s) (flags s).
(** The loop of a caller, as in getopt.c 1200-1245: until -1. *)
Fixpoint options (fuel : nat) (c : cfg) (s : gst) : out (list event * gst) :=
  match fuel with
  | O => NoFuel
  | S fuel => let* (r, s) := getopt_internal c s in if r =? -1 then Ok ([], s) else let* (l, s') := options fuel c s in Ok (see r s :: l, s')
  end.
End Text.
