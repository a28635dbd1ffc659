(** What scanning the arguments should give, after the comments of include/compat/getopt.c 94-106, 159-186 and 452-506 and of getopt.h. *)
From Verif Require Import BaseLemmas GetoptModel.
Import ListNotations.

(** What the option string says of a letter. *)
Inductive kind := NoArg | Required | Optional.
(** Two colons mean an optional argument, one a required one (getopt.c 475-479); a colon is no option. *)
Fixpoint letter_in (os : list Z) (c : Z) : option kind :=
  match os with
  | [] => None
  | x :: t => if x =? c then Some (match t with 58 :: 58 :: _ => Optional | 58 :: _ => Required | _ => NoArg end) else letter_in t c
  end.
(** A letter that is an option. *)
Definition letter (os : list Z) (c : Z) : option kind := if c =? 58 then None else letter_in os c.
(** The long options with their numbers. *)
Fixpoint number (i : Z) (tbl : list lopt) : list (Z * lopt) := match tbl with [] => [] | o :: t => (i, o) :: number (i + 1) t end.
(** [a] is the beginning of [b]. *)
Fixpoint begins (a b : list Z) : bool := match a, b with [], _ => true | x :: a, y :: b => (x =? y) && begins a b | _ :: _, [] => false end.
(** Two options that do the same. *)
Definition same (o o' : lopt) : bool := (o_has_arg o =? o_has_arg o') && (o_flag o =? o_flag o') && (o_val o =? o_val o').
(** What a long name stands for. *)
Inductive lookup := Found (i : Z) (o : lopt) | Ambiguous | Unknown.
(** The option of that name, or the one it is the beginning of (getopt.c 485-486). *)
Definition resolve (tbl : list lopt) (name : list Z) : lookup :=
  match find (fun io => begins name (o_name (snd io)) && (length name =? length (o_name (snd io)))%nat) (number 0 tbl) with
  | Some (i, o) => Found i o
  | None =>
      match filter (fun io => begins name (o_name (snd io))) (number 0 tbl) with
      | [] => Unknown
      | (i, o) :: l => if forallb (fun io => same o (snd io)) l then Found i o else Ambiguous
      end
  end.
(** The name and the value of "name=value". *)
Fixpoint cut (s : list Z) : list Z * option (list Z) := match s with [] => ([], None) | c :: t => if c =? 61 then ([], Some t) else let (n, v) := cut t in (c :: n, v) end.

Section Spec.
Variable text : Z -> list Z.
Variable tbl : option (list lopt).
Variable want_ind : bool.
(** The option string of the first call and of the later ones. *)
Variable os : bool -> list Z.
(** The answer to a missing argument. *)
Definition lacking (first : bool) : Z := match os first with 58 :: _ => 58 | _ => 63 end.
(** The letters [s] of element [x] from [off] on, the element after it, and the last event: the events, and whether the next element is an argument. *)
Fixpoint cluster (first : bool) (x off : Z) (s : list Z) (next : option Z) (e : event) : list event * bool :=
  match s with
  | [] => ([], false)
  | c :: t =>
      match letter (os first) c with
      | None => let e := Ev 63 Null c (e_ind e) (e_flags e) in let (l, took) := cluster false x (off + 1) t next e in (e :: l, took)
      | Some NoArg => let e := Ev c Null (e_opt e) (e_ind e) (e_flags e) in let (l, took) := cluster false x (off + 1) t next e in (e :: l, took)
      | Some Optional => ([Ev c (match t with [] => Null | _ => At x (off + 1) end) (e_opt e) (e_ind e) (e_flags e)], false)
      | Some Required =>
          match t, next with
          | _ :: _, _ => ([Ev c (At x (off + 1)) (e_opt e) (e_ind e) (e_flags e)], false)
          | [], Some y => ([Ev c (At y 0) (e_opt e) (e_ind e) (e_flags e)], true)
          | [], None => ([Ev (lacking first) Null c (e_ind e) (e_flags e)], false)
          end
      end
  end.
(** A long option that was understood. *)
Definition taken (i : Z) (o : lopt) (arg : ptr) (e : event) : event :=
  Ev (if o_flag o =? 0 then o_val o else 0) arg (e_opt e) (if want_ind then i else e_ind e) (if o_flag o =? 0 then e_flags e else (o_flag o, o_val o) :: e_flags e).
(** The element "--s". *)
Definition long_element (first : bool) (t : list lopt) (x : Z) (s : list Z) (next : option Z) (e : event) : event * bool :=
  let (name, value) := cut s in
  match resolve t name with
  | Unknown | Ambiguous => (Ev 63 Null 0 (e_ind e) (e_flags e), false)
  | Found i o =>
      match value with
      | Some _ => if o_has_arg o =? 0 then (Ev 63 Null (o_val o) (e_ind e) (e_flags e), false) else (taken i o (At x (2 + zlen name + 1)) e, false)
      | None =>
          if o_has_arg o =? 1 then
            match next with Some y => (taken i o (At y 0) e, true) | None => (Ev (lacking first) Null (o_val o) (e_ind e) (e_flags e), false) end
          else (taken i o Null e, false)
      end
  end.
(** An option element. *)
Definition element (first : bool) (x : Z) (next : option Z) (e : event) : list event * bool :=
  match tbl, text x with
  | Some t, _ :: 45 :: s => let (e, took) := long_element first t x s next e in ([e], took)
  | _, s => cluster first x 1 (tl s) next e
  end.
(** The element "--" (getopt.c 184). *)
Definition ends_options (s : list Z) : bool := match s with [a; b] => (a =? 45) && (b =? 45) | _ => false end.
(** Not an option: "-", or not beginning with '-'. *)
Definition plain (s : list Z) : bool := match s with 45 :: _ :: _ => false | _ => true end.
(** All the elements: the events; the elements that were passed, in order; the ones left to the caller, in order. *)
Fixpoint scan (m : mode) (first : bool) (args : list Z) (e : event) : list event * list Z * list Z :=
  match args with
  | [] => ([], [], [])
  | x :: rest =>
      if ends_options (text x) then ([], [x], rest)
      else if plain (text x) then
        match m with
        | PERMUTE => let '(l, p, n) := scan m first rest e in (l, p, x :: n)
        | REQUIRE_ORDER => ([], [], args)
        | RETURN_IN_ORDER => let e := Ev 1 (At x 0) (e_opt e) (e_ind e) (e_flags e) in let '(l, p, n) := scan m false rest e in (e :: l, x :: p, n)
        end
      else
        let (ev, took) := element first x (hd_error rest) e in
        match took, rest with
        | true, y :: rest => let '(l, p, n) := scan m false rest (last ev e) in (ev ++ l, x :: y :: p, n)
        | _, _ => let '(l, p, n) := scan m false rest (last ev e) in (ev ++ l, x :: p, n)
        end
  end.
End Spec.
