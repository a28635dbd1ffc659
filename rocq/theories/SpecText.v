(** Specification vocabulary for C strings: comparison, occurrence, splitting
    and substitution.  Nothing here mentions the model of the code. *)
From Verif Require Export SpecStr.
Open Scope Z_scope.

(** The C string at offset [o] of block [b] has length [n]. *)
Definition cstr_len (b : list Z) (o n : Z) : Prop :=
  0 <= o /\ 0 <= n /\ o + n < Z.of_nat (length b) /\ item b (o + n) = 0 /\
  forall k, 0 <= k < n -> item b (o + k) <> 0.

(** Content of a C string: bytes other than NUL. *)
Definition text (s : list Z) : Prop := Forall (fun x => 0 < x < 256) s.

(** [d] is what strcmp returns on [a] and [b] up to sign-preserving choice:
    0 on equal strings, otherwise the difference at the first differing byte
    (the terminators count). *)
Definition strcmp_spec (a b : list Z) (d : Z) : Prop :=
  (a = b /\ d = 0) \/
  exists i, 0 <= i <= Z.of_nat (length a) /\ i <= Z.of_nat (length b) /\
    (forall j, 0 <= j < i -> item (a ++ [0]) j = item (b ++ [0]) j) /\
    item (a ++ [0]) i <> item (b ++ [0]) i /\ d = item (a ++ [0]) i - item (b ++ [0]) i.

(** [a] is a prefix of [b]. *)
Definition is_prefix (a b : list Z) : Prop := exists c, b = a ++ c.

(** [p] occurs in [t] at [i]; [i] is the smallest such offset; [p] occurs. *)
Definition occurs_at (p t : list Z) (i : Z) : Prop :=
  0 <= i /\ i + Z.of_nat (length p) <= Z.of_nat (length t) /\ slice t i (Z.of_nat (length p)) = p.
Definition first_occ (p t : list Z) (i : Z) : Prop :=
  occurs_at p t i /\ forall j, 0 <= j < i -> ~ occurs_at p t j.
Definition occurs (p t : list Z) : Prop := exists i, occurs_at p t i.

(** [ws] are the words of [s] cut at the leftmost non-overlapping occurrences of [d]. *)
Inductive splits (d : list Z) : list Z -> list (list Z) -> Prop :=
| splits_last s : ~ occurs d s -> splits d s [s]
| splits_cut w s ws : first_occ d (w ++ d ++ s) (Z.of_nat (length w)) ->
    splits d s ws -> splits d (w ++ d ++ s) (w :: ws).
(** The words with [d] between consecutive ones. *)
Fixpoint join (d : list Z) (ws : list (list Z)) : list Z :=
  match ws with
  | [] => []
  | [w] => w
  | w :: ws' => w ++ d ++ join d ws'
  end.

(** [r] is [h] with every leftmost non-overlapping occurrence of [n] replaced by [x]. *)
Inductive substituted (n x : list Z) : list Z -> list Z -> Prop :=
| subst_end : substituted n x [] []
| subst_hit h r : substituted n x h r -> n <> [] -> substituted n x (n ++ h) (x ++ r)
| subst_miss c h r : ~ is_prefix n (c :: h) -> substituted n x h r -> substituted n x (c :: h) (c :: r).
