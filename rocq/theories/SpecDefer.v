(** Specification vocabulary for scopes; nothing here mentions the code. *)
From Coq Require Export ZArith List Bool Lia.
Export ListNotations.
Open Scope Z_scope.

(** The elements of [l] whose flag is set, in order. *)
Fixpoint kept {A} (m : list bool) (l : list A) : list A :=
  match m, l with
  | b :: m', x :: l' => if b then x :: kept m' l' else kept m' l'
  | _, _ => []
  end.

(** [l] without its element [k]. *)
Definition without {A} (k : nat) (l : list A) : list A := firstn k l ++ skipn (Datatypes.S k) l.

(** A 64-bit value. *)
Definition word (x : Z) : Prop := 0 <= x < 18446744073709551616.

(** Smallest multiple of [k] that is not below [n]. *)
Definition round_up (k n : Z) : Z := (n + k - 1) / k * k.
