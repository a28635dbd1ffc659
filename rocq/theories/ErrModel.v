(** err, errx, warn, vwarnx and warnx of include/compat/err.h 21-91, for systems without <err.h>.

    A program is what it has printed on stderr, errno and, once it has ended, its status. Every call of a printing function leaves any errno behind it. Simplified: the text that
    vfprintf makes of the format and its arguments is given ([None]: fmt is NULL); printing itself succeeds. *)
From Verif Require Export Base.
Import ListNotations.

(** The state of the program: stderr, errno (include/compat/err.h 15), the status given to exit (39, 57). *)
Record prog := Prog { printed : list Z; errno : Z; ended : option Z }.
(** The C library: strerror, and the errno that is left by the [n]-th byte printed (include/compat/err.h 32-38). *)
Record clib := Lib { strerror : Z -> list Z; left : nat -> Z }.
(** fprintf or vfprintf to stderr of a text, include/compat/err.h 34-35, 38, 54, 56. *)
Definition print (L : clib) (t : list Z) (p : prog) : prog := Prog (printed p ++ t) (left L (length (printed p ++ t))) (ended p).
(** exit, include/compat/err.h 39, 57: the status of the process is the low byte. *)
Definition exit_with (eval : Z) (p : prog) : prog := Prog (printed p) (errno p) (Some (u8 eval)).
(** ": ", include/compat/err.h 35. *)
Definition colon : list Z := [58; 32].
(** "\n", include/compat/err.h 38, 56. *)
Definition newline : list Z := [10].
(** The part common to err (29-38) and warn (63-72) of include/compat/err.h. *)
Definition message (L : clib) (fmt : option (list Z)) (p : prog) : prog :=
  let sverrno := errno p in
  let p := match fmt with Some m => print L colon (print L m p) | None => p end in
  print L (strerror L sverrno ++ newline) p.
(** err, include/compat/err.h 26-40. *)
Definition err (L : clib) (eval : Z) (fmt : option (list Z)) (p : prog) : prog := exit_with eval (message L fmt p).
(** warn, include/compat/err.h 60-73. *)
Definition warn (L : clib) (fmt : option (list Z)) (p : prog) : prog := message L fmt p.
(** vwarnx, include/compat/err.h 75-81; the same text as errx, 52-56. *)
Definition vwarnx (L : clib) (fmt : option (list Z)) (p : prog) : prog :=
  let p := match fmt with Some m => print L m p | None => p end in print L newline p.
(** warnx, include/compat/err.h 83-91. *)
Definition warnx (L : clib) (fmt : option (list Z)) (p : prog) : prog := vwarnx L fmt p.
(** errx, include/compat/err.h 47-58. *)
Definition errx (L : clib) (eval : Z) (fmt : option (list Z)) (p : prog) : prog :=
  let p := match fmt with Some m => print L m p | None => p end in exit_with eval (print L newline p).
