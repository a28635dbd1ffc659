(** Small macros of include/compat: timersub (sys/time.h), timespecsub (time.h), be64toh and htobe64 (endian.h), the file type macros (sys/stat.h).

    Simplified: the arguments of the macros have no side effects; htonl and ntohl of Windows are given by what they do on a little-endian machine. *)
From Verif Require Export Base.
Import ListNotations.

(** struct timeval and struct timespec, by address: seconds and parts; sys/time.h 19-20, time.h 49-50. *)
Definition times := Z -> Z * Z.
(** A store to tv_sec, sys/time.h 19, 22; time.h 49, 52. *)
Definition set_sec (p v : Z) (m : times) : times := fun q => if q =? p then (v, snd (m q)) else m q.
(** A store to tv_usec or tv_nsec, sys/time.h 20, 23; time.h 50, 53. *)
Definition set_part (p v : Z) (m : times) : times := fun q => if q =? p then (fst (m q), v) else m q.
(** A value of type long of [bits] bits, of which sys/time.h 19-23 and time.h 49-53 compute differences. *)
Definition long (bits x : Z) : out Z := if (- 2 ^ (bits - 1) <=? x) && (x <? 2 ^ (bits - 1)) then Ok x else Undef SignedOverflow.
(** timersub (sys/time.h 17-25, [unit] 1000000) and timespecsub (time.h 47-55, [unit] 1000000000); [sb] and [pb] are the widths of the two fields. *)
Definition timersub (unit sb pb : Z) (tvp uvp vvp : Z) (m : times) : out times :=
  let* s := long sb (fst (m tvp) - fst (m uvp)) in
  let m := set_sec vvp s m in
  let* u := long pb (snd (m tvp) - snd (m uvp)) in
  let m := set_part vvp u m in
  if snd (m vvp) <? 0 then
    let* s := long sb (fst (m vvp) - 1) in
    let m := set_sec vvp s m in
    let* u := long pb (snd (m vvp) + unit) in
    Ok (set_part vvp u m)
  else Ok m.

(** htonl and ntohl, used in endian.h 73, 76: the four bytes reversed. *)
Definition htonl (x : Z) : Z := let v := u32 x in (v mod 256) * 16777216 + (v / 256 mod 256) * 65536 + (v / 65536 mod 256) * 256 + v / 16777216.
(** An argument of a macro: its value and the width of its promoted type, 32 or 64; endian.h 70-79. *)
Record arg := Arg { a_width : Z; a_value : Z }.
(** x >> n, endian.h 73, 76. *)
Definition shift_right (x : arg) (n : Z) : out Z := if n <? a_width x then Ok (Z.shiftr (a_value x) n) else Undef BadShift.
(** ntohll and htonll, endian.h 72-77; be64toh and htobe64 are ntohll (70, 79). *)
Definition ntohll (x : arg) : out Z :=
  if htonl 1 =? 1 then Ok (a_value x)
  else let* hi := shift_right x 32 in Ok (Z.lor (u64 (Z.shiftl (u64 (htonl (Z.land (a_value x) 4294967295))) 32)) (htonl hi)).

(** S_IFMT, sys/stat.h 39-41, with the value of <sys/stat.h>. *)
Definition S_IFMT : Z := 61440.
(** S_IFDIR, sys/stat.h 42-44. *)
Definition S_IFDIR : Z := 16384.
(** S_IFCHR, sys/stat.h 45-47. *)
Definition S_IFCHR : Z := 8192.
(** S_IFREG, sys/stat.h 51-53. *)
Definition S_IFREG : Z := 32768.
(** S_IFIFO, sys/stat.h 63-65. *)
Definition S_IFIFO : Z := 4096.
(** S_IFBLK, sys/stat.h 66-68. *)
Definition S_IFBLK : Z := 0.
(** S_IFLNK, sys/stat.h 69-71. *)
Definition S_IFLNK : Z := 0.
(** S_IFSOCK, sys/stat.h 72-74. *)
Definition S_IFSOCK : Z := 0.
(** S_ISFIFO, S_ISDIR, S_ISREG, S_ISLNK, S_ISSOCK, S_ISCHR and S_ISBLK, sys/stat.h 111-117, for the type [t]. *)
Definition s_is (t mode : Z) : bool := Z.land mode S_IFMT =? t.
(** DT_UNKNOWN, sys/stat.h 92. *)
Definition DT_UNKNOWN : Z := 0.
(** DT_LNK, sys/stat.h 99. *)
Definition DT_LNK : Z := S_IFLNK.
(** IFTODT, sys/stat.h 102. *)
Definition IFTODT (mode : Z) : Z := Z.land mode S_IFMT.
