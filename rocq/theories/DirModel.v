(** The directory streams of include/compat/dirent_msvc.h with what they ask of Windows: searches, full path names, conversions of names.

    Simplified: a search sees the entries the directory had when it was started, and then an error (18, ERROR_NO_MORE_FILES, at the end); wide and
    multi-byte strings are lists of characters without the NUL; PATH_MAX is MAX_PATH, 260 (58-60).  Which allocations succeed, what
    GetFullPathNameW answers and how names are converted are parameters. *)
From Verif Require Export Base.
Import ListNotations.

(** WIN32_FIND_DATAW, a field of _WDIR in dirent_msvc.h 86: cFileName, cAlternateFileName, dwFileAttributes. *)
Record fdata := Fdata { f_name : list Z; f_alt : list Z; f_attr : Z }.
(** The process: what a search for a pattern finds (None: no such directory) with the error after the last entry, open searches with what is left of them, the next number for a handle or a
    block, live blocks, errno and GetLastError(); dirent_msvc.h 150, 155, 354, 387. *)
Record world := World { disk : list Z -> option (list fdata * Z); searches : list (Z * (list fdata * Z)); next : Z; blocks : list Z; derrno : Z; lasterr : Z }.
(** _set_errno, dirent_msvc.h 150, 206, 211, 323, 418, 577. *)
Definition set_errno (e : Z) (w : world) : world := World (disk w) (searches w) (next w) (blocks w) e (lasterr w).
(** <errno.h>, used in dirent_msvc.h 150, 206, 211, 418. *)
Definition ENOENT : Z := 2.
(** <errno.h>, used in dirent_msvc.h 323, 577. *)
Definition EBADF : Z := 9.
(** INVALID_HANDLE_VALUE, dirent_msvc.h 160, 306, 338, 355, 384. *)
Definition INVALID : Z := -1.

(** malloc, dirent_msvc.h 155, 168, 423; [ok] says whether it succeeds. *)
Definition malloc (ok : bool) (w : world) : option Z * world :=
  if ok then (Some (next w), World (disk w) (searches w) (next w + 1) (next w :: blocks w) (derrno w) (lasterr w)) else (None, w).
(** The first occurrence taken out; free, dirent_msvc.h 313, 318, 459, 572. *)
Fixpoint drop (b : Z) (l : list Z) : list Z := match l with [] => [] | x :: l => if x =? b then l else x :: drop b l end.
(** Whether a block is live, dirent_msvc.h 313, 384. *)
Definition live (b : Z) (w : world) : bool := existsb (fun x => x =? b) (blocks w).
(** free, dirent_msvc.h 313, 318, 459, 572. *)
Definition free (b : Z) (w : world) : out world :=
  if live b w then Ok (World (disk w) (searches w) (next w) (drop b (blocks w)) (derrno w) (lasterr w)) else Undef DoubleFree.

(** FindFirstFileW, called in dirent_msvc.h 354: no handle when nothing matches. *)
Definition find_first (patt : list Z) (w : world) : option (Z * fdata) * world :=
  match disk w patt with
  | Some (f :: l, e) => (Some (next w, f), World (disk w) ((next w, (l, e)) :: searches w) (next w + 1) (blocks w) (derrno w) (lasterr w))
  | _ => (None, World (disk w) (searches w) (next w) (blocks w) (derrno w) 2)
  end.
(** The search of a handle, dirent_msvc.h 387. *)
Fixpoint lookup (h : Z) (l : list (Z * (list fdata * Z))) : option (list fdata * Z) := match l with [] => None | (k, v) :: l => if k =? h then Some v else lookup h l end.
(** The search of a handle replaced, dirent_msvc.h 387. *)
Fixpoint update (h : Z) (v : list fdata * Z) (l : list (Z * (list fdata * Z))) : list (Z * (list fdata * Z)) :=
  match l with [] => [] | (k, u) :: l => if k =? h then (k, v) :: l else (k, u) :: update h v l end.
(** The search of a handle taken out, dirent_msvc.h 307, 339, 392. *)
Fixpoint remove (h : Z) (l : list (Z * (list fdata * Z))) : list (Z * (list fdata * Z)) := match l with [] => [] | (k, u) :: l => if k =? h then l else (k, u) :: remove h l end.
(** FindNextFileW, called in dirent_msvc.h 387: an entry, or FALSE with an error. *)
Definition find_next (h : Z) (w : world) : out (option fdata * world) :=
  match lookup h (searches w) with
  | None => Undef UseAfterFree
  | Some (f :: l, e) => Ok (Some f, World (disk w) (update h (l, e) (searches w)) (next w) (blocks w) (derrno w) (lasterr w))
  | Some ([], e) => Ok (None, World (disk w) (searches w) (next w) (blocks w) (derrno w) e)
  end.
(** FindClose, called in dirent_msvc.h 307, 339, 392. *)
Definition find_close (h : Z) (w : world) : out world :=
  match lookup h (searches w) with
  | None => Undef DoubleFree
  | Some _ => Ok (World (disk w) (remove h (searches w)) (next w) (blocks w) (derrno w) (lasterr w))
  end.

(** struct _WDIR, dirent_msvc.h 84-90: its block, handle, pattern with its block (None for NULL), cached, and the search data (None before the first use). *)
Record wdir := Wdir { w_block : Z; handle : Z; patt : option (Z * list Z); cached : bool; data : option fdata }.
(** dirent_first, dirent_msvc.h 348-369. *)
Definition dirent_first (d : wdir) (w : world) : bool * wdir * world :=
  let (r, w) := find_first (match patt d with Some (_, p) => p | None => [] end) w in
  match r with
  | Some (h, f) => (true, Wdir (w_block d) h (patt d) true (Some f), w)
  | None => (false, Wdir (w_block d) INVALID (patt d) false (data d), w)
  end.
(** dirent_next, dirent_msvc.h 372-405; None is NULL. *)
Definition dirent_next (d : wdir) (w : world) : out (option fdata * wdir * world) :=
  if negb (live (w_block d) w) then Undef UseAfterFree
  else if cached d then match data d with Some f => Ok (Some f, Wdir (w_block d) (handle d) (patt d) false (data d), w) | None => Undef UninitRead end
  else if negb (handle d =? INVALID) then
    let* (r, w) := find_next (handle d) w in
    match r with
    | Some f => Ok (Some f, Wdir (w_block d) (handle d) (patt d) (cached d) (Some f), w)
    | None => let* w := find_close (handle d) w in Ok (None, Wdir (w_block d) INVALID (patt d) (cached d) (data d), w)
    end
  else Ok (None, d, w).
(** _wclosedir, dirent_msvc.h 299-327; the argument None is NULL. *)
Definition wclosedir (d : option wdir) (w : world) : out (Z * world) :=
  match d with
  | None => Ok (-1, set_errno EBADF w)
  | Some d =>
      if negb (live (w_block d) w) then Undef UseAfterFree
      else
        let* w := (if negb (handle d =? INVALID) then find_close (handle d) w else Ok w) in
        let* w := match patt d with Some (b, _) => free b w | None => Ok w end in
        let* w := free (w_block d) w in Ok (0, w)
  end.
(** _wrewinddir, dirent_msvc.h 333-345. *)
Definition wrewinddir (d : wdir) (w : world) : out (wdir * world) :=
  if negb (live (w_block d) w) then Undef UseAfterFree
  else
    let* w := (if negb (handle d =? INVALID) then find_close (handle d) w else Ok w) in
    let '(_, d, w) := dirent_first d w in Ok (d, w).

(** What malloc (dirent_msvc.h 423, 155, 168) and GetFullPathNameW (165, 176; a path, None for failure) answer in one call of opendir. *)
Record answers := Answers { a_dir : bool; a_wdir : bool; a_patt : bool; a_full1 : option (list Z); a_full2 : option (list Z) }.
(** The value of GetFullPathNameW(dirname, 0, NULL, NULL), dirent_msvc.h 165: characters with the NUL. *)
Definition full_size (f : option (list Z)) : Z := match f with Some f => Z.of_nat (length f) + 1 | None => 0 end.
(** '\\', '/' and ':', dirent_msvc.h 184-186. *)
Definition is_sep (c : Z) : bool := (c =? 92) || (c =? 47) || (c =? 58).
(** The search pattern, dirent_msvc.h 168-197: [n] is the size asked for, [full] what the second call finds.  A path that does not fit is not stored and the size it needs is returned. *)
Definition make_pattern (n : Z) (full : option (list Z)) : out (option (list Z)) :=
  let cap := (2 * n + 16) / 2 in
  match full with
  | None | Some [] => Ok None
  | Some f =>
      if Z.of_nat (length f) + 1 <=? n then
        let sep := if is_sep (last f 0) then [] else [92] in
        let p := Z.of_nat (length f) + Z.of_nat (length sep) + 1 in
        if p <? cap then Ok (Some (f ++ sep ++ [42])) else Undef OobWrite
      else let p := Z.of_nat (length f) + 1 in if p - 1 <? cap then Undef UninitRead else Undef OobRead
  end.
(** _wopendir, dirent_msvc.h 142-232. *)
Definition wopendir (a : answers) (dirname : list Z) (w : world) : out (option wdir * world) :=
  match dirname with
  | [] => Ok (None, set_errno ENOENT w)
  | _ =>
      let (b, w) := malloc (a_wdir a) w in
      match b with
      | None => Ok (None, w)
      | Some b =>
          let fail d w := let* (_, w) := wclosedir (Some d) w in Ok (None, w) in
          let n := full_size (a_full1 a) in
          let (p, w) := malloc (a_patt a) w in
          match p with
          | None => fail (Wdir b INVALID None false None) w
          | Some p =>
              let* s := make_pattern n (a_full2 a) in
              match s with
              | None => fail (Wdir b INVALID (Some (p, [])) false None) (set_errno ENOENT w)
              | Some s =>
                  let '(ok, d, w) := dirent_first (Wdir b INVALID (Some (p, s)) false None) w in
                  if ok : bool then Ok (Some d, w) else fail d (set_errno ENOENT w)
              end
          end
      end
  end.

(** sys/stat.h 93, with the value of <sys/stat.h>. *)
Definition DT_REG : Z := 32768.
(** sys/stat.h 94. *)
Definition DT_DIR : Z := 16384.
(** sys/stat.h 97. *)
Definition DT_CHR : Z := 8192.
(** sys/stat.h 92. *)
Definition DT_UNKNOWN : Z := 0.
(** struct dirent and struct _wdirent, dirent_msvc.h 75-81 and 99-105: d_name, d_namlen, d_type, d_reclen; d_ino is 0. *)
Record entry := Ent { e_name : list Z; e_namlen : Z; e_type : Z; e_reclen : Z }.
(** The file type, dirent_msvc.h 271-278 and 521-528. *)
Definition file_type (attr : Z) : Z := if negb (Z.land attr 64 =? 0) then DT_CHR else if negb (Z.land attr 16 =? 0) then DT_DIR else DT_REG.
(** The loop that copies the name, dirent_msvc.h 260-264: [n] characters are copied already. *)
Fixpoint copy_name (n : Z) (l : list Z) : list Z := match l with [] => [] | c :: l => if (n + 1 <? 260) && negb (c =? 0) then c :: copy_name (n + 1) l else [] end.
(** _wreaddir, dirent_msvc.h 240-292. *)
Definition wreaddir (d : wdir) (w : world) : out (option entry * wdir * world) :=
  let* (f, d, w) := dirent_next d w in
  Ok (match f with Some f => let name := copy_name 0 (f_name f) in Some (Ent name (Z.of_nat (length name)) (file_type (f_attr f)) 544) | None => None end, d, w).

Section Conversion.
(** wcstombs (called through dirent_msvc.h 608): the bytes of a wide string, None if it has none; mbstowcs (599) the other way. *)
Variable tomb : list Z -> option (list Z).
Variable towc : list Z -> option (list Z).
(** Whether the invalid parameter handler of the C library, called when the result does not fit (599, 608), comes back; by default it ends the program. *)
Variable handler_returns : bool.
(** mbstowcs_s and wcstombs_s with 260 elements, dirent_msvc.h 429, 492, 506, 595-609; None is an error. *)
Definition convert (conv : list Z -> option (list Z)) (s : list Z) : out (option (list Z)) :=
  match conv s with
  | None => Ok None
  | Some b => if Z.of_nat (length b) <? 260 then Ok (Some b) else if handler_returns then Ok None else Panics
  end.
(** struct DIR, dirent_msvc.h 108-111: its block and the wide stream. *)
Record dir := Dir { d_block : Z; d_wdir : wdir }.
(** opendir, dirent_msvc.h 410-464. *)
Definition opendir (a : answers) (dirname : list Z) (w : world) : out (option dir * world) :=
  match dirname with
  | [] => Ok (None, set_errno ENOENT w)
  | _ =>
      let (b, w) := malloc (a_dir a) w in
      match b with
      | None => Ok (None, w)
      | Some b =>
          let* n := convert towc dirname in
          match n with
          | None => let* w := free b w in Ok (None, w)
          | Some n => let* (d, w) := wopendir a n w in match d with Some d => Ok (Some (Dir b d), w) | None => let* w := free b w in Ok (None, w) end
          end
      end
  end.
(** readdir, dirent_msvc.h 479-556. *)
Definition readdir (d : dir) (w : world) : out (option entry * dir * world) :=
  if negb (live (d_block d) w) then Undef UseAfterFree
  else
    let* (f, d', w) := dirent_next (d_wdir d) w in
    match f with
    | None => Ok (None, Dir (d_block d) d', w)
    | Some f =>
        let* n := convert tomb (f_name f) in
        let* n := match n, f_alt f with None, _ :: _ => convert tomb (f_alt f) | n, _ => Ok n end in
        Ok (Some match n with Some n => Ent n (Z.of_nat (length n) + 1 - 1) (file_type (f_attr f)) 280 | None => Ent [63] 1 DT_UNKNOWN 0 end, Dir (d_block d) d', w)
    end.
(** closedir, dirent_msvc.h 561-582; None is NULL. *)
Definition closedir (d : option dir) (w : world) : out (Z * world) :=
  match d with
  | None => Ok (-1, set_errno EBADF w)
  | Some d => if negb (live (d_block d) w) then Undef UseAfterFree else let* (r, w) := wclosedir (Some (d_wdir d)) w in let* w := free (d_block d) w in Ok (r, w)
  end.
(** rewinddir, dirent_msvc.h 587-592. *)
Definition rewinddir (d : dir) (w : world) : out (dir * world) :=
  if negb (live (d_block d) w) then Undef UseAfterFree else let* (d', w) := wrewinddir (d_wdir d) w in Ok (Dir (d_block d) d', w).

(** What a program does with a stream: readdir (dirent_msvc.h 479), rewinddir (587); in between others change the disk. *)
Inductive op := Read | Rewind | Change (f : list Z -> option (list fdata * Z)).
(** A program that does these things, with what readdir gave each time (dirent_msvc.h 479-592). *)
Fixpoint run (l : list op) (d : dir) (w : world) : out (list (option entry) * dir * world) :=
  match l with
  | [] => Ok ([], d, w)
  | Read :: l => let* (e, d, w) := readdir d w in let* (r, d, w) := run l d w in Ok (e :: r, d, w)
  | Rewind :: l => let* (d, w) := rewinddir d w in run l d w
  | Change f :: l => run l d (World f (searches w) (next w) (blocks w) (derrno w) (lasterr w))
  end.
End Conversion.
