(** The mmap emulation of src/mman.c with what it asks of Windows: file mappings, views, the last error.

    Simplified: a file mapping object and its file are one thing (the file, or an object of its own for MAP_ANONYMOUS); the answers of the system
    calls are parameters, their effects are the documented ones.  Files are arrays of bytes by offset. *)
From Verif Require Export Base MiscModel.
Import ListNotations.

(** include/compat/sys/mman.h 59: MAP_PRIVATE. *)
Definition MAP_PRIVATE : Z := 2.
(** include/compat/sys/mman.h 58: MAP_SHARED. *)
Definition MAP_SHARED : Z := 1.
(** include/compat/sys/mman.h 61: MAP_FIXED. *)
Definition MAP_FIXED : Z := 16.
(** include/compat/sys/mman.h 62: MAP_ANONYMOUS. *)
Definition MAP_ANONYMOUS : Z := 32.
(** include/compat/sys/mman.h 66: MAP_NOEXTEND. *)
Definition MAP_NOEXTEND : Z := 256.
(** include/compat/sys/mman.h 67: MAP_FAILED. *)
Definition MAP_FAILED : Z := -1.
(** <errno.h>, used in mman.c 96, 103, 109. *)
Definition E_INVAL : Z := 22.
(** <errno.h>, used in mman.c 103. *)
Definition E_BADF : Z := 9.
(** <errno.h>, used in mman.c 109, 122, 134, 146, 155, 164, 173. *)
Definition E_PERM : Z := 1.

(** A view of a file, as MapViewOfFile of mman.c 114-116 makes it. *)
Record view := View { v_base : Z; v_len : Z; v_file : Z; v_off : Z; v_access : Z }.
(** The process: open handles of file mappings, views, lengths and contents of the files, GetLastError(), errno, and the static variable of mman.c 179. *)
Record win := Win { handles : list Z; views : list view; flen : Z -> Z; bytes : Z -> Z -> Z; lasterr : Z; werrno : Z; g_pagesize : Z }.
(** errno = …, mman.c 91, 96, 103, 109, 122. *)
Definition set_errno (e : Z) (w : win) : win := Win (handles w) (views w) (flen w) (bytes w) (lasterr w) e (g_pagesize w).
(** What a failing system call leaves for GetLastError(), mman.c 109, 122, 134, 146, 155, 164, 173. *)
Definition set_last (e : Z) (w : win) : win := Win (handles w) (views w) (flen w) (bytes w) e (werrno w) (g_pagesize w).
(** __map_mman_error, mman.c 29-34: a DWORD returned as an int. *)
Definition map_mman_error (err deferr : Z) : Z := if u32 err =? 0 then 0 else s32 (u32 err).
(** errno = __map_mman_error(GetLastError(), EPERM), mman.c 109, 122, 134, 146, 155, 164, 173. *)
Definition fail_errno (w : win) : win := set_errno (map_mman_error (lasterr w) E_PERM) w.

(** The answers of Windows to one mmap: _get_osfhandle (mman.c 100; None is INVALID_HANDLE_VALUE), CreateFileMapping (106; a handle or an error), MapViewOfFile or
    MapViewOfFileEx (113-117; an address or an error), and what CloseHandle (119) leaves in the last error, if anything. *)
Record answers := Answers { a_file : option Z; a_create : Z + Z; a_view : Z + Z; a_close : option Z }.
(** CreateFileMapping, called in mman.c 106: a mapping open for writing makes the file as long as the mapping. *)
Definition create_mapping (a : answers) (file : option Z) (protect size : Z) (w : win) : option (Z * Z) * win :=
  match a_create a with
  | inr e => (None, set_last e w)
  | inl h =>
      let id := match file with Some f => f | None => - h end in
      let grow := (protect =? PAGE_READWRITE) || (protect =? PAGE_EXECUTE_READWRITE) in
      let fl := fun f => if (f =? id) && grow then Z.max (flen w f) size else flen w f in
      (Some (h, id), Win (h :: handles w) (views w) fl (bytes w) (lasterr w) (werrno w) (g_pagesize w))
  end.
(** MapViewOfFile(Ex), called in mman.c 113-117. *)
Definition map_view (a : answers) (fixed : bool) (addr id off len access : Z) (w : win) : option Z * win :=
  match a_view a with
  | inr e => (None, set_last e w)
  | inl b => let base := if fixed then addr else b in
             (Some base, Win (handles w) (View base len id off access :: views w) (flen w) (bytes w) (lasterr w) (werrno w) (g_pagesize w))
  end.
(** The first occurrence taken out; CloseHandle, called in mman.c 119. *)
Fixpoint drop (h : Z) (l : list Z) : list Z := match l with [] => [] | x :: l => if x =? h then l else x :: drop h l end.
(** CloseHandle, called in mman.c 119. *)
Definition close_handle (a : answers) (h : Z) (w : win) : win :=
  Win (drop h (handles w)) (views w) (flen w) (bytes w) (match a_close a with Some e => e | None => lasterr w end) (werrno w) (g_pagesize w).
(** The two halves put together again, as Windows does with those of mman.c 77-78 and 84-85. *)
Definition join_halves (high low : Z) : Z := 4294967296 * high + low.
(** mmap, mman.c 67-128. *)
Definition mmap_run (win64 : bool) (a : answers) (addr len prot flags off : Z) (w : win) : out (Z * win) :=
  let* req := mmap win64 len prot off in
  let w := set_errno 0 w in
  match req with
  | EINVAL => Ok (MAP_FAILED, set_errno E_INVAL w)
  | Ask r =>
      let anonymous := negb (Z.land flags MAP_ANONYMOUS =? 0) in
      let file := if anonymous then None else a_file a in
      if negb anonymous && match file with None => true | Some _ => false end then Ok (MAP_FAILED, set_errno E_BADF w)
      else
        let (fm, w) := create_mapping a file (r_protect r) (join_halves (r_size_high r) (r_size_low r)) w in
        match fm with
        | None => Ok (MAP_FAILED, fail_errno w)
        | Some (h, id) =>
            let fixed := negb (Z.land flags MAP_FIXED =? 0) in
            let (map, w) := map_view a fixed addr id (join_halves (r_off_high r) (r_off_low r)) (r_view r) (r_access r) w in
            let w := close_handle a h w in
            match map with None => Ok (MAP_FAILED, fail_errno w) | Some base => Ok (base, w) end
        end
  end.

(** UnmapViewOfFile, called in mman.c 131: the address must be the base of a view, the whole view goes; [e] is the error otherwise. *)
Definition munmap (e addr len : Z) (w : win) : Z * win :=
  if existsb (fun v => v_base v =? addr) (views w)
  then (0, Win (handles w) (filter (fun v => negb (v_base v =? addr)) (views w)) (flen w) (bytes w) (lasterr w) (werrno w) (g_pagesize w))
  else (-1, fail_errno (set_last e w)).
(** Return of mprotect, msync, mlock and munlock, mman.c 143-148, 152-157, 161-166, 170-175: [answer] is the error of the system call, None success. *)
Definition answer_call (answer : option Z) (w : win) : Z * win := match answer with None => (0, w) | Some e => (-1, fail_errno (set_last e w)) end.
(** mprotect, mman.c 139-149; [vp] is VirtualProtect, given the new protection. *)
Definition mprotect (vp : Z -> Z -> Z -> option Z) (addr len prot : Z) (w : win) : Z * win := answer_call (vp addr len (map_prot_page prot)) w.
(** msync, mman.c 151-158; [flags] is not passed on. *)
Definition msync (fv : Z -> Z -> option Z) (addr len flags : Z) (w : win) : Z * win := answer_call (fv addr len) w.
(** mlock and munlock, mman.c 160-176. *)
Definition mlock (vl : Z -> Z -> option Z) (addr len : Z) (w : win) : Z * win := answer_call (vl addr len) w.
(** getpagesize, mman.c 178-187; [dw] is dwPageSize, a DWORD stored in a long (32 bits on Windows). Gives whether GetSystemInfo was called. *)
Definition getpagesize (dw : Z) (w : win) : Z * bool * win :=
  if g_pagesize w =? 0 then let v := s32 (u32 dw) in (v, true, Win (handles w) (views w) (flen w) (bytes w) (lasterr w) (werrno w) v) else (g_pagesize w, false, w).

(** A load or store by the program at [addr] of a view made by mman.c 113-117; FILE_MAP_WRITE views write to the file itself. *)
Definition in_view (addr : Z) (v : view) : bool := (v_base v <=? addr) && (addr <? v_base v + v_len v).
(** A store through a view of mman.c 113-117. *)
Definition store (addr b : Z) (w : win) : out win :=
  match find (in_view addr) (views w) with
  | Some v =>
      if Z.land (v_access v) FILE_MAP_WRITE =? 0 then Undef OobWrite
      else let p := v_off v + (addr - v_base v) in
           Ok (Win (handles w) (views w) (flen w) (fun f q => if (f =? v_file v) && (q =? p) then b else bytes w f q) (lasterr w) (werrno w) (g_pagesize w))
  | None => Undef WildPointer
  end.
(** A load through a view of mman.c 113-117. *)
Definition load (addr : Z) (w : win) : out Z :=
  match find (in_view addr) (views w) with
  | Some v => if Z.land (v_access v) (Z.lor FILE_MAP_READ FILE_MAP_WRITE) =? 0 then Undef OobRead else Ok (bytes w (v_file v) (v_off v + (addr - v_base v)))
  | None => Undef WildPointer
  end.
