(** The wait emulation of include/compat/wait.h with what it asks of Windows: snapshots of the processes, process handles, waits.

    Simplified: a process is a record with what becomes of it; handles are numbered in the order they are opened; a wait without limit for a process
    that never ends is the outcome [Blocked].  Process numbers are DWORDs below 2^31 where an int holds them. *)
From Verif Require Export Base.
Import ListNotations.

(** wait.h 180: WNOHANG. *)
Definition WNOHANG : Z := 1.
(** wait.h 184: WUNTRACED. *)
Definition WUNTRACED : Z := 2.
(** wait.h 303: WEXITED. *)
Definition WEXITED : Z := 4.
(** wait.h 212: __WCONTINUED. *)
Definition WCONTINUED : Z := 8.
(** wait.h 216: __WNOWAIT. *)
Definition WNOWAIT : Z := 16777216.
(** <errno.h>, used in wait.h 356 and 481. *)
Definition EINVAL_ : Z := 22.
(** <errno.h>, used in wait.h 384, 391, 402, 412, 431. *)
Definition ECHILD : Z := 10.
(** wait.h 107: WAIT_OBJECT_0. *)
Definition WAIT_OBJECT_0 : Z := 0.
(** wait.h 111: WAIT_TIMEOUT. *)
Definition WAIT_TIMEOUT : Z := 258.
(** What WaitForSingleObject (wait.h 416) gives for a handle that is none. *)
Definition WAIT_FAILED : Z := 4294967295.
(** wait.h 91: INVALID_HANDLE_VALUE. *)
Definition INVALID_HANDLE : Z := -1.

(** wait.h 188: __WEXITSTATUS. *)
Definition wexitstatus (status : Z) : Z := Z.shiftr (Z.land status 65280) 8.
(** wait.h 196: __WTERMSIG. *)
Definition wtermsig (status : Z) : Z := Z.land status 127.
(** wait.h 192: __WIFEXITED. *)
Definition wifexited (status : Z) : bool := wtermsig status =? 0.
(** The conversion to signed char in wait.h 200. *)
Definition s8 (x : Z) : Z := let y := u8 x in if y <? 128 then y else y - 256.
(** wait.h 200: __WIFSIGNALED. *)
Definition wifsignaled (status : Z) : bool := 0 <? Z.shiftr (s8 (wtermsig status + 1)) 1.
(** wait.h 204: __WIFSTOPPED. *)
Definition wifstopped (status : Z) : bool := Z.land status 255 =? 127.
(** wait.h 208: __WSTOPSIG. *)
Definition wstopsig (status : Z) : Z := wexitstatus status.
(** wait.h 287-291: __WIFCONTINUED. *)
Definition wifcontinued (status : Z) : bool := status =? 65535.

(** An entry of a snapshot (PROCESSENTRY32W, wait.h 153-165: th32ProcessID and th32ParentProcessID) and the process: whether OpenProcess allows it (398), whether it has ended,
    its exit code (None: it never ends), whether GetExitCodeProcess answers (420). *)
Record proc := Proc { p_id : Z; p_parent : Z; p_open : bool; p_ended : bool; p_code : option Z; p_known : bool }.
(** The caller: GetCurrentProcessId (wait.h 326), the snapshot of line 381 (None: INVALID_HANDLE_VALUE), open handles, the number of the next one, errno. *)
Record wst := Wst { self : Z; snapshot : option (list proc); handles : list Z; next_handle : Z; errno : Z }.
(** errno = e, wait.h 356, 384, 391, 402, 412, 431, 481. *)
Definition set_errno (e : Z) (w : wst) : wst := Wst (self w) (snapshot w) (handles w) (next_handle w) e.
(** A new handle, from CreateToolhelp32Snapshot or OpenProcess; wait.h 381, 398. *)
Definition open_handle (w : wst) : Z * wst := (next_handle w, Wst (self w) (snapshot w) (next_handle w :: handles w) (next_handle w + 1) (errno w)).
(** CloseHandle, wait.h 390, 401, 411, 429-430, 452-453. *)
Definition close (h : Z) (w : wst) : wst := Wst (self w) (snapshot w) (filter (fun x => negb (x =? h)) (handles w)) (next_handle w) (errno w).

(** What a call leaves: it does not come back, or a value, what was stored in *status, and whether *infop and *rusage were set to zeros; wait.h 345. *)
Inductive ret := Blocked | Ret (r : Z) (status : option Z) (info rusage : bool).
(** errno = ECHILD; return -1; wait.h 384-385, 391-392, 402-403, 412-413, 431-432. *)
Definition no_child (w : wst) : ret * wst := (Ret (-1) None false false, set_errno ECHILD w).

(** __filter_anychild, wait.h 324-327. *)
Definition filter_anychild (w : wst) (pe : proc) (pid : Z) : bool := p_parent pe =? self w.
(** __filter_pid, wait.h 329-332. *)
Definition filter_pid (w : wst) (pe : proc) (pid : Z) : bool := p_id pe =? u32 pid.
(** WaitForSingleObject, called in wait.h 416; [h] is 0 (NULL) when OpenProcess failed; None: it does not come back. *)
Definition wait_object (h : Z) (pe : proc) (nohang : bool) : option Z :=
  if h =? 0 then Some WAIT_FAILED
  else if p_ended pe then Some WAIT_OBJECT_0
  else if nohang then Some WAIT_TIMEOUT
  else match p_code pe with Some _ => Some WAIT_OBJECT_0 | None => None end.
(** GetExitCodeProcess, called in wait.h 420: the code as a DWORD, or failure. *)
Definition exit_code (pe : proc) : option Z := if p_known pe then match p_code pe with Some c => Some (u32 c) | None => Some 259 end else None.
(** The end of __waitpid_internal, wait.h 416-458, for the process found. *)
Definition wait_found (pe : proc) (hp hs : Z) (nohang status infop rusage : bool) (w : wst) : ret * wst :=
  match wait_object hp pe nohang with
  | None => (Blocked, w)
  | Some wait_status =>
      if wait_status =? WAIT_OBJECT_0 then
        let saved := match exit_code pe with Some c => Z.lor 0 (Z.shiftl (Z.land c 255) 8) | None => 0 end in
        (Ret (s32 (p_parent pe)) (if status then Some saved else None) infop rusage, close hs (close hp w))
      else if (wait_status =? WAIT_TIMEOUT) && nohang then (Ret 0 None false false, w)
      else no_child (close hs (close hp w))
  end.
(** __waitpid_internal, wait.h 345-459; [status], [infop], [rusage] say whether the pointer is not NULL. abort() is [Panics]. *)
Definition waitpid_internal (pid options : Z) (status infop rusage : bool) (w : wst) : out (ret * wst) :=
  let nohang := Z.land WNOHANG options =? WNOHANG in
  let options := Z.land options (Z.lnot (Z.lor (Z.lor (Z.lor WUNTRACED WNOWAIT) WCONTINUED) WNOHANG)) in
  if negb (options =? 0) then Ok (Ret (-1) None false false, set_errno (- EINVAL_) w)
  else if (pid <? -1) || (pid =? 0) then Panics
  else
    let filter := if pid =? -1 then filter_anychild w else filter_pid w in
    match snapshot w with
    | None => Ok (no_child w)
    | Some l =>
        let (hs, w) := open_handle w in
        match l with
        | [] => Ok (no_child (close hs w))
        | _ =>
            match find (fun pe => filter pe pid) l with
            | None => Ok (no_child (close hs w))
            | Some pe =>
                let (hp, w) := if p_open pe then open_handle w else (0, w) in
                if hp =? INVALID_HANDLE then Ok (no_child (close hs w)) else Ok (wait_found pe hp hs nohang status infop rusage w)
            end
        end
    end.
(** waitpid, wait.h 461-464. *)
Definition waitpid (pid : Z) (status : bool) (options : Z) (w : wst) : out (ret * wst) := waitpid_internal pid options status false false w.
(** wait, wait.h 466-469. *)
Definition wait (status : bool) (w : wst) : out (ret * wst) := waitpid_internal (-1) 0 status false false w.
(** idtype_t, wait.h 313-319. *)
Inductive idtype := P_ALL | P_PID | P_PGID.
(** waitid, wait.h 473-484, for the three values of the enum. *)
Definition waitid (t : idtype) (id : Z) (infop : bool) (options : Z) (w : wst) : out (ret * wst) :=
  let* pid := match t with P_PID => Ok (s32 id) | P_PGID => if s32 id =? -2147483648 then Undef SignedOverflow else Ok (- s32 id) | P_ALL => Ok 0 end in
  waitpid_internal pid options false infop false w.
(** wait4, wait.h 491-494; wait3 (486-489) is the case -1. *)
Definition wait4 (pid : Z) (status : bool) (options : Z) (rusage : bool) (w : wst) : out (ret * wst) := waitpid_internal pid options status false rusage w.

(** A caller that polls with WNOHANG until something ends or [n] calls are made: the use WNOHANG (wait.h 180) is for. *)
Fixpoint poll (n : nat) (pid : Z) (w : wst) : out (Z * wst) :=
  match n with
  | O => Ok (0, w)
  | S n => let* (r, w) := waitpid pid true WNOHANG w in match r with Ret 0 _ _ _ => poll n pid w | Ret r _ _ _ => Ok (r, w) | Blocked => Ok (-2, w) end
  end.
