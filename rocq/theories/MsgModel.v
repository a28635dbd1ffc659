(** Error messages: src/raii.c 506-514 and include/raii.h 504-507, over the states of [ExcModel]. *)
From Verif Require Export ExcModel.

(** raii_message, raii.c 506-510; 0: NULL.  Reads through raii_local(), which is NULL before raii_init. *)
Definition raii_message (st : est) : out Z :=
  if negb (ready st) then Undef NullDeref
  else Ok (if s_pending (scopes st root) =? 0 then c_ex (ctxs st (cur st)) else s_pending (scopes st root)).
(** raii_message_by, raii.c 512-514. *)
Definition raii_message_by (sc : Z) (st : est) : out Z :=
  if sc =? 0 then Undef NullDeref else if negb (s_live (scopes st sc)) then Undef UseAfterFree else Ok (s_pending (scopes st sc)).
(** _get_message(), raii.h 507. *)
Definition get_message (st : est) : out Z :=
  if negb (ready st) then Undef NullDeref else raii_message_by (arena st) st.
