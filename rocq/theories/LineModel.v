(** Model of the log of a node at the levels INFO and above, at which messages
    are not shown: nbc/node/basenode.py:118-125 [log] and its callers in
    basenode.py and connection.py.  (At PROTOCOL and DEBUG every message is
    shown as well: LogModel.) *)
From Coq Require Import String ZArith List Bool.
From Verif Require Import PyBase PyVal MessagesModel NodeModel LogModel.
Import ListNotations.
Open Scope string_scope.
Open Scope list_scope.
Open Scope Z_scope.

(** basenode.py:29. *)
Definition LOG_LEVEL_INFO := 2.
(** basenode.py:31. *)
Definition LOG_LEVEL_FATAL := 4.
(** What a line says: 'invalid command' (basenode.py:144-145), a traceback
    (connection.py:154, 175), 'method not defined' (211), '--- connection
    refused' (173). *)
Inductive said_line : Type :=
| Malformed (payload : bytes) (e : exn) | Traceback (e : exn) | Undefined (name : string) | Refused | OSTraceback (errno : Z).
(** basenode.py:121-124: the source is the address of the peer, or 'node'. *)
Record line : Type := mk_line { ln_source : option text; ln_text : said_line }.
(** basenode.py:118-125 [log]: [log] tells whether there is a stream, [limit]
    is log_level. *)
Definition log_line (log : bool) (limit level : Z) (l : line) : list line :=
  if negb log || (level <? limit) then [] else [l].
(** The lines that the effects of an event write; [ip] is the address of a
    connection.  connection.py:149-154, 210-211, basenode.py:144-145 (where no
    peer is given). *)
Definition action_lines (log : bool) (limit : Z) (ip : nat -> text) (a : action) : list line :=
  match a with
  | AInvalid _ p e | AHandlerInvalid _ p e => log_line log limit LOG_LEVEL_INFO (mk_line None (Malformed p e))
  | AParseError i _ e | AHandlerError i e => log_line log limit LOG_LEVEL_ERROR (mk_line (Some (ip i)) (Traceback e))
  | ANoHandler i name => log_line log limit limit (mk_line (Some (ip i)) (Undefined name))
  | _ => []
  end.
(** The address of a connection, connection.py:48-56. *)
Definition peer_ip (n : node) (i : nat) : text := match get_conn i n with Some c => fst (c_address c) | None => [] end.
(** The lines written in the life of a node. *)
Definition log_of (log : bool) (limit : Z) (n : node) : list line := flat_map (action_lines log limit (peer_ip n)) (n_trace n).

(** The numbers for which [OSError(errno, ...)] makes an object of a subclass
    (Python 3, PEP 3151; Linux): EPERM, ENOENT, ESRCH, EINTR, ECHILD, EAGAIN,
    EACCES, EEXIST, ENOTDIR, EISDIR, EPIPE, ECONNABORTED, ECONNRESET, ESHUTDOWN,
    ETIMEDOUT, ECONNREFUSED, EALREADY, EINPROGRESS. *)
Definition os_subclasses : list Z := [1; 2; 3; 4; 10; 11; 13; 17; 20; 21; 32; 103; 104; 108; 110; 111; 114; 115].
(** connection.py:170-177 [handle_error] for a connection whose dialling failed
    with [errno]: asyncore raises socket.error (OSError on Python 3) with this
    number, and line 172 asks for exactly this class. *)
Definition error_lines (py2 log : bool) (limit : Z) (ip : text) (errno : Z) : list line :=
  if py2 || negb (existsb (Z.eqb errno) os_subclasses) then log_line log limit LOG_LEVEL_INFO (mk_line (Some ip) Refused)
  else log_line log limit LOG_LEVEL_ERROR (mk_line (Some ip) (OSTraceback errno)).
