(** When asyncore offers a connection for writing (nbc/node/connection.py). *)
From Coq Require Import ZArith List Bool.
From Verif Require Import PyBase NodeModel.
Open Scope Z_scope.

(** connection.py:156-157 [writable]; asyncore asks the connections in its map, the open ones. *)
Definition writable (i : nat) (n : node) : bool :=
  match get_conn i n with Some c => c_open c && (0 <? zlen (c_send c)) | None => false end.
