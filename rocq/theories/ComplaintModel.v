(** Model of the text that is logged of a malformed message:
    nbc/node/basenode.py:144-145 [invalid_command], with the texts of the
    exceptions of nbc/protocol/messages.py:86-103. *)
From Coq Require Import String ZArith List Bool.
From Verif Require Import PyBase PyVal FormatModel MessagesModel SeedModel NodeModel LogModel TextModel.
Import ListNotations.
Open Scope string_scope.
Open Scope list_scope.
Open Scope Z_scope.

(** [repr] of one character below 256 in a text of Python 3: those of Latin-1
    that are printable are shown as they are (0xa0 is a space, 0xad a soft
    hyphen). *)
Definition repr_char (quote c : Z) : text :=
  if (161 <=? c) && (c <=? 255) && negb (c =? 173) then [c] else repr_byte quote c.
(** [repr] of a text of characters below 256; on Python 2 it is an object of
    type [unicode]. *)
Definition repr_str (py2 : bool) (s : text) : text :=
  if py2 then 117 :: tl (repr_bytes s)
  else let q := repr_quote s in q :: flat_map (repr_char q) s ++ [q].

Section Complaint.
Variable sha256 : bytes -> bytes.     (* hashlib.sha256 *)
Variable py2 : bool.                  (* running on Python 2 *)

(** The text of the exception that [Message.parse] raises for a frame that it
    does not understand: messages.py:87-88, 95-97, 99-103.  [decode('latin-1')]
    keeps the numbers of the characters. *)
Definition complaint (data magic : bytes) : text :=
  if negb (bytes_eqb (slice 0 4 data) magic) then bs "bad magic number"
  else match struct_unpack FI false (slice 16 20 data) with
       | Raise _ => []                (* struct.error, which is no such exception *)
       | Ok length =>
           if negb (bytes_eqb (slice 20 24 data) (ztake 4 (sha256 (sha256 (slice 24 (24 + length) data))))) then bs "bad checksum"
           else bs "command: " ++ repr_str py2 (strip0 (slice 4 16 data)) ++ bs " (" ++ repr_of py2 data ++ bs ")"
       end.
(** basenode.py:145; no peer is given, so that the source is 'node' (121-124). *)
Definition invalid_line (data magic : bytes) : text :=
  text_line (bs "node") (bs "invalid command: " ++ repr_of py2 data ++ bs " (" ++ complaint data magic ++ bs ")").
(** What the malformed messages of connection [i] have written at the levels up
    to INFO (connection.py:149-152). *)
Definition invalid_lines (magic : bytes) (i : nat) (trace : list action) : text :=
  flat_map (fun a => match a with AInvalid j data _ => if Nat.eqb j i then invalid_line data magic else [] | _ => [] end) trace.
End Complaint.
