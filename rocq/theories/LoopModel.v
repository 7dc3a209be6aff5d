(** The loop that serves a node: [asyncore.loop(5, map=self)],
    nbc/node/basenode.py:132, with the node as its map.  The loop is

      while map: poll(5, map)

    and [poll] of the standard library asks every channel of [map.items()] for
    [readable()] and [writable()], gives the descriptors of those that answer
    yes to [select.select], and then serves those that select reports and that
    are still in the map. *)
From Coq Require Import ZArith List Bool.
From Verif Require Import PyBase PyVal NodeModel.
Import ListNotations.
Open Scope Z_scope.

(** What one call of [poll] gets from outside: the arguments of [items]
    (basenode.py:273-281), for each connection the two times and the nonce used
    by [readable] (connection.py:105-120), and what happens on the descriptors
    that select reports. *)
Record poll_env : Type := mk_poll {
  po_now : Z; po_envs : nat -> attempt_env; po_pick : nat;
  po_ask : nat -> Z * Z * bytes;
  po_answer : list event
}.

(** connection.py:156-157 [writable]: it looks at the buffer only, also after
    [readable] has closed the connection. *)
Definition unsent (i : nat) (n : node) : bool :=
  match get_conn i n with Some c => 0 <? zlen (c_send c) | None => false end.

(** How a call of [poll] ends: it returns; select is given a descriptor that has
    been closed and raises [OSError] (EBADF); or an exception of [items],
    [readable] or [writable] escapes, for none of the three is in a [try]. *)
Inductive ended : Type := Returned | BadDescriptor | Escaped (e : exn).

Section Loop.
Variable sha256 : bytes -> bytes.
Variable py2 : bool.
Variable cf : config.

(** [is_r = obj.readable(); is_w = obj.writable()] for a connection
    (connection.py:105-120, 156-157). *)
Definition ask (q : nat -> Z * Z * bytes) (i : nat) : M (nat * bool * bool) :=
  let '(now, now2, nonce) := q i in
  do! r := readable sha256 cf i now now2 nonce in
  do! n := getM in
  retM (i, r, unsent i n).
(** The connections of [list(map.items())], basenode.py:281, one after the
    other.  The listening socket (basenode.py:268-269) always answers yes and
    nothing happens. *)
Fixpoint ask_all (q : nat -> Z * Z * bytes) (l : list nat) : M (list (nat * bool * bool)) :=
  match l with
  | [] => retM []
  | i :: r => do! x := ask q i in do! xs := ask_all q r in retM (x :: xs)
  end.
(** [select.select(r, w, e, timeout)] raises if a descriptor it is given has been
    closed; those of the connections that answered yes to either question are
    given (basenode.py:132). *)
Definition bad_descriptor (asked : list (nat * bool * bool)) (n : node) : bool :=
  existsb (fun x => let '(i, r, w) := x in (r || w) && negb (is_open i n)) asked.
(** What may happen after select (basenode.py:132): reading, writing and errors
    of the connections that asked, accepting at the listening socket.  A new
    connection may have taken over the descriptor of one that was closed while
    reading ([count] connections exist before). *)
Definition reported (asked : list (nat * bool * bool)) (count : nat) (listening : bool) (e : event) : bool :=
  match e with
  | EvRead i _ _ _ => existsb (fun x => let '(j, r, _) := x in Nat.eqb i j && r) asked
  | EvWrite i _ _ => existsb (fun x => let '(j, _, w) := x in Nat.eqb i j && w) asked || Nat.leb count i
  | EvError i => existsb (fun x => let '(j, r, w) := x in Nat.eqb i j && (r || w)) asked || Nat.leb count i
  | EvAccept _ _ _ => listening
  | _ => false
  end.
(** One call of [poll] with the node as map (basenode.py:132, 273-281, 289-290);
    of [po_answer] only what may happen happens. *)
Definition poll (p : poll_env) (n : node) : node * ended :=
  match items sha256 cf (po_now p) (po_envs p) (po_pick p) n with
  | (n1, Raise e) => (n1, Escaped e)
  | (n1, Ok _) =>
      match ask_all (po_ask p) (peers n1) n1 with
      | (n2, Raise e) => (n2, Escaped e)
      | (n2, Ok asked) =>
          if bad_descriptor asked n2 then (n2, BadDescriptor)
          else (fold_left (step sha256 py2 cf)
                  (filter (reported asked (List.length (n_conns n2)) (n_listener n2)) (po_answer p)) n2, Returned)
      end
  end.

(** Whether the node still serves, or how its loop ended. *)
Inductive serving : Type := Serving | Stopped (e : ended).
(** basenode.py:131-136: [while map: poll(...)], then the listening socket is
    closed ([finally: self.handle_close()]).  The truth of the map is
    [__nonzero__] in Python 2 and [__len__] in Python 3 (basenode.py:292-296). *)
Fixpoint loop (ps : list poll_env) (n : node) : node * serving :=
  match ps with
  | [] => (n, Serving)
  | p :: r =>
      if py2 || (0 <? map_len n) then
        match poll p n with
        | (n', Returned) => loop r n'
        | (n', e) => (set_n_listener false n', Stopped e)
        end
      else (set_n_listener false n, Stopped Returned)
  end.
End Loop.
