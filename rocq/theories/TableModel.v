(** The node as the table of asyncore, comparison of connections, creation of a
    node and the older RawNode. *)
From Coq Require Import String ZArith List Bool.
From Verif Require Import PyBase PyVal NodeModel.
Import ListNotations.
Open Scope string_scope.
Open Scope list_scope.
Open Scope Z_scope.

(** ** The table *)

(** nbc/node/basenode.py:34, 41: the node is asyncore's map and keeps the
    channels, the listening socket and the connections, in the dictionary
    [_peers] under their file descriptors.  Dictionaries keep the order of
    insertion. *)
Inductive entry : Type := Listener | Peer (i : nat).
(** basenode.py:34, 41: the dictionary, under file descriptors. *)
Definition table := list (Z * entry).
(** basenode.py:289-290 [get], 298-299 [__getitem__], 310-311 [__contains__]. *)
Fixpoint tget (k : Z) (t : table) : option entry :=
  match t with [] => None | (k', v) :: r => if k' =? k then Some v else tget k r end.
(** basenode.py:301-302 [__setitem__]. *)
Fixpoint tset (k : Z) (v : entry) (t : table) : table :=
  match t with [] => [(k, v)] | (k', v') :: r => if k' =? k then (k', v) :: r else (k', v') :: tset k v r end.
(** basenode.py:304-305 [__delitem__] of a key that is there. *)
Definition tdel (k : Z) (t : table) : table := filter (fun kv => negb (fst kv =? k)) t.
(** basenode.py:283-287 [values], [keys], 307-308 [__iter__], 295-296 [__len__]. *)
Definition tkeys (t : table) : list Z := map fst t.
(** basenode.py:283-284. *)
Definition tvalues (t : table) : list entry := map snd t.
(** basenode.py:295-296. *)
Definition tlen (t : table) : Z := zlen t.
(** basenode.py:175-176 [peers]. *)
Definition tpeers (t : table) : list nat := flat_map (fun v => match v with Peer i => [i] | Listener => [] end) (tvalues t).
(** basenode.py:292-293: [__nonzero__] is Python 2's name; Python 3 asks
    [__len__]. *)
Definition truth (py2 : bool) (t : table) : bool := if py2 then true else 0 <? tlen t.

(** The table and the channels that have given up their descriptors. *)
Record files : Type := mk_files { f_table : table; f_closed : list nat }.
(** asyncore's add_channel (at the creation of a connection, connection.py:46-56)
    and del_channel (at closing, connection.py:179-184):
    [fd = self._fileno; if fd in map: del map[fd]; self._fileno = None].
    [fd i] is the descriptor that the system gives to connection [i]. *)
Definition act (fd : nat -> Z) (s : files) (x : action) : files :=
  match x with
  | AConnect i _ _ => mk_files (tset (fd i) (Peer i) (f_table s)) (f_closed s)
  | AClose i => if existsb (Nat.eqb i) (f_closed s) then s
                else mk_files (tdel (fd i) (f_table s)) (i :: f_closed s)
  | _ => s
  end.
(** The system hands out descriptors that are not in use. *)
Definition free (fd : nat -> Z) (s : files) (x : action) : Prop :=
  match x with AConnect i _ _ => tget (fd i) (f_table s) = None | _ => True end.
(** The same for a list of effects. *)
Fixpoint all_free (fd : nat -> Z) (s : files) (l : list action) : Prop :=
  match l with [] => True | x :: r => free fd s x /\ all_free fd (act fd s x) r end.

Section Tables.
Variable sha256 : bytes -> bytes.
Variable py2 : bool.
Variable cf : config.
Variable fd : nat -> Z.
Variable fd0 : Z.          (* the descriptor of the listening socket *)

(** What one event does to the table: its effects, in order; then the listening
    socket leaves the table if it was closed. *)
Definition new_actions (n n' : node) : list action := skipn (List.length (n_trace n)) (n_trace n').
(** The effects of one event. *)
Definition advance (n n' : node) (s : files) : files :=
  let s' := fold_left (act fd) (new_actions n n') s in
  if n_listener n && negb (n_listener n') then mk_files (tdel fd0 (f_table s')) (f_closed s') else s'.
(** The table after a history. *)
Inductive tabled : list event -> files -> Prop :=
| tabled_init : tabled [] (mk_files [(fd0, Listener)] [])
| tabled_step es e s : tabled es s ->
    let n := history sha256 py2 cf es in
    let n' := history sha256 py2 cf (es ++ [e]) in
    all_free fd s (new_actions n n') ->
    tabled (es ++ [e]) (advance n n' s).
End Tables.

(** ** Comparing connections *)

(** connection.py:225-226 [__eq__] evaluates [self == other], which calls
    [__eq__] again; [depth] is what is left of the recursion limit. *)
Fixpoint conn_eq (depth : nat) (x y : nat) : res bool :=
  match depth with
  | O => Raise RecursionError
  | S d => conn_eq d x y
  end.
(** [x in l] for a list of connections: each element is compared by identity
    and, if that fails, by [==]. *)
Fixpoint conn_in (depth : nat) (x : nat) (l : list nat) : res bool :=
  match l with
  | [] => Ok false
  | y :: r => if Nat.eqb x y then Ok true else let! b := conn_eq depth x y in if b then Ok true else conn_in depth x r
  end.
(** [l.remove(x)]. *)
Fixpoint conn_remove (depth : nat) (x : nat) (l : list nat) : res (list nat) :=
  match l with
  | [] => Raise ValueError
  | y :: r => if Nat.eqb x y then Ok r
              else let! b := conn_eq depth x y in
                   if b then Ok r else let! r' := conn_remove depth x r in Ok (y :: r')
  end.
(** [x in s] for a set, or the keys of a dictionary, of connections: only
    elements with the same hash are compared, in the order of the probes;
    connection.py:222-223 [__hash__] is the hash of the address. *)
Definition conn_in_set (depth : nat) (hash : nat -> Z) (x : nat) (l : list nat) : res bool :=
  conn_in depth x (filter (fun y => hash y =? hash x) l).

(** ** Creating a node *)

(** The answers of the system: an errno, or success. *)
Record sys : Type := mk_sys { sy_socket : option Z; sy_bind : addr -> option Z; sy_listen : option Z; sy_name : addr -> addr }.
(** basenode.py:61-86: how the constructor ends. *)
Inductive created : Type :=
| Created (listen : bool) (address : addr)
| AddrInUse                                 (* AddrInUseError *)
| SocketError (errno : Z).                  (* socket.error *)
(** basenode.py:61-65, 74-86 (asyncore's set_reuse_addr ignores errors). *)
Definition fails (errno : Z) : created := if errno =? 48 then AddrInUse else SocketError errno.
(** basenode.py:61-86. *)
Definition create_node (s : sys) (address : option addr) : created :=
  let listen := match address with Some _ => true | None => false end in
  let a := match address with Some a => a | None => (bs "127.0.0.1", 0) end in
  match sy_socket s with
  | Some e => fails e
  | None =>
      match sy_bind s a with
      | Some e => fails e
      | None =>
          match sy_listen s with
          | Some e => fails e
          | None => Created listen (if snd a =? 0 then sy_name s a else a)
          end
      end
  end.

(** ** The older RawNode *)

(** raw_.py:12-40: the listening socket registers itself in asyncore's global
    map, because [asyncore.dispatcher.__init__(self)] is given no map; the node's
    own table [_peers] starts empty.  raw_.py:49-55 [serve_forever] runs
    asyncore.loop with the node's own table: [while map: poll(...)]; poll asks
    the channels of that table only, and sleeps if there are none. *)
Record old_node : Type := mk_old { o_listening : bool; o_table : table; o_accepted : list addr }.
(** raw_.py:12-40. *)
Definition old_init : old_node := mk_old true [] [].
(** One poll: the connections that wait at the listening socket are accepted if
    the listening socket is in the table that is polled. *)
Definition old_poll (waiting : list addr) (o : old_node) : old_node :=
  if existsb (fun v => match v with Listener => true | _ => false end) (tvalues (o_table o))
  then mk_old (o_listening o) (o_table o) (o_accepted o ++ waiting) else o.
(** [serve_forever] for the polls of which the system reports [arrivals]; the
    loop ends when the table is false, and the node is closed then. *)
Fixpoint old_serve (py2 : bool) (arrivals : list (list addr)) (o : old_node) : old_node :=
  match arrivals with
  | [] => o
  | w :: r => if truth py2 (o_table o) then old_serve py2 r (old_poll w o)
              else mk_old false (o_table o) (o_accepted o)
  end.
