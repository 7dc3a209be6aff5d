(** Model of nbc/node/connection.py and nbc/node/basenode.py.

    The event loop of asyncore is represented by the events it delivers; what
    the network, the clock and the random generators answer is an argument of
    each event.  Every connection ever created stays in [n_conns] (its index is
    its identity); [c_open] says whether it is still in the asyncore map.
    [n_trace] is a ghost history of the observable effects; no code reads it.

    Clock readings are integers in units of 2^-22 s: time.time() is such a
    multiple (a double between 2^30 and 2^31), and differences are exact.

    Not modelled: log text and logging at level DEBUG or below (the default
    level is ERROR), upnp, print. *)
From Coq Require Import String ZArith List Lia Bool.
From Verif Require Import PyBase PyVal FormatModel MessagesModel.
Import ListNotations.
Open Scope string_scope.
Open Scope list_scope.
Open Scope Z_scope.

(** One second of clock. *)
Definition SEC : Z := 2 ^ 22.
(** [time.time()] as a value of a property. *)
Definition py_time (t : Z) : pyval := VFloat (FFin t (-22)).

(** (ip, port). *)
Definition addr := (text * Z)%type.
(** [==] of two (ip, port) pairs. *)
Definition addr_eqb (a b : addr) : bool := if snd a =? snd b then bytes_eqb (fst a) (fst b) else false.

(** connection.py:23-44, 56, 58: the attributes of a Connection. *)
Record conn : Type := mk_conn {
  c_address : addr;
  c_incoming : bool;
  c_open : bool;
  c_send : bytes;
  c_recv : bytes;
  c_tx : Z;
  c_rx : Z;
  c_last_tx : Z;
  c_last_ping : Z;
  c_last_rx : Z;
  c_external_ip : option text;
  c_services : option pyval;
  c_start_height : option pyval;
  c_user_agent : option pyval;
  c_version : option pyval;
  c_relay : option pyval;
  c_banscore : Z;
  c_verack : bool
}.
(** [self._address = v] (connection.py). *)
Definition set_c_address (v : addr) (r : conn) : conn :=
  mk_conn v (c_incoming r) (c_open r) (c_send r) (c_recv r) (c_tx r) (c_rx r) (c_last_tx r) (c_last_ping r) (c_last_rx r) (c_external_ip r) (c_services r) (c_start_height r) (c_user_agent r) (c_version r) (c_relay r) (c_banscore r) (c_verack r).
(** [self._incoming = v] (connection.py). *)
Definition set_c_incoming (v : bool) (r : conn) : conn :=
  mk_conn (c_address r) v (c_open r) (c_send r) (c_recv r) (c_tx r) (c_rx r) (c_last_tx r) (c_last_ping r) (c_last_rx r) (c_external_ip r) (c_services r) (c_start_height r) (c_user_agent r) (c_version r) (c_relay r) (c_banscore r) (c_verack r).
(** Leaving or entering the map. *)
Definition set_c_open (v : bool) (r : conn) : conn :=
  mk_conn (c_address r) (c_incoming r) v (c_send r) (c_recv r) (c_tx r) (c_rx r) (c_last_tx r) (c_last_ping r) (c_last_rx r) (c_external_ip r) (c_services r) (c_start_height r) (c_user_agent r) (c_version r) (c_relay r) (c_banscore r) (c_verack r).
(** [self._send_buffer = v] (connection.py). *)
Definition set_c_send (v : bytes) (r : conn) : conn :=
  mk_conn (c_address r) (c_incoming r) (c_open r) v (c_recv r) (c_tx r) (c_rx r) (c_last_tx r) (c_last_ping r) (c_last_rx r) (c_external_ip r) (c_services r) (c_start_height r) (c_user_agent r) (c_version r) (c_relay r) (c_banscore r) (c_verack r).
(** [self._recv_buffer = v] (connection.py). *)
Definition set_c_recv (v : bytes) (r : conn) : conn :=
  mk_conn (c_address r) (c_incoming r) (c_open r) (c_send r) v (c_tx r) (c_rx r) (c_last_tx r) (c_last_ping r) (c_last_rx r) (c_external_ip r) (c_services r) (c_start_height r) (c_user_agent r) (c_version r) (c_relay r) (c_banscore r) (c_verack r).
(** [self._tx_bytes = v] (connection.py). *)
Definition set_c_tx (v : Z) (r : conn) : conn :=
  mk_conn (c_address r) (c_incoming r) (c_open r) (c_send r) (c_recv r) v (c_rx r) (c_last_tx r) (c_last_ping r) (c_last_rx r) (c_external_ip r) (c_services r) (c_start_height r) (c_user_agent r) (c_version r) (c_relay r) (c_banscore r) (c_verack r).
(** [self._rx_bytes = v] (connection.py). *)
Definition set_c_rx (v : Z) (r : conn) : conn :=
  mk_conn (c_address r) (c_incoming r) (c_open r) (c_send r) (c_recv r) (c_tx r) v (c_last_tx r) (c_last_ping r) (c_last_rx r) (c_external_ip r) (c_services r) (c_start_height r) (c_user_agent r) (c_version r) (c_relay r) (c_banscore r) (c_verack r).
(** [self._last_tx_time = v] (connection.py). *)
Definition set_c_last_tx (v : Z) (r : conn) : conn :=
  mk_conn (c_address r) (c_incoming r) (c_open r) (c_send r) (c_recv r) (c_tx r) (c_rx r) v (c_last_ping r) (c_last_rx r) (c_external_ip r) (c_services r) (c_start_height r) (c_user_agent r) (c_version r) (c_relay r) (c_banscore r) (c_verack r).
(** [self._last_ping_time = v] (connection.py). *)
Definition set_c_last_ping (v : Z) (r : conn) : conn :=
  mk_conn (c_address r) (c_incoming r) (c_open r) (c_send r) (c_recv r) (c_tx r) (c_rx r) (c_last_tx r) v (c_last_rx r) (c_external_ip r) (c_services r) (c_start_height r) (c_user_agent r) (c_version r) (c_relay r) (c_banscore r) (c_verack r).
(** [self._last_rx_time = v] (connection.py). *)
Definition set_c_last_rx (v : Z) (r : conn) : conn :=
  mk_conn (c_address r) (c_incoming r) (c_open r) (c_send r) (c_recv r) (c_tx r) (c_rx r) (c_last_tx r) (c_last_ping r) v (c_external_ip r) (c_services r) (c_start_height r) (c_user_agent r) (c_version r) (c_relay r) (c_banscore r) (c_verack r).
(** [self._external_ip = v] (connection.py). *)
Definition set_c_external_ip (v : option text) (r : conn) : conn :=
  mk_conn (c_address r) (c_incoming r) (c_open r) (c_send r) (c_recv r) (c_tx r) (c_rx r) (c_last_tx r) (c_last_ping r) (c_last_rx r) v (c_services r) (c_start_height r) (c_user_agent r) (c_version r) (c_relay r) (c_banscore r) (c_verack r).
(** [self._services = v] (connection.py). *)
Definition set_c_services (v : option pyval) (r : conn) : conn :=
  mk_conn (c_address r) (c_incoming r) (c_open r) (c_send r) (c_recv r) (c_tx r) (c_rx r) (c_last_tx r) (c_last_ping r) (c_last_rx r) (c_external_ip r) v (c_start_height r) (c_user_agent r) (c_version r) (c_relay r) (c_banscore r) (c_verack r).
(** [self._start_height = v] (connection.py). *)
Definition set_c_start_height (v : option pyval) (r : conn) : conn :=
  mk_conn (c_address r) (c_incoming r) (c_open r) (c_send r) (c_recv r) (c_tx r) (c_rx r) (c_last_tx r) (c_last_ping r) (c_last_rx r) (c_external_ip r) (c_services r) v (c_user_agent r) (c_version r) (c_relay r) (c_banscore r) (c_verack r).
(** [self._user_agent = v] (connection.py). *)
Definition set_c_user_agent (v : option pyval) (r : conn) : conn :=
  mk_conn (c_address r) (c_incoming r) (c_open r) (c_send r) (c_recv r) (c_tx r) (c_rx r) (c_last_tx r) (c_last_ping r) (c_last_rx r) (c_external_ip r) (c_services r) (c_start_height r) v (c_version r) (c_relay r) (c_banscore r) (c_verack r).
(** [self._version = v] (connection.py). *)
Definition set_c_version (v : option pyval) (r : conn) : conn :=
  mk_conn (c_address r) (c_incoming r) (c_open r) (c_send r) (c_recv r) (c_tx r) (c_rx r) (c_last_tx r) (c_last_ping r) (c_last_rx r) (c_external_ip r) (c_services r) (c_start_height r) (c_user_agent r) v (c_relay r) (c_banscore r) (c_verack r).
(** [self._relay = v] (connection.py). *)
Definition set_c_relay (v : option pyval) (r : conn) : conn :=
  mk_conn (c_address r) (c_incoming r) (c_open r) (c_send r) (c_recv r) (c_tx r) (c_rx r) (c_last_tx r) (c_last_ping r) (c_last_rx r) (c_external_ip r) (c_services r) (c_start_height r) (c_user_agent r) (c_version r) v (c_banscore r) (c_verack r).
(** [self._banscore = v] (connection.py). *)
Definition set_c_banscore (v : Z) (r : conn) : conn :=
  mk_conn (c_address r) (c_incoming r) (c_open r) (c_send r) (c_recv r) (c_tx r) (c_rx r) (c_last_tx r) (c_last_ping r) (c_last_rx r) (c_external_ip r) (c_services r) (c_start_height r) (c_user_agent r) (c_version r) (c_relay r) v (c_verack r).
(** [self._verack = v] (connection.py). *)
Definition set_c_verack (v : bool) (r : conn) : conn :=
  mk_conn (c_address r) (c_incoming r) (c_open r) (c_send r) (c_recv r) (c_tx r) (c_rx r) (c_last_tx r) (c_last_ping r) (c_last_rx r) (c_external_ip r) (c_services r) (c_start_height r) (c_user_agent r) (c_version r) (c_relay r) (c_banscore r) v.

(** Keys of [_banned]: basenode.py:183 stores an ip, basenode.py:256 looks up an
    (ip, port) pair; in Python these never compare equal. *)
Inductive ban_key : Type := KIp (ip : text) | KAddr (a : addr).
(** [==] of two keys of [_banned] (basenode.py:183, 256). *)
Definition ban_key_eqb (a b : ban_key) : bool :=
  match a, b with
  | KIp x, KIp y => bytes_eqb x y
  | KAddr x, KAddr y => addr_eqb x y
  | _, _ => false
  end.

(** Observable effects. *)
Inductive action : Type :=
| AConnect (i : nat) (a : addr) (incoming : bool) (* connection i added to the map *)
| AClose (i : nat)                                (* handle_close of connection i *)
| ARefuse (a : addr)                              (* incoming connection dropped *)
| ARecv (i : nat) (chunk : bytes)                 (* received from the socket *)
| AMsg (i : nat) (m : message)                    (* handle_message called *)
| AInvalid (i : nat) (payload : bytes) (e : exn)  (* node.invalid_command called *)
| AParseError (i : nat) (payload : bytes) (e : exn) (* parse failed, logged *)
| AHandlerError (i : nat) (e : exn)               (* handler failed, logged *)
| AHandlerInvalid (i : nat) (payload : bytes) (e : exn) (* handler failed, node.invalid_command called *)
| ANoHandler (i : nat) (name : string)            (* 'method not defined' logged *)
| AQueue (i : nat) (m : message) (b : bytes)      (* message appended to the send buffer *)
| AWire (i : nat) (b : bytes)                     (* taken by the socket *)
| APing (i : nat) (now : Z)                       (* ping queued by readable() *)
| AHeartbeat (now : Z)
| ABan (ip : text) (now : Z).

(** basenode.py:41-73: the mutable attributes of a BaseNode. *)
Record node : Type := mk_node {
  n_conns : list conn;
  n_listener : bool;
  n_book : list (addr * (pyval * option pyval));
  n_banned : list (ban_key * Z);
  n_last_heartbeat : Z;
  n_tx : Z;
  n_rx : Z;
  n_guessed_ip : text;
  n_external_ip : option text;
  n_trace : list action
}.
(** The connections made so far. *)
Definition set_n_conns (v : list conn) (r : node) : node :=
  mk_node v (n_listener r) (n_book r) (n_banned r) (n_last_heartbeat r) (n_tx r) (n_rx r) (n_guessed_ip r) (n_external_ip r) (n_trace r).
(** Whether the listening socket is in the map. *)
Definition set_n_listener (v : bool) (r : node) : node :=
  mk_node (n_conns r) v (n_book r) (n_banned r) (n_last_heartbeat r) (n_tx r) (n_rx r) (n_guessed_ip r) (n_external_ip r) (n_trace r).
(** [self._addresses] (basenode.py:44). *)
Definition set_n_book (v : list (addr * (pyval * option pyval))) (r : node) : node :=
  mk_node (n_conns r) (n_listener r) v (n_banned r) (n_last_heartbeat r) (n_tx r) (n_rx r) (n_guessed_ip r) (n_external_ip r) (n_trace r).
(** [self._banned = v] (basenode.py). *)
Definition set_n_banned (v : list (ban_key * Z)) (r : node) : node :=
  mk_node (n_conns r) (n_listener r) (n_book r) v (n_last_heartbeat r) (n_tx r) (n_rx r) (n_guessed_ip r) (n_external_ip r) (n_trace r).
(** [self._last_heartbeat = v] (basenode.py). *)
Definition set_n_last_heartbeat (v : Z) (r : node) : node :=
  mk_node (n_conns r) (n_listener r) (n_book r) (n_banned r) v (n_tx r) (n_rx r) (n_guessed_ip r) (n_external_ip r) (n_trace r).
(** [self._tx_bytes = v] (basenode.py). *)
Definition set_n_tx (v : Z) (r : node) : node :=
  mk_node (n_conns r) (n_listener r) (n_book r) (n_banned r) (n_last_heartbeat r) v (n_rx r) (n_guessed_ip r) (n_external_ip r) (n_trace r).
(** [self._rx_bytes = v] (basenode.py). *)
Definition set_n_rx (v : Z) (r : node) : node :=
  mk_node (n_conns r) (n_listener r) (n_book r) (n_banned r) (n_last_heartbeat r) (n_tx r) v (n_guessed_ip r) (n_external_ip r) (n_trace r).
(** [self._guessed_external_ip = v] (basenode.py). *)
Definition set_n_guessed_ip (v : text) (r : node) : node :=
  mk_node (n_conns r) (n_listener r) (n_book r) (n_banned r) (n_last_heartbeat r) (n_tx r) (n_rx r) v (n_external_ip r) (n_trace r).
(** [self._external_ip = v] (basenode.py). *)
Definition set_n_external_ip (v : option text) (r : node) : node :=
  mk_node (n_conns r) (n_listener r) (n_book r) (n_banned r) (n_last_heartbeat r) (n_tx r) (n_rx r) (n_guessed_ip r) v (n_trace r).
(** The ghost history. *)
Definition set_n_trace (v : list action) (r : node) : node :=
  mk_node (n_conns r) (n_listener r) (n_book r) (n_banned r) (n_last_heartbeat r) (n_tx r) (n_rx r) (n_guessed_ip r) (n_external_ip r) v.

(** Constructor arguments and class constants of the node (basenode.py:33-65,
    92) and of its coin (coins/newbitcoin.py). *)
Record config : Type := mk_config {
  cf_magic : bytes;
  cf_protocol_version : Z;
  cf_user_agent : text;
  cf_address : addr;             (* the address the listener is bound to *)
  cf_listen : bool;
  cf_seek_peers : Z;
  cf_max_peers : Z;
  cf_bootstrap : list addr;      (* [] when bootstrap is off (None) *)
  cf_height : Z
}.

(** A Python statement: new state, and a value or an exception. *)
Definition M (A : Type) := node -> node * res A.
(** A statement without effect. *)
Definition retM {A} (a : A) : M A := fun n => (n, Ok a).
(** [raise]. *)
Definition raiseM {A} (e : exn) : M A := fun n => (n, Raise e).
(** One statement after another. *)
Definition bindM {A B} (m : M A) (k : A -> M B) : M B :=
  fun n => let (n', r) := m n in match r with Ok a => k a n' | Raise e => (n', Raise e) end.
(** An expression that may raise. *)
Definition liftM {A} (r : res A) : M A := fun n => (n, r).
(** An assignment. *)
Definition modM (f : node -> node) : M unit := fun n => (f n, Ok tt).
(** Reading attributes. *)
Definition getM : M node := fun n => (n, Ok n).
(** [try: m except Exception as e: h(e)]. *)
Definition tryM {A} (m : M A) (h : exn -> M A) : M A :=
  fun n => let (n', r) := m n in match r with Ok a => (n', Ok a) | Raise e => h e n' end.
Notation "'do!' x ':=' m 'in' k" := (bindM m (fun x => k))
  (at level 200, x pattern, m at level 100, k at level 200, right associativity).

(** The connection of an identity. *)
Definition get_conn (i : nat) (n : node) : option conn := nth_error (n_conns n) i.
(** Assignment to an element of a list. *)
Fixpoint upd_nth {A} (i : nat) (f : A -> A) (l : list A) : list A :=
  match l, i with
  | [], _ => []
  | x :: r, O => f x :: r
  | x :: r, S k => x :: upd_nth k f r
  end.
(** Assignment to attributes of a connection. *)
Definition upd (i : nat) (f : conn -> conn) (n : node) : node := set_n_conns (upd_nth i f (n_conns n)) n.
(** Appends to the ghost history. *)
Definition emit (a : action) (n : node) : node := set_n_trace (n_trace n ++ [a]) n.

(** [_addresses] as an insertion-ordered dictionary (Python 3.7+). *)
Fixpoint book_mem (a : addr) (b : list (addr * (pyval * option pyval))) : bool :=
  match b with [] => false | (k, _) :: r => addr_eqb k a || book_mem a r end.
(** [del self._addresses[a]], basenode.py:152. *)
Definition book_del (a : addr) (b : list (addr * (pyval * option pyval))) :=
  filter (fun kv => negb (addr_eqb (fst kv) a)) b.
(** [self._addresses[a] = v], basenode.py:326, 346. *)
Fixpoint book_set (a : addr) (v : pyval * option pyval) (b : list (addr * (pyval * option pyval))) :=
  match b with
  | [] => [(a, v)]
  | (k, w) :: r => if addr_eqb k a then (k, v) :: r else (k, w) :: book_set a v r
  end.

(** Indices of the connections in the map, in order: basenode.py:175-176 [peers]. *)
Fixpoint open_from (i : nat) (l : list conn) : list nat :=
  match l with
  | [] => []
  | c :: r => if c_open c then i :: open_from (S i) r else open_from (S i) r
  end.
(** basenode.py:175-176. *)
Definition peers (n : node) : list nat := open_from 0 (n_conns n).
(** [len(self._peers)]: the listener is in the map as well. *)
Definition map_len (n : node) : Z := zlen (peers n) + (if n_listener n then 1 else 0).

(** [range(k)] loops and [for x in l] loops. *)
Fixpoint for_each {A} (l : list A) (f : A -> M unit) : M unit :=
  match l with
  | [] => retM tt
  | x :: r => do! _ := f x in for_each r f
  end.

(** Stable sort; Python's sort gives this result for every total preorder. *)
Fixpoint insert_by {A} (leb : A -> A -> bool) (x : A) (l : list A) : list A :=
  match l with
  | [] => [x]
  | y :: r => if leb x y then x :: l else y :: insert_by leb x r
  end.
(** [sorted] with a comparison, basenode.py:196, 333. *)
Definition sort_by {A} (leb : A -> A -> bool) (l : list A) : list A := fold_right (insert_by leb) [] l.

(** Python comparison of text (code points). *)
Fixpoint text_leb (a b : text) : bool :=
  match a, b with
  | [], _ => true
  | _ :: _, [] => false
  | x :: a', y :: b' => (x <? y) || ((x =? y) && text_leb a' b')
  end.

(** protocol/messages.py: the message class of a name. *)
Definition type_of (id : string) : msg_type :=
  match find_class id class_defs with
  | Some d => match resolve d with Some t => t | None => mk_msg_type id "" "" [] end
  | None => mk_msg_type id "" "" []
  end.

Section Node.
Variable sha256 : bytes -> bytes.
(** Python 2 accepts [sorted(x, cmp)]; Python 3 does not. *)
Variable py2 : bool.
Variable cf : config.

(** ** Connection *)

(** connection.py:213-220 (default log level). *)
Definition queue (i : nat) (m : message) (b : bytes) (n : node) : node :=
  match get_conn i n with
  | Some c => emit (AQueue i m b) (upd i (set_c_send (c_send c ++ b)) n)
  | None => n
  end.
(** connection.py:213-220. *)
Definition send_message (i : nat) (m : message) : M unit :=
  do! b := liftM (msg_binary sha256 m (cf_magic cf)) in
  modM (queue i m b).

(** basenode.py:150-152. *)
Definition disconnected (a : addr) (n : node) : node :=
  if book_mem a (n_book n) then set_n_book (book_del a (n_book n)) n else n.
(** connection.py:179-184; asyncore's close() removes the channel from the map
    and does nothing if it is not there. *)
Definition shut (i : nat) (n : node) : node :=
  match get_conn i n with
  | Some c => disconnected (c_address c) (emit (AClose i) (upd i (set_c_open false) n))
  | None => n
  end.
(** connection.py:179-184. *)
Definition handle_close (i : nat) : M unit := modM (shut i).

(** basenode.py:98-101. *)
Definition external_ip (n : node) : text :=
  match n_external_ip n with
  | Some (x :: r) => x :: r
  | _ => n_guessed_ip n
  end.
(** connection.py:62-70: SERVICES is SERVICE_NODE_NETWORK = 1. *)
Definition network_address (now : Z) (a : addr) : res pyval :=
  construct "NetworkAddress" NetworkAddress_props [py_time now; VInt 1; VStr (fst a); VInt (snd a)] [].
(** connection.py:60-70. *)
Definition version_message (now : Z) (nonce : bytes) (a : addr) (n : node) : res message :=
  let! recv := network_address now a in
  let! from := network_address now (external_ip n, snd (cf_address cf)) in
  new_message (type_of "Version") []
    [ ("version", VInt (cf_protocol_version cf)); ("services", VInt 1); ("timestamp", py_time now);
      ("addr_recv", recv); ("addr_from", from); ("nonce", VBytes nonce);
      ("user_agent", VStr (cf_user_agent cf)); ("start_height", VInt (cf_height cf));
      ("relay", VBool false) ].

(** connection.py:24-50: a new connection, registered in the map. *)
Definition fresh_conn (a : addr) (incoming : bool) : conn :=
  mk_conn a incoming true [] [] 0 0 0 0 0 None None None None None None 0 false.
(** connection.py:24-50. *)
Definition register (a : addr) (incoming : bool) (n : node) : node :=
  emit (AConnect (List.length (n_conns n)) a incoming)
    (set_n_conns (n_conns n ++ [fresh_conn a incoming]) n).
(** What the environment answers while a connection is being created: whether
    the socket calls succeed, the clock, the random nonce. *)
Record conn_env : Type := mk_conn_env { ce_ok : bool; ce_now : Z; ce_nonce : bytes }.
(** connection.py:23-71 [Connection.__init__].  An exception raised at lines
    62-71 leaves the connection registered. *)
Definition new_connection (a : addr) (incoming : bool) (e : conn_env) : M unit :=
  do! n := getM in
  let i := List.length (n_conns n) in
  do! _ := modM (register a incoming) in
  if negb incoming && negb (ce_ok e) then
    do! _ := handle_close i in raiseM PlainException       (* socket error re-raised *)
  else
    do! n := getM in
    do! m := liftM (version_message (ce_now e) (ce_nonce e) a n) in
    send_message i m.

(** connection.py:98-103. *)
Definition add_banscore (i : nat) (n : node) : node :=
  match get_conn i n with
  | Some c => upd i (set_c_banscore (c_banscore c + 1)) n
  | None => n
  end.
(** connection.py:101-103. *)
Definition reduce_banscore (i : nat) (n : node) : node :=
  match get_conn i n with
  | Some c => let s := c_banscore c - 1 in upd i (set_c_banscore (if s <? 0 then 0 else s)) n
  | None => n
  end.

(** connection.py:105-120.  [now] is the first clock reading, [now2] the one of
    line 114, [nonce] is os.urandom(8). *)
Definition pinged (i : nat) (now now2 : Z) (n : node) : node :=
  match get_conn i n with
  | Some c => emit (APing i now) (upd i (set_c_last_ping now2) n)
  | None => n
  end.
(** connection.py:105-120. *)
Definition readable (i : nat) (now now2 : Z) (nonce : bytes) : M bool :=
  do! n := getM in
  match get_conn i n with
  | None => retM false
  | Some c =>
      let rx_ago := now - c_last_rx c in
      let tx_ago := now - c_last_tx c in
      let ping_ago := now - c_last_ping c in
      do! _ := (if negb (c_last_tx c =? 0) && (tx_ago >? 1800 * SEC) && (ping_ago >? 300 * SEC) then
                  do! m := liftM (new_message (type_of "Ping") [VBytes nonce] []) in
                  do! _ := send_message i m in
                  modM (pinged i now now2)
                else retM tt) in
      if negb (c_last_rx c =? 0) && (rx_ago >? 10800 * SEC) then
        do! _ := handle_close i in retM false
      else retM true
  end.

(** ** Node commands *)

(** basenode.py:186-197. *)
Fixpoint count_incr (a : text) (l : list (text * Z)) : list (text * Z) :=
  match l with
  | [] => [(a, 1)]
  | (k, v) :: r => if bytes_eqb k a then (k, v + 1) :: r else (k, v) :: count_incr a r
  end.
(** basenode.py:187-193. *)
Fixpoint count_votes (n : node) (ps : list nat) (l : list (text * Z)) : list (text * Z) :=
  match ps with
  | [] => l
  | i :: r => count_votes n r
      (match get_conn i n with
       | Some c => match c_external_ip c with Some a => count_incr a l | None => l end
       | None => l
       end)
  end.
(** basenode.py:195-196: the order of pairs. *)
Definition vote_leb (a b : Z * text) : bool :=
  (fst a <? fst b) || ((fst a =? fst b) && text_leb (snd a) (snd b)).
(** basenode.py:186-197. *)
Definition check_external_ip (n : node) : node :=
  let counter := count_votes n (peers n) [] in
  match counter with
  | [] => n
  | _ => set_n_guessed_ip (snd (last (sort_by vote_leb (map (fun kv => (snd kv, fst kv)) counter)) (0, []))) n
  end.

(** Fields of an object. *)
Definition field (k : string) (fs : list (string * pyval)) : res pyval :=
  match assoc k fs with Some v => Ok v | None => Raise AttributeError end.
(** Reading an attribute of a property value. *)
Definition attr (k : string) (v : pyval) : res pyval :=
  match v with VObj _ fs => field k fs | _ => Raise AttributeError end.
(** The value is used as a text. *)
Definition as_text (v : pyval) : res text := match v with VStr s => Ok s | _ => Raise TypeError end.
(** The value is used as an integer. *)
Definition as_int (v : pyval) : res Z := match v with VInt z => Ok z | _ => Raise TypeError end.

(** connection.py:195-202. *)
Definition got_version (i : nat) (m : message) : M unit :=
  let fs := m_fields m in
  do! sv := liftM (field "services" fs) in
  do! sh := liftM (field "start_height" fs) in
  do! ua := liftM (field "user_agent" fs) in
  do! ve := liftM (field "version" fs) in
  do! re := liftM (field "relay" fs) in
  do! ar := liftM (field "addr_recv" fs) in
  do! av := liftM (attr "address" ar) in
  do! ip := liftM (as_text av) in
  do! _ := modM (upd i (fun c => set_c_services (Some sv) (set_c_start_height (Some sh)
             (set_c_user_agent (Some ua) (set_c_version (Some ve) (set_c_relay (Some re)
             (set_c_external_ip (Some ip) c))))))) in
  modM check_external_ip.

(** basenode.py:324-326.  [now] is the clock reading of [peer.timestamp]
    (connection.py:96, the age of the last reception). *)
Definition MAX_ADDRESSES : Z := 2500.
(** basenode.py:324-326. *)
Definition record_peer (i : nat) (now : Z) (n : node) : node :=
  match get_conn i n with
  | Some c => if zlen (n_book n) <? MAX_ADDRESSES
              then set_n_book (book_set (c_address c) (py_time (now - c_last_rx c), c_services c) (n_book n)) n
              else n
  | None => n
  end.

(** basenode.py:343-346; [max_len] as written, [> MAX_ADDRESSES]. *)
Fixpoint learn_addresses (l : list pyval) : M unit :=
  match l with
  | [] => retM tt
  | a :: r =>
      do! n := getM in
      if zlen (n_book n) >? MAX_ADDRESSES then retM tt
      else
        do! av := liftM (attr "address" a) in
        do! ip := liftM (as_text av) in
        do! pv := liftM (attr "port" a) in
        do! port := liftM (as_int pv) in
        do! ts := liftM (attr "timestamp" a) in
        do! sv := liftM (attr "services" a) in
        do! _ := modM (fun n => set_n_book (book_set (ip, port) (ts, Some sv) (n_book n)) n) in
        learn_addresses r
  end.

(** Order of two timestamps (int or float), for [cmp]. *)
Definition ts_leb (a b : pyval) : bool :=
  let num v := match v with VFloat (FFin m e) => if 0 <=? e then (m * 2 ^ e, 1) else (m, 2 ^ (- e))
               | VInt z => (z, 1) | _ => (0, 1) end in
  fst (num a) * snd (num b) <=? fst (num b) * snd (num a).
(** basenode.py:329-330: decreasing timestamps; equal timestamps keep their order. *)
Definition entry_before (a b : addr * (pyval * option pyval)) : bool := ts_leb (fst (snd b)) (fst (snd a)).
(** basenode.py:332-339. *)
Definition ADDRESSES_PER_ASK : Z := 1000.
(** basenode.py:332-339. *)
Fixpoint collect_addresses (l : list (addr * (pyval * option pyval))) (acc : list pyval) : res (list pyval) :=
  match l with
  | [] => Ok acc
  | ((ip, port), (ts, sv)) :: r =>
      match sv with
      | None => collect_addresses r acc
      | Some sv =>
          let! a := construct "NetworkAddress" NetworkAddress_props [ts; sv; VStr ip; VInt port] [] in
          let acc := acc ++ [a] in
          if zlen acc >=? ADDRESSES_PER_ASK then Ok acc else collect_addresses r acc
      end
  end.
(** basenode.py:328-341. *)
Definition get_address_reply (n : node) : res message :=
  if negb py2 then Raise TypeError                  (* sorted() takes 1 positional argument *)
  else
    let! l := collect_addresses (sort_by entry_before (n_book n)) [] in
    new_message (type_of "Address") [VList l] [].

(** basenode.py:315-346: [getattr(node, 'command_' + name)]; [None] = no such
    method.  [now] is the clock. *)
Definition command (name : string) (i : nat) (m : message) (now : Z) : option (M unit) :=
  let fs := m_fields m in
  if String.eqb name "ping" then Some
    (do! nonce := liftM (field "nonce" fs) in
     do! p := liftM (new_message (type_of "Pong") [nonce] []) in
     send_message i p)
  else if String.eqb name "pong" then Some (retM tt)
  else if String.eqb name "version" then Some
    (do! p := liftM (new_message (type_of "VersionAck") [] []) in
     send_message i p)
  else if String.eqb name "version_ack" then Some (modM (record_peer i now))
  else if String.eqb name "get_address" then Some
    (do! n := getM in
     do! p := liftM (get_address_reply n) in
     send_message i p)
  else if String.eqb name "address" then Some
    (do! v := liftM (field "addr_list" fs) in
     match v with
     | VList l | VTuple l => learn_addresses l
     | _ => raiseM TypeError
     end)
  else None.

(** connection.py:186-211. *)
Definition no_handler (i : nat) (name : string) (n : node) : node := emit (ANoHandler i name) n.
(** connection.py:186-211. *)
Definition handle_message (i : nat) (m : message) (now : Z) : M unit :=
  let cmd := mt_command (m_type m) in
  do! _ := (if String.eqb cmd "version" then got_version i m
            else if String.eqb cmd "verack" then modM (upd i (set_c_verack true))
            else retM tt) in
  match command (mt_name (m_type m)) i m now with
  | Some f => f
  | None => modM (no_handler i (mt_name (m_type m)))
  end.

(** connection.py:146-154: one frame has been cut off the buffer. *)
Definition is_invalid (e : exn) : bool :=
  match e with UnknownMsgError | MsgFormatError => true | _ => false end.
(** connection.py:143-154. *)
Definition handle_frame (i : nat) (payload : bytes) (now : Z) : M unit :=
  match msg_parse sha256 payload (cf_magic cf) with
  | Ok m =>
      do! _ := modM (emit (AMsg i m)) in
      tryM (handle_message i m now)
        (fun e => modM (emit (if is_invalid e then AHandlerInvalid i payload e else AHandlerError i e)))
  | Raise e => modM (emit (if is_invalid e then AInvalid i payload e else AParseError i payload e))
  end.
(** connection.py:138-154: the loop; each turn removes at least 24 bytes, so
    the length of the buffer bounds it.  [clock k] is the clock at turn [k]. *)
Fixpoint read_loop (fuel : nat) (i : nat) (clock : nat -> Z) : M unit :=
  match fuel with
  | O => retM tt
  | S k =>
      do! n := getM in
      match get_conn i n with
      | None => retM tt
      | Some c =>
          match first_msg_len (c_recv c) with
          | None => retM tt
          | Some length =>
              if length >? zlen (c_recv c) then retM tt
              else
                let payload := ztake length (c_recv c) in
                do! _ := modM (upd i (set_c_recv (zdrop length (c_recv c)))) in
                do! _ := handle_frame i payload (clock k) in
                read_loop k i clock
          end
      end
  end.
(** connection.py:132-135. *)
Definition received (i : nat) (chunk : bytes) (now : Z) (n : node) : node :=
  match get_conn i n with
  | Some c =>
      emit (ARecv i chunk)
        (set_n_rx (n_rx n + zlen chunk)
          (upd i (fun c => set_c_recv (c_recv c ++ chunk) (set_c_rx (c_rx c + zlen chunk) (set_c_last_rx now c))) n))
  | None => n
  end.
(** What [self.recv] answers: data ([[]] when the peer has closed or reset the
    connection: asyncore has then called handle_close itself) or an exception. *)
Inductive recv_result : Type := RData (chunk : bytes) | RError.
(** connection.py:122-154. *)
Definition handle_read (i : nat) (r : recv_result) (now : Z) (clock : nat -> Z) : M unit :=
  match r with
  | RError => handle_close i
  | RData [] => do! _ := handle_close i in handle_close i
  | RData chunk =>
      do! _ := modM (received i chunk now) in
      do! n := getM in
      match get_conn i n with
      | Some c => read_loop (List.length (c_recv c)) i clock
      | None => retM tt
      end
  end.

(** What [self.send] answers: the socket takes [k] bytes (clamped to the data
    offered), the peer has disconnected (asyncore calls handle_close and
    returns 0), or an exception. *)
Inductive send_result : Type := STaken (k : Z) | SDisconnected | SError.
(** connection.py:161-168. *)
Definition wrote (i : nat) (k : Z) (now : Z) (n : node) : node :=
  match get_conn i n with
  | Some c =>
      let sent := Z.max 0 (Z.min k (zlen (c_send c))) in
      emit (AWire i (ztake sent (c_send c)))
        (set_n_tx (n_tx n + sent)
          (upd i (fun c => set_c_send (zdrop sent (c_send c)) (set_c_tx (c_tx c + sent) (set_c_last_tx now c))) n))
  | None => n
  end.
(** connection.py:159-168. *)
Definition handle_write (i : nat) (r : send_result) (now : Z) : M unit :=
  match r with
  | STaken k => modM (wrote i k now)
  | SDisconnected => do! _ := handle_close i in modM (wrote i 0 now)
  | SError => handle_close i
  end.

(** ** Node maintenance *)

(** [address in [n.address for n in self.values()]]. *)
Definition address_in_use (a : addr) (n : node) : bool :=
  existsb (fun c => c_open c && addr_eqb (c_address c) a) (n_conns n)
  || (n_listener n && addr_eqb (cf_address cf) a).
(** basenode.py:154-165. *)
Definition add_peer (a : addr) (force : bool) (e : conn_env) : M bool :=
  do! n := getM in
  if negb force && (map_len n >=? cf_max_peers cf) then retM false
  else if address_in_use a n then retM false
  else tryM (do! _ := new_connection a false e in retM true) (fun _ => retM false).

(** basenode.py:167-172. *)
Fixpoint find_peer (a : addr) (n : node) (ps : list nat) : option nat :=
  match ps with
  | [] => None
  | i :: r => match get_conn i n with
              | Some c => if addr_eqb (c_address c) a then Some i else find_peer a n r
              | None => find_peer a n r
              end
  end.
(** basenode.py:167-172. *)
Definition remove_peer (a : addr) : M unit :=
  do! n := getM in
  match find_peer a n (peers n) with
  | Some i => handle_close i
  | None => retM tt
  end.

(** basenode.py:180-184. *)
Definition ban (ip : text) (now : Z) (n : node) : node :=
  emit (ABan ip now)
    (set_n_banned ((KIp ip, now) :: filter (fun kv => negb (ban_key_eqb (fst kv) (KIp ip))) (n_banned n)) n).
(** basenode.py:180-184. *)
Definition punish_peer (i : nat) (now : Z) : M unit :=
  do! _ := modM (add_banscore i) in
  do! n := getM in
  match get_conn i n with
  | None => retM tt
  | Some c =>
      if c_banscore c >? 5 then
        do! _ := modM (ban (fst (c_address c)) now) in
        handle_close i
      else retM tt
  end.

(** Random choices and connection outcomes used by one attempt: [ae_dice] is
    randint(0,199), [ae_seed] chooses the DNS seed. *)
Record attempt_env : Type := mk_attempt { ae_dice : Z; ae_seed : nat; ae_conn : conn_env }.
(** basenode.py:199-211. *)
Definition add_any_peer (e : attempt_env) : M unit :=
  do! n := getM in
  if (match n_book n with [] => true | _ => false end) || (ae_dice e =? 1) then
    match cf_bootstrap cf with
    | [] => retM tt
    | s :: _ =>
        let a := nth (Nat.modulo (ae_seed e) (List.length (cf_bootstrap cf))) (cf_bootstrap cf) s in
        do! _ := add_peer a false (ae_conn e) in retM tt
    end
  else
    let active a := existsb (fun c => c_open c && addr_eqb (c_address c) a) (n_conns n) in
    match find (fun kv => negb (active (fst kv))) (n_book n) with
    | Some (a, _) => do! _ := add_peer a true (ae_conn e) in retM tt
    | None => retM tt
    end.

(** basenode.py:227-242 ([_decay_relay] returns at once).  [pick] is the index
    drawn by random.choice. *)
Definition heartbeat (envs : nat -> attempt_env) (pick : nat) : M unit :=
  do! n := getM in
  let ps := peers n in
  do! _ := for_each (seq 0 (Z.to_nat (Z.min (cf_seek_peers cf - zlen ps) 5))) (fun k => add_any_peer (envs k)) in
  do! n := getM in
  do! _ := (match ps with
            | [] => retM tt
            | p :: _ =>
                if zlen (n_book n) <? 50 then
                  do! m := liftM (new_message (type_of "GetAddress") [] []) in
                  send_message (nth (Nat.modulo pick (List.length ps)) ps p) m
                else retM tt
            end) in
  for_each ps (fun i => modM (reduce_banscore i)).

(** basenode.py:273-281 (called by asyncore at each loop iteration). *)
Definition beat (now : Z) (n : node) : node := emit (AHeartbeat now) (set_n_last_heartbeat now n).
(** basenode.py:273-281. *)
Definition items (now : Z) (envs : nat -> attempt_env) (pick : nat) : M unit :=
  do! n := getM in
  if now - n_last_heartbeat n >? 10 * SEC then
    do! _ := modM (beat now) in heartbeat envs pick
  else retM tt.

(** [self._banned.get(k)], basenode.py:256-257. *)
Fixpoint ban_lookup (k : ban_key) (l : list (ban_key * Z)) : option Z :=
  match l with
  | [] => None
  | (k', v) :: r => if ban_key_eqb k' k then Some v else ban_lookup k r
  end.
(** basenode.py:249-266 for a pair returned by accept().  If the constructor
    raises, asyncore calls the node's handle_error, which closes the listener. *)
Definition refuse (a : addr) (n : node) : node := emit (ARefuse a) n.
(** basenode.py:249-266. *)
Definition handle_accept (a : addr) (now : Z) (e : conn_env) : M unit :=
  do! n := getM in
  let admit :=
    if negb (cf_listen cf) then modM (refuse a)
    else tryM (new_connection a true e) (fun _ => modM (set_n_listener false)) in
  match ban_lookup (KAddr a) (n_banned n) with
  | Some t => if now - t <? 3600 * SEC then modM (refuse a)
              else do! _ := modM (fun n => set_n_banned
                     (filter (fun kv => negb (ban_key_eqb (fst kv) (KAddr a))) (n_banned n)) n) in
                   admit
  | None => admit
  end.

(** ** Histories *)

(** What asyncore and the user of the node do. *)
Inductive event : Type :=
| EvLoop (now : Z) (envs : nat -> attempt_env) (pick : nat)       (* map.items() *)
| EvReadable (i : nat) (now now2 : Z) (nonce : bytes)             (* poll asks readable() *)
| EvRead (i : nat) (r : recv_result) (now : Z) (clock : nat -> Z)
| EvWrite (i : nat) (r : send_result) (now : Z)
| EvError (i : nat)                                               (* handle_error / close event *)
| EvAccept (a : addr) (now : Z) (e : conn_env)
| EvAddPeer (a : addr) (force : bool) (e : conn_env)              (* API calls *)
| EvRemovePeer (a : addr)
| EvPunish (i : nat) (now : Z)
| EvSend (i : nat) (m : message).

(** asyncore only delivers events of channels in its map. *)
Definition is_open (i : nat) (n : node) : bool :=
  match get_conn i n with Some c => c_open c | None => false end.
(** The state after a statement; asyncore and the callers log or drop exceptions. *)
Definition run {A} (m : M A) (n : node) : node := fst (m n).
(** What one event does. *)
Definition step (n : node) (e : event) : node :=
  match e with
  | EvLoop now envs pick => run (items now envs pick) n
  | EvReadable i now now2 nonce => if is_open i n then run (readable i now now2 nonce) n else n
  | EvRead i r now clock => if is_open i n then run (handle_read i r now clock) n else n
  | EvWrite i r now => if is_open i n then run (handle_write i r now) n else n
  | EvError i => if is_open i n then run (handle_close i) n else n
  | EvAccept a now e => if n_listener n then run (handle_accept a now e) n else n
  | EvAddPeer a force e => run (add_peer a force e) n
  | EvRemovePeer a => run (remove_peer a) n
  | EvPunish i now => run (punish_peer i now) n
  | EvSend i m => run (send_message i m) n
  end.
(** basenode.py:41-73: the state after construction. *)
Definition init_node : node := mk_node [] true [] [] 0 0 0 (fst (cf_address cf)) None [].
(** The state after a list of events. *)
Definition history (es : list event) : node := fold_left step es init_node.
End Node.
