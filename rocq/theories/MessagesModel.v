(** Model of nbc/protocol/messages.py (Python 3 semantics). *)
From Coq Require Import String ZArith List Lia Bool.
From Verif Require Import PyBase PyVal FormatModel.
Import ListNotations.
Open Scope string_scope.
Open Scope list_scope.
Open Scope Z_scope.

(** A class statement of messages.py: what its body sets ([None] = inherited).
    [cd_id] is the class name (made unique for the two FilterLoad classes). *)
Record class_def : Type := mk_class {
  cd_id : string;
  cd_base : string;
  cd_command : option string;
  cd_name : option string;
  cd_not_regist : option bool;
  cd_props : option (list (string * ft))
}.

(** A class statement, with the attributes in the order used below. *)
Definition cls (id base cmd : string) (name : option string) (nr : option bool)
  (props : option (list (string * ft))) : class_def :=
  mk_class id base (Some cmd) name nr props.

(** messages.py:117-323, in source order. *)
Definition class_defs : list class_def :=
  [ (* 46-61 *) mk_class "Message" "CompoundType" None None (Some false) (Some []);
    (* 117-130 *) cls "Version" "Message" "version" None None (Some
      [ ("version", FNumber Fi false false);
        ("services", FNumber FQ false false);
        ("timestamp", FNumber Fq false true);
        ("addr_recv", FtNetworkAddressNoTimestamp);
        ("addr_from", FtNetworkAddressNoTimestamp);
        ("nonce", FBytes 8);
        ("user_agent", FVarStr);
        ("start_height", FNumber Fi false false);
        ("relay", FOptional (FNumber FB false false) (VBool true)) ]);
    (* 138-140 *) cls "VersionAck" "Message" "verack" (Some "version_ack") None None;
    (* 142-148 *) cls "Address" "Message" "addr" (Some "address") None (Some
      [ ("addr_list", FArray FtNetworkAddress None (Some 1000)) ]);
    (* 153-159 *) cls "Inventory" "Message" "inv" (Some "inventory") None (Some
      [ ("inventory", FArray FtInventoryVector None (Some 50000)) ]);
    (* 164-166 *) cls "GetData" "Inventory" "getdata" (Some "get_data") None None;
    (* 168-170 *) cls "NotFound" "Inventory" "notfound" (Some "not_found") None None;
    (* 172-180 *) cls "GetBlocks" "Message" "getblocks" (Some "get_blocks") None (Some
      [ ("version", FNumber FI false false);
        ("block_locator_hashes", FArray (FBytes 32) (Some 1) None);
        ("hash_stop", FBytes 32) ]);
    (* 185-187 *) cls "GetHeaders" "GetBlocks" "getheaders" (Some "get_headers") None None;
    (* 189-198 *) cls "Transaction" "Message" "tx" (Some "transaction") None (Some
      [ ("version", FNumber FI false false);
        ("tx_in", FArray FtTxnIn (Some 1) None);
        ("tx_out", FArray FtTxnOut (Some 1) None);
        ("lock_time", FNumber FI false false) ]);
    (* 203-214 *) cls "Block" "Message" "block" None None (Some
      [ ("version", FNumber FI false false);
        ("prev_block", FBytes 32);
        ("merkle_root", FBytes 32);
        ("timestamp", FNumber FI false true);
        ("bits", FNumber FI false false);
        ("nonce", FNumber FI false false);
        ("txns", FArray FtTxn None None) ]);
    (* 227-232 *) cls "Headers" "Message" "headers" None None (Some
      [ ("headers", FArray FtBlockHeader None None) ]);
    (* 237-239 *) cls "GetAddress" "VersionAck" "getaddr" (Some "get_address") None None;
    (* 241-243 *) cls "MemoryPool" "VersionAck" "mempool" (Some "memory_pool") None None;
    (* 245-250 *) cls "Ping" "Message" "ping" None None (Some [ ("nonce", FBytes 8) ]);
    (* 255-256 *) cls "Pong" "Ping" "pong" None None None;
    (* 258-265 *) cls "Reject" "Message" "reject" None None (Some
      [ ("message", FVarStr); ("ccode", FNumber FB false false); ("reason", FVarStr) ]);
    (* 270-281 *) cls "FilterLoad" "Message" "filterload" (Some "filter_load") (Some true) (Some
      [ ("filter", FArray (FNumber FB false false) None None);
        ("n_hashes_func", FNumber FI false false);
        ("n_tweak", FNumber FI false false);
        ("n_flags", FNumber FB false false) ]);
    (* 283-291 *) cls "FilterLoad'" "Message" "filteradd" (Some "filter_add") (Some true) (Some
      [ ("data", FVarStr) ]);
    (* 293-297 *) cls "FilterClear" "VersionAck" "filterclear" (Some "filter_clear") (Some true) None;
    (* 299-315 *) cls "MerkleBlock" "Message" "merkleblock" (Some "merkle_block") (Some true) (Some
      [ ("version", FNumber FI false false);
        ("prev_block", FBytes 32);
        ("merkle_root", FBytes 32);
        ("timestamp", FNumber FI false true);
        ("bits", FNumber FI false false);
        ("nonce", FNumber FI false false);
        ("total_transactions", FNumber FI false false);
        ("hashes", FArray (FBytes 32) None None);
        ("flags", FArray (FNumber Fb false false) None None) ]);
    (* 317-323 *) cls "Alert" "Message" "alert" None None (Some
      [ ("payload", FVarStr); ("signature", FVarStr) ]) ].

(** The class of a name; names of messages.py are unique. *)
Fixpoint find_class (id : string) (l : list class_def) : option class_def :=
  match l with
  | [] => None
  | d :: r => if String.eqb id (cd_id d) then Some d else find_class id r
  end.

(** Python attribute lookup along the single-inheritance chain; the chains of
    messages.py have length at most three. *)
Fixpoint inherit {A} (fuel : nat) (get : class_def -> option A) (id : string) : option A :=
  match fuel with
  | O => None
  | S k => match find_class id class_defs with
           | None => None
           | Some d => match get d with
                       | Some a => Some a
                       | None => inherit k get (cd_base d)
                       end
           end
  end.

(** A message class with its attributes resolved. *)
Record msg_type : Type := mk_msg_type {
  mt_id : string;
  mt_command : string;
  mt_name : string;     (* messages.py:110-112: defaults to the command *)
  mt_props : list (string * ft)
}.

(** messages.py:110-112: the attributes a class has after inheritance. *)
Definition resolve (d : class_def) : option msg_type :=
  match cd_command d with
  | None => None
  | Some c => Some (mk_msg_type (cd_id d) c
      (match inherit 4 cd_name (cd_id d) with Some n => n | None => c end)
      (match inherit 4 cd_props (cd_id d) with Some p => p | None => [] end))
  end.

(** format.py:51-55 [_AutoRegister.__init__]: whether defining [d] registers
    it.  [hasattr(base,'register')] holds for Message and its descendants; the
    test of line 53 reads [not_regist] of the *base*, not of the class. *)
Definition registers (d : class_def) : bool :=
  match find_class (cd_base d) class_defs with
  | None => false                       (* base is CompoundType: no register *)
  | Some b => match inherit 4 cd_not_regist (cd_id b) with
              | Some nr => negb nr
              | None => false
              end
  end.

(** messages.py:73-77: the registry after the module has been executed. *)
Definition all_types : list msg_type :=
  flat_map (fun d => match resolve d with Some t => [t] | None => [] end) class_defs.
(** messages.py:73-77: the classes registered, in order. *)
Definition registry : list msg_type :=
  flat_map (fun d => if registers d then
                       match resolve d with Some t => [t] | None => [] end
                     else []) class_defs.

(** [MessageTypes.get(command)]: the last registration of a command wins. *)
Definition lookup_command (command : text) : option msg_type :=
  find (fun t => bytes_eqb (bs (mt_command t)) command) (rev registry).

(** A message object: its class and its [_properties]. *)
Record message : Type := mk_message {
  m_type : msg_type;
  m_fields : list (string * pyval)
}.

(** format.py:61-87 applied to a message class. *)
Definition new_message (t : msg_type) (args : list pyval) (kw : list (string * pyval))
  : res message :=
  let! v := construct (mt_id t) (mt_props t) args kw in
  match v with
  | VObj _ fs => Ok (mk_message t fs)
  | _ => Raise TypeError
  end.

Section WithHash.
(** [hashlib.sha256(x).digest()]. *)
Variable sha256 : bytes -> bytes.

(** util/hash.py:35-36. *)
Definition sha256d (x : bytes) : bytes := sha256 (sha256 x).

(** messages.py:69-70: command padded to 12 bytes. *)
Definition pad_command (c : bytes) : bytes := c ++ repeat 0 (12 - List.length c).

(** messages.py:66-71 [Message.binary(magic)]. *)
Definition msg_binary (m : message) (magic : bytes) : res bytes :=
  let! payload := fields_binary (mt_props (m_type m)) (m_fields m) in
  let checksum := ztake 4 (sha256d payload) in
  let! len := struct_pack FI false (zlen payload) in
  Ok (magic ++ pad_command (bs (mt_command (m_type m))) ++ len ++ checksum ++ payload).

(** messages.py:80-83 [Message.first_msg_len]. *)
Definition first_msg_len (data : bytes) : option Z :=
  if zlen data <? 20 then None
  else match struct_unpack FI false (slice 16 20 data) with
       | Ok n => Some (n + 24)
       | Raise _ => None                (* cannot happen: the slice has 4 bytes *)
       end.

(** [data.strip(b'\x00')]. *)
Fixpoint lstrip0 (s : bytes) : bytes :=
  match s with
  | 0 :: r => lstrip0 r
  | _ => s
  end.
(** messages.py:100. *)
Definition strip0 (s : bytes) : bytes := rev (lstrip0 (rev (lstrip0 s))).

(** messages.py:86-108 [Message.parse(data, magic)]. *)
Definition msg_parse (data magic : bytes) : res message :=
  if negb (bytes_eqb (slice 0 4 data) magic) then Raise MsgFormatError
  else
    let! length := struct_unpack FI false (slice 16 20 data) in
    let payload := slice 24 (24 + length) data in
    let checksum := ztake 4 (sha256d payload) in
    if negb (bytes_eqb (slice 20 24 data) checksum) then Raise MsgFormatError
    else
      let command := strip0 (slice 4 16 data) in
      match lookup_command command with
      | None => Raise UnknownMsgError
      | Some t => let! (_, fs) := fields_parse (mt_props t) 0 payload in
                  Ok (mk_message t fs)
      end.

End WithHash.

(** ** Alert payload *)

(** messages.py:360 [struct.unpack('<iqqii', data[0:28])]. *)
Definition alert_head (head : bytes) : res (Z * Z * Z * Z * Z) :=
  if negb (zlen head =? 28) then Raise StructError else
  let! v := struct_unpack Fi false (slice 0 4 head) in
  let! r := struct_unpack Fq false (slice 4 12 head) in
  let! e := struct_unpack Fq false (slice 12 20 head) in
  let! i := struct_unpack Fi false (slice 20 24 head) in
  let! c := struct_unpack Fi false (slice 24 28 head) in
  Ok (v, r, e, i, c).

(** messages.py:374 [struct.unpack('<ii', data[offset:offset+8])]. *)
Definition alert_vers (vers : bytes) : res (Z * Z) :=
  if negb (zlen vers =? 8) then Raise StructError else
  let! minver := struct_unpack Fi false (slice 0 4 vers) in
  let! maxver := struct_unpack Fi false (slice 4 8 vers) in
  Ok (minver, maxver).

(** messages.py:353-403: fills the cache [_data] from the payload.  The result
    is the dictionary built so far and the exception that stopped the parsing,
    if any (the dictionary keeps what was stored before the exception). *)
Definition alert_fill (data : bytes) : list (string * pyval) * option exn :=
  match alert_head (slice 0 28 data) with
  | Raise e => ([], Some e)
  | Ok (v, r, e, i, c) =>
  let d := [("version", VInt v); ("relay_until", VInt r); ("expiration", VInt e);
            ("id", VInt i); ("cancel", VInt c)] in
  let offset := 28 in
  match parse_var_set (parse (FNumber Fi false false)) (zdrop offset data) with (* 369 *)
  | Raise e => (d, Some e)
  | Ok (vl, s) =>
  let d := d ++ [("set_cancel", VList s)] in
  let offset := offset + vl in
  match alert_vers (slice offset (offset + 8) data) with
  | Raise e => (d, Some e)
  | Ok (minver, maxver) =>
  let d := d ++ [("min_ver", VInt minver); ("max_ver", VInt maxver)] in
  let offset := offset + 8 in
  match parse_var_set (parse FVarStr) (zdrop offset data) with (* 380 *)
  | Raise e => (d, Some e)
  | Ok (vl, s) =>
  let d := d ++ [("set_sub_ver", VList s)] in
  let offset := offset + vl in
  match struct_unpack Fi false (slice offset (offset + 4) data) with (* 385 *)
  | Raise e => (d, Some e)
  | Ok p =>
  let d := d ++ [("priority", VInt p)] in
  let offset := offset + 4 in
  match varstr_parse (zdrop offset data) with (* 390 *)
  | Raise e => (d, Some e)
  | Ok (vl, c) =>
  let d := d ++ [("comment", c)] in
  let offset := offset + vl in
  match varstr_parse (zdrop offset data) with (* 395 *)
  | Raise e => (d, Some e)
  | Ok (vl, s) =>
  let d := d ++ [("status_bar", s)] in
  let offset := offset + vl in
  match varstr_parse (zdrop offset data) with (* 401 *)
  | Raise e => (d, Some e)
  | Ok (_, r) => (d ++ [("reserved", r)], None)
  end end end end end end end end.

(** messages.py:348-405 [Alert._parse_and_get(name)]: [cache] is [_data] (empty
    when missing); returns the outcome and the new cache. *)
Definition alert_get (payload : bytes) (cache : list (string * pyval)) (name : string)
  : res pyval * list (string * pyval) :=
  let (cache', err) := if is_nil cache then alert_fill payload else (cache, None) in
  match err with
  | Some e => (Raise e, cache')
  | None => (match assoc name cache' with Some v => Ok v | None => Raise KeyError end, cache')
  end.
