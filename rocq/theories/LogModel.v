(** Model of the message logging of nbc/node/connection.py and of the
    renderings it calls: [__str__] and [str] of format.py, [__str__] and
    [_debug] of messages.py (Python 3 semantics).  The text itself only goes to
    the log stream, so a rendering is modelled by whether it raises.  The log
    stream is assumed to accept every text. *)
From Coq Require Import String ZArith List Lia Bool.
From Verif Require Import PyBase PyVal FormatModel MessagesModel NodeModel.
Import ListNotations.
Open Scope string_scope.
Open Scope list_scope.
Open Scope Z_scope.

(** [hexlify(obj)]. *)
Definition hexlify_ok (v : pyval) : res unit :=
  match v with VBytes _ => Ok tt | _ => Raise TypeError end.

(** Whether [vt.str(obj)] is a bytes object: format.py:344-345 builds
    [b'0x' + hexlify(obj)]; an optional field renders as its child (181-182). *)
Fixpoint str_is_bytes (t : ft) : bool :=
  match t with FBytes _ => true | FOptional c _ => str_is_bytes c | _ => false end.

(** str of every field type: format.py:108-112, 126-127, 150-152, 181-182,
    255-256, 344-345, 373-374, 402-403.  [", ".join] accepts text items only
    and looks at them after all have been rendered. *)
Fixpoint str_ft (t : ft) (v : pyval) {struct t} : res unit :=
  let fields := fix fields (ps : list (string * ft)) (fs : list (string * pyval)) : res unit :=
    match ps with
    | [] => Ok tt
    | (k, vt) :: r =>
        match assoc k fs with
        | None => Raise KeyError
        | Some x => let! _ := str_ft vt x in fields r fs
        end
    end in
  match t with
  | FNumber _ _ _ | FVarInt | FIP | FVarStr => Ok tt
  | FBytes _ => hexlify_ok v
  | FArray child _ _ =>
      match v with
      | VList l | VTuple l =>
          let! _ := sequence (map (str_ft child) l) in
          if str_is_bytes child && negb (is_nil l) then Raise TypeError else Ok tt
      | _ => Raise TypeError
      end
  | FCompound _ props | FCompoundNoTs _ props =>
      match v with VObj _ fs => fields props fs | _ => Ok tt end
  | FOptional child _ => str_ft child v
  end.
(** format.py:108-112 [CompoundType.__str__]. *)
Fixpoint str_fields (ps : list (string * ft)) (fs : list (string * pyval)) : res unit :=
  match ps with
  | [] => Ok tt
  | (k, vt) :: r =>
      match assoc k fs with
      | None => Raise KeyError
      | Some x => let! _ := str_ft vt x in str_fields r fs
      end
  end.

(** [obj.name] of a property. *)
Definition prop (k : string) (fs : list (string * pyval)) : res pyval :=
  match assoc k fs with Some v => Ok v | None => Raise KeyError end.

(** messages.py:16-41 [_debug]: one parameter of the list.  Of a list or tuple
    the first item is shown, if there is one.  The properties of the classes
    NetworkAddress, InventoryVector, Txn and BlockHeader are those of
    format.py:408-512; [Txn.hash] and [BlockHeader.hash] serialise the object
    (479-483, 507-511); every other value is rendered by [str]. *)
Definition debug_value (v : pyval) : res unit :=
  match v with
  | VObj c fs =>
      if String.eqb c "NetworkAddress" then
        let! _ := prop "address" fs in
        let! port := prop "port" fs in
        match port with VInt _ | VBool _ | VFloat _ => Ok tt | _ => Raise TypeError end
      else if String.eqb c "InventoryVector" then
        let! t := prop "object_type" fs in
        let! h := prop "hash" fs in
        let! _ := match t with
                  | VInt z => if (z <=? 2) && (z <? -3) then Raise IndexError else Ok tt
                  | VBool _ => Ok tt
                  | _ => Raise TypeError
                  end in
        hexlify_ok h
      else if String.eqb c "Txn" then let! _ := fields_binary Txn_props fs in Ok tt
      else if String.eqb c "BlockHeader" then let! _ := fields_binary BlockHeader_props fs in Ok tt
      else if String.eqb c "TxnIn" then str_fields TxnIn_props fs
      else if String.eqb c "TxnOut" then str_fields TxnOut_props fs
      else if String.eqb c "OutPoint" then str_fields OutPoint_props fs
      else Ok tt
  | _ => Ok tt
  end.
(** messages.py:19-39: one parameter. *)
Definition debug_param (v : pyval) : res unit :=
  match v with
  | VList (x :: _) | VTuple (x :: _) => debug_value x
  | _ => debug_value v
  end.
(** messages.py:16-41: the loop over the parameters. *)
Fixpoint debug_params (ks : list string) (fs : list (string * pyval)) : res unit :=
  match ks with
  | [] => Ok tt
  | k :: r => let! v := prop k fs in let! _ := debug_param v in debug_params r fs
  end.

(** util/__init__.py:66-67 on property values: [struct.pack] with format I
    takes integers only, with format 32s bytes only. *)
Definition pack_int (v : pyval) : res bytes :=
  match v with
  | VInt z => struct_pack FI false z
  | VBool b => struct_pack FI false (Z.b2z b)
  | _ => Raise StructError
  end.
(** [struct.pack] with format 32s, util/__init__.py:66-67. *)
Definition pack_bytes (v : pyval) : res bytes :=
  match v with
  | VBytes s => Ok (ztake 32 (s ++ repeat 0 32))
  | _ => Raise StructError
  end.
(** util/__init__.py:66-67 [get_block_header] on property values. *)
Definition debug_header (fs : list (string * pyval)) : res bytes :=
  let! version := prop "version" fs in
  let! prev := prop "prev_block" fs in
  let! root := prop "merkle_root" fs in
  let! timestamp := prop "timestamp" fs in
  let! bits := prop "bits" fs in
  let! nonce := prop "nonce" fs in
  let! a := pack_int version in
  let! b := pack_bytes prev in
  let! c := pack_bytes root in
  let! d := pack_int timestamp in
  let! e := pack_int bits in
  let! f := pack_int nonce in
  Ok (a ++ b ++ c ++ d ++ e ++ f).

(** messages.py:348-405: a property of an alert whose [payload] is a stored
    value: [struct.unpack] takes bytes only. *)
Definition alert_read (fs : list (string * pyval)) (cache : list (string * pyval)) (name : string)
  : res (pyval * list (string * pyval)) :=
  let! payload := prop "payload" fs in
  match payload with
  | VBytes data => let (o, cache') := alert_get data cache name in
                   let! v := o in Ok (v, cache')
  | _ => Raise TypeError
  end.
(** messages.py:348-405: several properties of an alert, one after the other. *)
Fixpoint alert_read_all (fs cache : list (string * pyval)) (names : list string)
  : res (list (string * pyval)) :=
  match names with
  | [] => Ok cache
  | n :: r => let! (_, cache') := alert_read fs cache n in alert_read_all fs cache' r
  end.
(** messages.py:410-411 [Alert.__str__]: the properties are read in this order;
    [", ".join(self.set_sub_ver)] joins bytes objects. *)
Definition alert_str (fs : list (string * pyval)) : res unit :=
  let! cache := alert_read_all fs [] ["version"; "relay_until"; "expiration"; "id"; "cancel"; "set_cancel"; "min_ver"; "max_ver"] in
  let! (subs, cache) := alert_read fs cache "set_sub_ver" in
  let! _ := match subs with VList (_ :: _) => Raise TypeError | _ => Ok tt end in
  let! _ := alert_read_all fs cache ["priority"; "comment"; "status_bar"; "reserved"] in
  Ok tt.

(** [str(message)]: format.py:108-112, overridden by messages.py:410-411. *)
Definition msg_str (m : message) : res unit :=
  if String.eqb (mt_id (m_type m)) "Alert" then alert_str (m_fields m)
  else str_fields (mt_props (m_type m)) (m_fields m).

(** [message._debug()]: messages.py:114-115 and the overriding methods 132-136,
    150-151, 161-162, 182-183, 200-201, 222-225, 234-235, 252-253, 267-268,
    413-414; inherited by GetData, NotFound, GetHeaders and Pong. *)
Definition msg_debug (m : message) : res unit :=
  let fs := m_fields m in
  let is (l : list string) := existsb (String.eqb (mt_id (m_type m))) l in
  if is ["Version"] then debug_params ["version"; "services"; "user_agent"; "start_height"] fs
  else if is ["Address"] then debug_params ["addr_list"] fs
  else if is ["Inventory"; "GetData"; "NotFound"] then debug_params ["inventory"] fs
  else if is ["GetBlocks"; "GetHeaders"] then
    let! l := prop "block_locator_hashes" fs in
    match l with
    | VList l | VTuple l => let! _ := sequence (map hexlify_ok l) in Ok tt
    | _ => Raise TypeError
    end
  else if is ["Transaction"] then debug_params ["tx_in"; "tx_out"] fs
  else if is ["Block"] then let! _ := debug_header fs in debug_params ["txns"] fs
  else if is ["Headers"] then debug_params ["headers"] fs
  else if is ["Ping"; "Pong"] then let! n := prop "nonce" fs in hexlify_ok n
  else if is ["Reject"] then debug_params ["message"; "reason"] fs
  else if is ["Alert"] then let! _ := alert_read fs [] "status_bar" in Ok tt
  else Ok tt.

(** basenode.py:27-31. *)
Definition LOG_LEVEL_PROTOCOL := 0.
(** basenode.py:28. *)
Definition LOG_LEVEL_DEBUG := 1.
(** basenode.py:30. *)
Definition LOG_LEVEL_ERROR := 3.

(** connection.py:187-191 and 214-218. *)
Definition log_message (level : Z) (m : message) : res unit :=
  if level <=? LOG_LEVEL_PROTOCOL then msg_str m
  else if level <=? LOG_LEVEL_DEBUG then msg_debug m
  else Ok tt.

Section Logged.
Variable sha256 : bytes -> bytes.
Variable py2 : bool.
Variable cf : config.

(** connection.py:213-220 at any log level. *)
Definition send_logged (level : Z) (i : nat) (m : message) : M unit :=
  do! _ := liftM (log_message level m) in send_message sha256 cf i m.
(** connection.py:186-211 at any log level. *)
Definition handle_logged (level : Z) (i : nat) (m : message) (now : Z) : M unit :=
  do! _ := liftM (log_message level m) in handle_message sha256 py2 cf i m now.
End Logged.
