(** Model of the text of the log lines a node writes about messages:
    nbc/node/connection.py:186-191 and 213-218, nbc/node/basenode.py:118-125,
    and the renderings they call: [__str__] and [str] of format.py, [__str__]
    and [_debug] of messages.py, on Python 2 and Python 3.  LogModel.v says
    which of these renderings raise. *)
From Coq Require Import String ZArith List Lia Bool.
From Verif Require Import PyBase PyVal FormatModel MessagesModel UtilModel SeedModel NodeModel LogModel.
Import ListNotations.
Open Scope string_scope.
Open Scope list_scope.
Open Scope Z_scope.

(** [sep.join(parts)]. *)
Fixpoint join_text (sep : text) (parts : list text) : text :=
  match parts with
  | [] => []
  | [p] => p
  | p :: r => p ++ sep ++ join_text sep r
  end.

(** [str(z)] and ['%d' % z] of an integer. *)
Definition int_text (z : Z) : text :=
  if z <? 0 then 45 :: text_of_int 10 (- z) else text_of_int 10 z.

Section Text.
Variable sha256 : bytes -> bytes.     (* hashlib.sha256 *)
Variable py2 : bool.                  (* running on Python 2 *)
Variable odd : pyval -> text.         (* str and repr of any other value *)

(** [repr(b)] of a byte string (SeedModel.v); Python 2 puts no [b] in front. *)
Definition repr_of (b : bytes) : text := if py2 then tl (repr_bytes b) else repr_bytes b.

(** What a rendering returns: text, or a byte string. *)
Inductive piece : Type := PText (t : text) | PBytes (b : bytes).
(** ['%s' % p]: on Python 3 a byte string is shown as its [repr]. *)
Definition render (p : piece) : text :=
  match p with PText t => t | PBytes b => if py2 then b else repr_of b end.

(** [str(v)], format.py:126-127, of a value that is no CompoundType. *)
Definition value_text (v : pyval) : text :=
  match v with
  | VInt z => int_text z
  | VBool b => bs (if b then "True" else "False")
  | VStr s => s
  | VBytes b => render (PBytes b)
  | _ => odd v
  end.
(** [repr(v)], format.py:373-374. *)
Definition repr_text (v : pyval) : text :=
  match v with VBytes b => repr_of b | _ => odd v end.

(** [", ".join(parts)]: Python 3 refuses byte strings, after all items have been
    rendered. *)
Definition join_pieces (ps : list piece) : res text :=
  if negb py2 && existsb (fun p => match p with PBytes _ => true | PText _ => false end) ps
  then Raise TypeError else Ok (join_text (bs ", ") (map render ps)).

(** str of every field type: format.py:108-112, 126-127, 150-152, 181-182,
    255-256, 344-345, 373-374, 402-403.  The name of a compound object is that of
    its class (49, 109). *)
Fixpoint ft_text (t : ft) (v : pyval) {struct t} : res piece :=
  let fields := fix fields (ps : list (string * ft)) (fs : list (string * pyval)) : res text :=
    match ps with
    | [] => Ok []
    | (k, vt) :: r =>
        match assoc k fs with
        | None => Raise KeyError
        | Some x => let! p := ft_text vt x in
                    let! rest := fields r fs in
                    Ok (bs " " ++ bs k ++ bs "=" ++ render p ++ rest)
        end
    end in
  match t with
  | FNumber _ _ _ | FVarInt | FIP => Ok (PText (value_text v))
  | FVarStr => Ok (PText (repr_text v))
  | FBytes _ => match v with
                | VBytes b => Ok (PBytes (bs "0x" ++ hex_encode b))
                | _ => Raise TypeError
                end
  | FArray child _ _ =>
      match v with
      | VList l | VTuple l =>
          let! ps := sequence (map (ft_text child) l) in
          let! s := join_pieces ps in
          Ok (PText (bs "[" ++ s ++ bs "]"))
      | _ => Raise TypeError
      end
  | FCompound _ props | FCompoundNoTs _ props =>
      match v with
      | VObj c fs => let! s := fields props fs in Ok (PText (bs "<" ++ bs c ++ s ++ bs ">"))
      | _ => Ok (PText (value_text v))
      end
  | FOptional child _ => ft_text child v
  end.
(** format.py:110-111: the loop of [CompoundType.__str__]. *)
Fixpoint fields_text (ps : list (string * ft)) (fs : list (string * pyval)) : res text :=
  match ps with
  | [] => Ok []
  | (k, vt) :: r =>
      match assoc k fs with
      | None => Raise KeyError
      | Some x => let! p := ft_text vt x in
                  let! rest := fields_text r fs in
                  Ok (bs " " ++ bs k ++ bs "=" ++ render p ++ rest)
      end
  end.
(** format.py:108-112 [CompoundType.__str__]. *)
Definition compound_text (c : string) (ps : list (string * ft)) (fs : list (string * pyval)) : res text :=
  let! s := fields_text ps fs in Ok (bs "<" ++ bs c ++ s ++ bs ">").

(** [hexlify(v)]. *)
Definition hexlify (v : pyval) : res bytes :=
  match v with VBytes b => Ok (hex_encode b) | _ => Raise TypeError end.

(** [if v], messages.py:25; instances of CompoundType are true. *)
Definition truthy (v : pyval) : bool :=
  match v with
  | VNone => false
  | VInt z => negb (z =? 0)
  | VBool b => b
  | VStr s => negb (is_nil s)
  | VBytes b => negb (is_nil b)
  | VList l | VTuple l => negb (is_nil l)
  | VFloat (FFin m _) => negb (m =? 0)
  | _ => true
  end.

(** messages.py:26-38: the text of one value.  [Txn.hash] and
    [BlockHeader.hash] (format.py:479-483, 507-511) also keep the hash in the
    object, which nothing here reads again. *)
Definition debug_text (v : pyval) : res text :=
  match v with
  | VObj c fs =>
      if String.eqb c "NetworkAddress" then
        let! a := prop "address" fs in
        let! port := prop "port" fs in
        match port with
        | VInt z => Ok (value_text a ++ bs ":" ++ int_text z)
        | VBool b => Ok (value_text a ++ bs ":" ++ int_text (Z.b2z b))
        | VFloat _ => Ok (value_text a ++ bs ":" ++ odd port)
        | _ => Raise TypeError
        end
      else if String.eqb c "InventoryVector" then
        let! t := prop "object_type" fs in
        let! h := prop "hash" fs in
        let! k := match t with
                  | VInt z => if z <=? 2
                              then match z with
                                   | 0 | -3 => Ok (bs "error")
                                   | 1 | -2 => Ok (bs "tx")
                                   | 2 | -1 => Ok (bs "block")
                                   | _ => Raise IndexError
                                   end
                              else Ok (bs "unknown")
                  | VBool b => Ok (bs (if b then "tx" else "error"))
                  | _ => Raise TypeError
                  end in
        let! x := hexlify h in
        Ok (k ++ bs ":" ++ render (PBytes x))
      else if String.eqb c "Txn" then
        let! h := fst (txn_hash (fun b => sha256 (sha256 b)) fs) in
        let! x := hexlify h in Ok (render (PBytes x))
      else if String.eqb c "BlockHeader" then
        let! h := fst (header_hash (fun b => sha256 (sha256 b)) fs) in
        let! x := hexlify h in Ok (render (PBytes x))
      else if String.eqb c "TxnIn" then compound_text c TxnIn_props fs
      else if String.eqb c "TxnOut" then compound_text c TxnOut_props fs
      else if String.eqb c "OutPoint" then compound_text c OutPoint_props fs
      else Ok (odd v)
  | _ => Ok (value_text v)
  end.
(** messages.py:25-39: one value with its label, shown when it is true. *)
Definition debug_item (k : text) (v : pyval) : res text :=
  if truthy v then let! s := debug_text v in Ok (bs " " ++ k ++ bs "=" ++ s) else Ok [].
(** messages.py:19-39: one parameter; a list or tuple is shown by its length and
    its first item. *)
Definition debug_entry (k : string) (v : pyval) : res text :=
  match v with
  | VList l | VTuple l =>
      let n := bs " len(" ++ bs k ++ bs ")=" ++ int_text (zlen l) in
      match l with
      | [] => Ok n
      | x :: _ => let! s := debug_item (bs k ++ bs "[0]") x in Ok (n ++ s)
      end
  | _ => debug_item (bs k) v
  end.
(** messages.py:18-39: the loop over the parameters. *)
Fixpoint debug_entries (params : list (string * pyval)) : res text :=
  match params with
  | [] => Ok []
  | (k, v) :: r => let! s := debug_entry k v in let! rest := debug_entries r in Ok (s ++ rest)
  end.
(** messages.py:16-41 [_debug(obj, params)] for an object of class [c]. *)
Definition debug_line (c : string) (params : list (string * pyval)) : res text :=
  let! s := debug_entries params in Ok (bs "<" ++ bs c ++ s ++ bs ">").
(** The list of parameters, e.g. messages.py:133-136: labels and properties,
    all read before the call. *)
Fixpoint debug_reads (ks : list (string * string)) (fs : list (string * pyval)) : res (list (string * pyval)) :=
  match ks with
  | [] => Ok []
  | (label, k) :: r => let! v := prop k fs in let! vs := debug_reads r fs in Ok ((label, v) :: vs)
  end.

(** messages.py:348-405: several properties of an alert, one after the other. *)
Fixpoint alert_values (fs cache : list (string * pyval)) (names : list string)
  : res (list pyval * list (string * pyval)) :=
  match names with
  | [] => Ok ([], cache)
  | n :: r => let! (v, cache') := alert_read fs cache n in
              let! (vs, cache'') := alert_values fs cache' r in
              Ok (v :: vs, cache'')
  end.
(** messages.py:411 [", ".join(l)] of a list of properties. *)
Definition join_values (v : pyval) : res text :=
  match v with
  | VList l => join_pieces (map (fun x => match x with VBytes b => PBytes b | _ => PText (value_text x) end) l)
  | _ => Ok (odd v)
  end.
(** messages.py:411: the labels of the format string and the texts of the
    values. *)
Definition labelled (l : list (string * text)) : text :=
  flat_map (fun e => bs " " ++ bs (fst e) ++ bs "=" ++ snd e) l.
(** messages.py:410-411 [Alert.__str__]. *)
Definition alert_text (fs : list (string * pyval)) : res text :=
  let! (nums, cache) := alert_values fs [] ["version"; "relay_until"; "expiration"; "id"; "cancel"; "set_cancel"; "min_ver"; "max_ver"] in
  let! (subs, cache) := alert_read fs cache "set_sub_ver" in
  let! subs := join_values subs in
  let! (rest, _) := alert_values fs cache ["priority"; "comment"; "status_bar"; "reserved"] in
  match nums, rest with
  | [v; ru; ex; i; ca; sc; mi; ma], [pr; co; sb; rs] =>
      let cancels := match sc with VList l => join_text (bs ", ") (map value_text l) | _ => odd sc end in
      Ok (bs "<message.Alert" ++
          labelled [("version", value_text v); ("relay_until", value_text ru); ("expiration", value_text ex);
                    ("id", value_text i); ("cancel", value_text ca); ("cancel_set", bs "[" ++ cancels ++ bs "]");
                    ("min_ver", value_text mi); ("maxver", value_text ma); ("set_sub_ver", bs "[" ++ subs ++ bs "]");
                    ("priority", value_text pr); ("comment", repr_text co); ("status_bar", repr_text sb);
                    ("reserverd", repr_text rs)] ++ bs ">")
  | _, _ => Raise TypeError
  end.

(** The name of a class of messages (format.py:49).  Two classes are called
    FilterLoad, messages.py:270 and 283; MessagesModel.v tells them apart by a
    prime. *)
Definition class_name (c : string) : string := if String.eqb c "FilterLoad'" then "FilterLoad" else c.

(** [str(message)]: format.py:108-112, overridden by messages.py:410-411. *)
Definition message_text (m : message) : res text :=
  if String.eqb (mt_id (m_type m)) "Alert" then alert_text (m_fields m)
  else compound_text (class_name (mt_id (m_type m))) (mt_props (m_type m)) (m_fields m).

(** [message._debug()]: messages.py:114-115 and the overriding methods 132-136,
    150-151, 161-162, 182-183, 200-201, 222-225, 234-235, 252-253, 267-268,
    413-414; inherited by GetData, NotFound, GetHeaders and Pong. *)
Definition message_debug (m : message) : res text :=
  let fs := m_fields m in
  let c := mt_id (m_type m) in
  let is (l : list string) := existsb (String.eqb c) l in
  let line ks := let! params := debug_reads ks fs in debug_line c params in
  if is ["Version"] then line [("v", "version"); ("s", "services"); ("ua", "user_agent"); ("sh", "start_height")]
  else if is ["Address"] then line [("a", "addr_list")]
  else if is ["Inventory"; "GetData"; "NotFound"] then line [("i", "inventory")]
  else if is ["GetBlocks"; "GetHeaders"] then
    let! l := prop "block_locator_hashes" fs in
    match l with
    | VList l | VTuple l => let! hs := sequence (map hexlify l) in
                            debug_line c [("blh", VList (map VBytes hs))]
    | _ => Raise TypeError
    end
  else if is ["Transaction"] then line [("in", "tx_in"); ("out", "tx_out")]
  else if is ["Block"] then
    let! h := debug_header fs in
    let! params := debug_reads [("t", "txns")] fs in
    debug_line c (("h", VBytes (hex_encode h)) :: params)
  else if is ["Headers"] then line [("h", "headers")]
  else if is ["Ping"; "Pong"] then
    let! n := prop "nonce" fs in
    let! h := hexlify n in debug_line c [("n", VBytes h)]
  else if is ["Reject"] then line [("m", "message"); ("r", "reason")]
  else if is ["Alert"] then
    let! (s, _) := alert_read fs [] "status_bar" in debug_line c [("s", s)]
  else debug_line (class_name c) [].

(** connection.py:187-191 and 214-218: what is logged of a message, [arrow] being
    ['<<< '] or ['>>> ']; nothing above the level of debugging. *)
Definition log_text (arrow : text) (level : Z) (m : message) : res (option text) :=
  if level <=? LOG_LEVEL_PROTOCOL then let! s := message_text m in Ok (Some (arrow ++ s))
  else if level <=? LOG_LEVEL_DEBUG then let! s := message_debug m in Ok (Some (arrow ++ s))
  else Ok None.
(** basenode.py:121-125: the line written for a [message] of a peer with the
    address [source], or of ['node']; [print_] ends it with a newline. *)
Definition text_line (source message : text) : text :=
  bs "(" ++ source ++ bs ") " ++ message ++ [10].
End Text.
