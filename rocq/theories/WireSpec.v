(** The documented byte layouts of the messages, and the standard texts of
    network addresses, written without reference to the model's encoders. *)
From Coq Require Import String ZArith List Lia Bool.
From Verif Require Import PyBase PyVal FormatSpec.
Import ListNotations.
Open Scope string_scope.
Open Scope list_scope.
Open Scope Z_scope.

(** ** Address texts: RFC 4291 section 2.2, and dotted decimals *)
Definition is_hex (c : Z) : Prop := 48 <= c <= 57 \/ 97 <= c <= 102 \/ 65 <= c <= 70.
Definition hex_digit (c : Z) : Z := if c <=? 57 then c - 48 else if c <=? 70 then c - 55 else c - 87.
Definition hex_group (t : text) : Prop := 1 <= zlen t <= 4 /\ Forall is_hex t.
Definition hex_value (t : text) : Z := fold_left (fun a c => 16 * a + hex_digit c) t 0.
(** One to three decimal digits of value at most 255. *)
Definition dec_group (t : text) : Prop :=
  1 <= zlen t <= 3 /\ Forall (fun c => 48 <= c <= 57) t /\ fold_left (fun a c => 10 * a + (c - 48)) t 0 <= 255.
Definition dec_value (t : text) : Z := fold_left (fun a c => 10 * a + (c - 48)) t 0.
Definition colon : Z := 58.
Definition dot : Z := 46.
Definition groups_bytes (l : list text) : bytes := concat (map (fun t => be_bytes 2 (hex_value t)) l).
Inductive ip_denotes : text -> bytes -> Prop :=
| ip_dotted l : zlen l = 4 -> Forall dec_group l ->
    ip_denotes (join_with dot l) (repeat 0 10 ++ [255; 255] ++ map dec_value l)
| ip_full l : zlen l = 8 -> Forall hex_group l -> ip_denotes (join_with colon l) (groups_bytes l)
| ip_compressed a b : zlen a + zlen b <= 7 -> Forall hex_group a -> Forall hex_group b ->
    ip_denotes (join_with colon a ++ [colon; colon] ++ join_with colon b)
      (groups_bytes a ++ repeat 0 (Z.to_nat (16 - 2 * (zlen a + zlen b))) ++ groups_bytes b).

(** ** Layouts *)
(** [Int n]: n bytes, least significant first; [IntBE n]: most significant
    first; [Compact]: a CompactSize integer; [Raw n]: n bytes; [VarBytes]: a
    CompactSize length and the bytes; [Ip]: a 16-byte address; [Vec]: a
    CompactSize count and the items; [Rec]: the fields in order. *)
Inductive wire : Type :=
| Int (n : nat)
| IntBE (n : nat)
| Compact
| Raw (n : Z)
| VarBytes
| Ip
| Vec (w : wire)
| Rec (fields : list (string * wire)).

(** An encoding of [z] as a CompactSize integer; [canonical] if no shorter one
    exists. *)
Definition compact_size (z : Z) (b : bytes) : Prop :=
  (0 <= z < 0xfd /\ b = [z]) \/ (0 <= z < 2 ^ 16 /\ b = 0xfd :: le_bytes 2 z) \/
  (0 <= z < 2 ^ 32 /\ b = 0xfe :: le_bytes 4 z) \/ (0 <= z < 2 ^ 64 /\ b = 0xff :: le_bytes 8 z).
Definition canonical_size (z : Z) (b : bytes) : Prop := compact_size z b /\ forall b', compact_size z b' -> zlen b <= zlen b'.

(** Bytes held by a string value. *)
Definition content (v : pyval) : option bytes := match v with VBytes s | VStr s => Some s | _ => None end.

Section Encoding.
  (** The integer encoding in use, and the bytes of an address text. *)
  Variable size_ok : Z -> bytes -> Prop.
  Variable ip_ok : text -> bytes -> Prop.
  (** [encodes w v b]: the bytes [b] are the value [v] in layout [w]. *)
  Fixpoint encodes (w : wire) (v : pyval) (b : bytes) {struct w} : Prop :=
    match w with
    | Int n => exists z, num_value v = Some z /\ b = le_bytes n z
    | IntBE n => exists z, num_value v = Some z /\ b = be_bytes n z
    | Compact => exists z, num_value v = Some z /\ size_ok z b
    | Raw n => v = VBytes b /\ zlen b = n
    | VarBytes => exists s p, content v = Some s /\ size_ok (zlen s) p /\ b = p ++ s
    | Ip => exists t, v = VStr t /\ ip_ok t b
    | Vec w => exists l p bs, (v = VList l \/ v = VTuple l) /\ size_ok (zlen l) p /\
        Forall2 (encodes w) l bs /\ b = p ++ concat bs
    | Rec fields => exists c fs, v = VObj c fs /\
        (fix go (fields : list (string * wire)) (b : bytes) : Prop :=
           match fields with
           | [] => b = []
           | (k, w) :: r => exists x b1 b2, assoc k fs = Some x /\ encodes w x b1 /\ go r b2 /\ b = b1 ++ b2
           end) fields b
    end.
  Fixpoint encodes_fields (fields : list (string * wire)) (fs : list (string * pyval)) (b : bytes) : Prop :=
    match fields with
    | [] => b = []
    | (k, w) :: r => exists x b1 b2, assoc k fs = Some x /\ encodes w x b1 /\ encodes_fields r fs b2 /\ b = b1 ++ b2
    end.
End Encoding.

(** ** The protocol documentation *)
Definition w_net_addr : list (string * wire) :=
  [("timestamp", Int 4); ("services", Int 8); ("address", Ip); ("port", IntBE 2)].
Definition w_inv_vect : wire := Rec [("object_type", Int 4); ("hash", Raw 32)].
Definition w_outpoint : wire := Rec [("hash", Raw 32); ("index", Int 4)].
Definition w_txin : wire := Rec [("previous_output", w_outpoint); ("signature_script", VarBytes); ("sequence", Int 4)].
Definition w_txout : wire := Rec [("value", Int 8); ("pk_script", VarBytes)].
Definition w_tx : list (string * wire) := [("version", Int 4); ("tx_in", Vec w_txin); ("tx_out", Vec w_txout); ("lock_time", Int 4)].
(** 80 bytes. *)
Definition w_header80 : list (string * wire) :=
  [("version", Int 4); ("prev_block", Raw 32); ("merkle_root", Raw 32); ("timestamp", Int 4); ("bits", Int 4); ("nonce", Int 4)].
Definition w_version : list (string * wire) :=
  [("version", Int 4); ("services", Int 8); ("timestamp", Int 8);
   ("addr_recv", Rec (tl w_net_addr)); ("addr_from", Rec (tl w_net_addr));
   ("nonce", Raw 8); ("user_agent", VarBytes); ("start_height", Int 4); ("relay", Int 1)].
Definition w_locator : list (string * wire) :=
  [("version", Int 4); ("block_locator_hashes", Vec (Raw 32)); ("hash_stop", Raw 32)].
Definition documented : list (string * list (string * wire)) :=
  [ ("version", w_version);
    ("verack", []);
    ("addr", [("addr_list", Vec (Rec w_net_addr))]);
    ("inv", [("inventory", Vec w_inv_vect)]);
    ("getdata", [("inventory", Vec w_inv_vect)]);
    ("notfound", [("inventory", Vec w_inv_vect)]);
    ("getblocks", w_locator);
    ("getheaders", w_locator);
    ("tx", w_tx);
    ("block", w_header80 ++ [("txns", Vec (Rec w_tx))]);
    ("headers", [("headers", Vec (Rec (w_header80 ++ [("txn_count", Compact)])))]);
    ("getaddr", []);
    ("mempool", []);
    ("ping", [("nonce", Raw 8)]);
    ("pong", [("nonce", Raw 8)]);
    ("reject", [("message", VarBytes); ("ccode", Int 1); ("reason", VarBytes)]);
    ("filterload", [("filter", Vec (Int 1)); ("n_hashes_func", Int 4); ("n_tweak", Int 4); ("n_flags", Int 1)]);
    ("filteradd", [("data", VarBytes)]);
    ("filterclear", []);
    ("merkleblock", w_header80 ++ [("total_transactions", Int 4); ("hashes", Vec (Raw 32)); ("flags", Vec (Int 1))]);
    ("alert", [("payload", VarBytes); ("signature", VarBytes)]) ].
