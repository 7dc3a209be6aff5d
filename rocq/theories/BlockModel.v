(** Model of the constructors from block objects: nbc/protocol/format.py and
    nbc/protocol/messages.py, [from_block]. *)
From Coq Require Import String ZArith List Lia Bool.
From Verif Require Import PyBase PyVal FormatModel MessagesModel NodeModel.
Import ListNotations.
Open Scope string_scope.
Open Scope list_scope.
Open Scope Z_scope.

(** The attributes read from a block object. *)
Record block_obj : Type := mk_block {
  bo_version : pyval; bo_previous_hash : pyval; bo_merkle_root : pyval; bo_timestamp : pyval;
  bo_bits : pyval; bo_nonce : pyval; bo_transactions : pyval }.
(** Python's [len]. *)
Definition py_len (v : pyval) : res Z :=
  match v with
  | VList l | VTuple l => Ok (zlen l)
  | VBytes s | VStr s => Ok (zlen s)
  | _ => Raise TypeError
  end.
(** format.py:501-505 [BlockHeader.from_block]. *)
Definition header_from_block (b : block_obj) : res pyval :=
  let! n := py_len (bo_transactions b) in
  construct "BlockHeader" BlockHeader_props
    [bo_version b; bo_previous_hash b; bo_merkle_root b; bo_timestamp b; bo_bits b; bo_nonce b; VInt n] [].
(** messages.py:216-220 [Block.from_block]. *)
Definition block_from_block (b : block_obj) : res message :=
  new_message (type_of "Block")
    [bo_version b; bo_previous_hash b; bo_merkle_root b; bo_timestamp b; bo_bits b; bo_nonce b; bo_transactions b] [].
