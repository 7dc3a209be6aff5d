(** Alert.verify of nbc/protocol/messages.py (Python 3). *)
From Coq Require Import String ZArith List Bool.
From Verif Require Import PyBase PyVal FormatModel MessagesModel NodeModel DerModel EcModel KeyModel.
Import ListNotations.
Open Scope string_scope.
Open Scope list_scope.
Open Scope Z_scope.

(** messages.py:317-323: the class. *)
Definition t_alert : msg_type := type_of "Alert".
(** messages.py:407-408 [Alert.verify(public_key)] with ecc.py:81-91: the key is
    read first; then a text (str) as payload cannot be hashed, nor one as
    signature be taken apart: TypeError. *)
Definition alert_verify (sha256 : bytes -> bytes) (m : message) (public_key : bytes) : res bool :=
  let! payload := field "payload" (m_fields m) in
  let! signature := field "signature" (m_fields m) in
  match payload, signature with
  | VBytes p, VBytes s => ecc_verify sha256 p public_key s
  | _, _ => match decompress_with (cv_gen SECP256k1) public_key with
            | Raise ValueError => Ok false
            | Raise e => Raise e
            | Ok k => let! _ := vk_from_string SECP256k1 (zdrop 1 k) in Raise TypeError
            end
  end.
