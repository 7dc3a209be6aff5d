(** X.690 tag-length-value encodings as relations, for C76.  Independent of
    the model of the decoders. *)
From Coq Require Import ZArith List.
From Verif Require Import PyBase.
Import ListNotations.
Open Scope list_scope.
Open Scope Z_scope.

(** Length octets (8.1.3): one byte below 128, or 128 + k followed by the k
    bytes of the length, 1 <= k < 128, leading zeros allowed (BER). *)
Inductive length_octets : bytes -> Z -> Prop :=
| length_short n : 0 <= n < 128 -> length_octets [n] n
| length_long ds : 1 <= zlen ds < 128 -> length_octets (128 + zlen ds :: ds) (be_val ds).
(** [s] is a value with this tag and content, followed by [rest]. *)
Definition tlv (tag : Z) (content rest s : bytes) : Prop :=
  exists h, length_octets h (zlen content) /\ s = tag :: h ++ content ++ rest.
(** [s] is a value with this tag whose content is cut short. *)
Definition cut_tlv (tag : Z) (content s : bytes) : Prop :=
  exists h n, length_octets h n /\ zlen content < n /\ s = tag :: h ++ content.
(** The content octets of an INTEGER (8.3), non-negative or any: the value of
    a negative one is that of the bytes minus a power of 256. *)
Inductive integer_octets : bytes -> Z -> Prop :=
| integer_nonnegative x c : 0 <= x < 128 -> integer_octets (x :: c) (be_val (x :: c))
| integer_negative x c : 128 <= x < 256 -> integer_octets (x :: c) (be_val (x :: c) - 256 ^ zlen (x :: c)).
(** A signature: SEQUENCE of two INTEGERs, nothing left over (RFC 3279). *)
Definition signature_octets (r s : Z) (sig : bytes) : Prop :=
  exists body cr cs rest, tlv 48 body [] sig /\ tlv 2 cr rest body /\ tlv 2 cs [] rest /\ integer_octets cr r /\ integer_octets cs s.
(** The same, when bytes at the end of the signature or of the sequence may be
    missing. *)
Definition cut_signature_octets (r s : Z) (sig : bytes) : Prop :=
  exists body cr cs rest, (tlv 48 body [] sig \/ cut_tlv 48 body sig) /\ tlv 2 cr rest body /\ (tlv 2 cs [] rest \/ cut_tlv 2 cs rest) /\
    integer_octets cr r /\ integer_octets cs s.
