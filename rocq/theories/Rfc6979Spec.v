(** Specification of the deterministic nonce, transcribed from RFC 6979,
    sections 2.3 and 3.2, for a group order [q] and any HMAC. *)
From Coq Require Import ZArith List.
From Verif Require Import PyBase.
Import ListNotations.
Open Scope list_scope.
Open Scope Z_scope.

Section Rfc.
  Variable HMAC : bytes -> bytes -> bytes.
  Variable hlen : nat.                       (* bytes of a hash *)
  Variable q : Z.
  (** 2.1: the length of q in bits, and 2.3.3: in bytes. *)
  Definition qlen : Z := Z.log2 q + 1.
  Definition rlen : nat := Z.to_nat ((qlen + 7) / 8).
  (** 2.3.2: the leftmost qlen bits, or all of them if there are fewer. *)
  Definition spec_bits2int (s : bytes) : Z := be_val s / 2 ^ Z.max 0 (8 * zlen s - qlen).
  (** 2.3.3. *)
  Definition int2octets (x : Z) : bytes := be_bytes rlen x.
  (** 2.3.4. *)
  Definition spec_bits2octets (s : bytes) : bytes := int2octets (spec_bits2int s mod q).
  (** 3.2.h.2: V = HMAC_K(V), T = T || V, [m] times. *)
  Fixpoint blocks (m : nat) (K V : bytes) : bytes * bytes :=
    match m with
    | O => (V, [])
    | S k => let V := HMAC K V in let r := blocks k K V in (fst r, V ++ snd r)
    end.
  (** The number of turns: the least [m] with [qlen <= 8 * hlen * m]. *)
  Definition turns : nat := Z.to_nat ((qlen + 8 * Z.of_nat hlen - 1) / (8 * Z.of_nat hlen)).
  Definition candidate (K V : bytes) : Z := spec_bits2int (snd (blocks turns K V)).
  (** 3.2.h. *)
  Inductive rfc_loop (K V : bytes) : Z -> Prop :=
  | rfc_accept : 1 <= candidate K V < q -> rfc_loop K V (candidate K V)
  | rfc_retry k : ~ 1 <= candidate K V < q ->
      (let V' := fst (blocks turns K V) in let K' := HMAC K (V' ++ [0]) in rfc_loop K' (HMAC K' V') k) ->
      rfc_loop K V k.
  (** 3.2.b-g; [h1] is the hash of the message, [x] the private key. *)
  Definition start (x : Z) (h1 : bytes) : bytes * bytes :=
    let V := repeat 1 hlen in
    let K := repeat 0 hlen in
    let K := HMAC K (V ++ [0] ++ int2octets x ++ spec_bits2octets h1) in
    let V := HMAC K V in
    let K := HMAC K (V ++ [1] ++ int2octets x ++ spec_bits2octets h1) in
    let V := HMAC K V in (K, V).
  Definition rfc6979_nonce (x : Z) (h1 : bytes) (k : Z) : Prop := rfc_loop (fst (start x h1)) (snd (start x h1)) k.
End Rfc.
