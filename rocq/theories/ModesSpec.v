(** Specification of the modes of operation, from NIST SP 800-38A, over any
    block function [E] (forward cipher) and [D] (inverse cipher). *)
From Coq Require Import ZArith List.
From Verif Require Import AesSpec.
Import ListNotations.
Open Scope Z_scope.

Section Modes.
  Variables E D : list Z -> list Z.
  (** 6.1. *)
  Definition ecb_encrypt (blocks : list (list Z)) : list (list Z) := map E blocks.
  (** 6.2: C_j = E(P_j xor C_{j-1}), C_0 = IV. *)
  Fixpoint cbc_encrypt (prev : list Z) (blocks : list (list Z)) : list (list Z) :=
    match blocks with
    | [] => []
    | p :: r => let c := E (xor_bytes p prev) in c :: cbc_encrypt c r
    end.
  (** 6.3: I_1 = IV, C_j = P_j xor MSB_s(E(I_j)), I_{j+1} = LSB_{b-s}(I_j) | C_j;
      the segments have s bytes. *)
  Fixpoint cfb_encrypt (reg : list Z) (segments : list (list Z)) : list (list Z) :=
    match segments with
    | [] => []
    | p :: r => let c := xor_bytes p (firstn (length p) (E reg)) in
                c :: cfb_encrypt (skipn (length p) reg ++ c) r
    end.
  (** 6.4: O_1 = E(IV), O_{j+1} = E(O_j). *)
  Fixpoint ofb_stream (n : nat) (iv : list Z) : list Z :=
    match n with
    | O => []
    | S k => let o := E iv in o ++ ofb_stream k o
    end.
  (** 6.5, with the standard incrementing function of B.1 on 128 bits. *)
  Definition block_of (v : Z) : list Z := map (fun i => v / 256 ^ Z.of_nat (15 - i) mod 256) (seq 0 16).
  Fixpoint ctr_stream (n : nat) (v : Z) : list Z :=
    match n with
    | O => []
    | S k => E (block_of v) ++ ctr_stream k ((v + 1) mod 2 ^ 128)
    end.
End Modes.
