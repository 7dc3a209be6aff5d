(** Specification of the AES block cipher, from FIPS-197.  Bytes are numbers
    0..255; the state is the list of its 16 bytes, column after column. *)
From Coq Require Import ZArith List.
Import ListNotations.
Open Scope Z_scope.

(** ** GF(2^8) (FIPS-197, 4.1-4.2) *)
Definition xtime (b : Z) : Z := let d := 2 * b in if d <? 256 then d else Z.lxor d 0x11b.
(** Multiplication, bit by bit of the first factor. *)
Fixpoint gmul_bits (n : nat) (a b : Z) : Z :=
  match n with
  | O => 0
  | S k => Z.lxor (if Z.odd a then b else 0) (gmul_bits k (a / 2) (xtime b))
  end.
Definition gmul (a b : Z) : Z := gmul_bits 8 a b.
Definition all_bytes256 : list Z := map Z.of_nat (seq 0 256).
(** Multiplicative inverse; 0 is mapped to itself. *)
Definition ginv (a : Z) : Z :=
  match find (fun b => gmul a b =? 1) all_bytes256 with Some b => b | None => 0 end.

(** ** S-box (5.1.1): inverse, then the affine transformation. *)
Definition bit (i x : Z) : bool := Z.testbit x (i mod 8).
Definition affine (x : Z) : Z :=
  fold_right Z.add 0
    (map (fun i => if xorb (bit i x) (xorb (bit (i + 4) x) (xorb (bit (i + 5) x)
                       (xorb (bit (i + 6) x) (xorb (bit (i + 7) x) (bit i 0x63)))))
                   then 2 ^ i else 0) [0; 1; 2; 3; 4; 5; 6; 7]).
Definition sbox (x : Z) : Z := affine (ginv x).
(** 5.3.2: the inverse of the S-box. *)
Definition inv_sbox (y : Z) : Z :=
  match find (fun x => sbox x =? y) all_bytes256 with Some x => x | None => 0 end.

(** ** Transformations of the state *)
Definition sub_bytes (s : list Z) : list Z := map sbox s.
Definition inv_sub_bytes (s : list Z) : list Z := map inv_sbox s.
(** s[r,c] is byte r of column c. *)
Definition at_ (s : list Z) (r c : nat) : Z := nth (r + 4 * c) s 0.
Definition build (f : nat -> nat -> Z) : list Z :=
  flat_map (fun c => map (fun r => f r c) [0; 1; 2; 3]%nat) [0; 1; 2; 3]%nat.
(** 5.1.2, 5.3.1: row r is rotated by r positions. *)
Definition shift_rows (s : list Z) : list Z := build (fun r c => at_ s r ((c + r) mod 4)).
Definition inv_shift_rows (s : list Z) : list Z := build (fun r c => at_ s r ((c + 4 - r) mod 4)).
(** 5.1.3, 5.3.3: each column is multiplied by a circulant matrix with first
    row [m0 m1 m2 m3]. *)
Definition mul_columns (m : list Z) (s : list Z) : list Z :=
  build (fun r c =>
    fold_right Z.lxor 0 (map (fun k => gmul (nth ((k + 4 - r) mod 4) m 0) (at_ s k c)) [0; 1; 2; 3]%nat)).
Definition mix_columns : list Z -> list Z := mul_columns [2; 3; 1; 1].
Definition inv_mix_columns : list Z -> list Z := mul_columns [14; 11; 13; 9].
(** 5.1.4. *)
Fixpoint xor_bytes (a b : list Z) : list Z :=
  match a, b with
  | x :: a', y :: b' => Z.lxor x y :: xor_bytes a' b'
  | _, _ => []
  end.
Definition add_round_key (k s : list Z) : list Z := xor_bytes s k.

(** ** Key expansion (5.2, figure 11); a word is a list of four bytes. *)
Definition sub_word_ (w : list Z) : list Z := map sbox w.
Definition rot_word (w : list Z) : list Z := match w with a :: r => r ++ [a] | [] => [] end.
Fixpoint x_power (n : nat) : Z := match n with O => 1 | S k => xtime (x_power k) end.
Definition rcon_word (i : nat) : list Z := [x_power (i - 1); 0; 0; 0].
(** The word after [w], the words computed so far; i = length w, Nk >= 4. *)
Definition next_word (Nk : nat) (w : list (list Z)) : list Z :=
  let i := length w in
  let temp := nth (i - 1) w [] in
  let temp := if Nat.eqb (i mod Nk) 0 then xor_bytes (sub_word_ (rot_word temp)) (rcon_word (i / Nk))
              else if (Nat.ltb 6 Nk && Nat.eqb (i mod Nk) 4)%bool then sub_word_ temp
              else temp in
  xor_bytes (nth (i - Nk) w []) temp.
Fixpoint expand_words (n : nat) (Nk : nat) (w : list (list Z)) : list (list Z) :=
  match n with
  | O => w
  | S k => expand_words k Nk (w ++ [next_word Nk w])
  end.
Fixpoint split_words (key : list Z) : list (list Z) :=
  match key with
  | a :: b :: c :: d :: r => [a; b; c; d] :: split_words r
  | _ => []
  end.
(** Nk = 4, 6, 8 and Nr = Nk + 6 (figure 4); 4 * (Nr + 1) words. *)
Definition key_expansion (key : list Z) : list (list Z) :=
  let Nk := (length key / 4)%nat in expand_words (4 * (Nk + 7) - Nk) Nk (split_words key).
Definition round_key (w : list (list Z)) (r : nat) : list Z := concat (firstn 4 (skipn (4 * r) w)).

(** ** Cipher (5.1, figure 5) and inverse cipher (5.3, figure 12) *)
Definition cipher (key block : list Z) : list Z :=
  let w := key_expansion key in
  let Nr := (length key / 4 + 6)%nat in
  let s := add_round_key (round_key w 0) block in
  let s := fold_left (fun s r => add_round_key (round_key w r) (mix_columns (shift_rows (sub_bytes s)))) (seq 1 (Nr - 1)) s in
  add_round_key (round_key w Nr) (shift_rows (sub_bytes s)).
Definition inv_cipher (key block : list Z) : list Z :=
  let w := key_expansion key in
  let Nr := (length key / 4 + 6)%nat in
  let s := add_round_key (round_key w Nr) block in
  let s := fold_left (fun s r => inv_mix_columns (add_round_key (round_key w r) (inv_sub_bytes (inv_shift_rows s)))) (rev (seq 1 (Nr - 1))) s in
  add_round_key (round_key w 0) (inv_sub_bytes (inv_shift_rows s)).
