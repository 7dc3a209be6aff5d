(** Property C118: integers as byte strings and two's complement numbers. *)
From Coq Require Import ZArith List Lia Bool.
From Verif Require Import PyBase X962Model.
Import ListNotations.
Open Scope Z_scope.

(** The shortest byte string that denotes a number, big-endian: no leading zero
    byte, but one byte for zero. *)
Fixpoint horner (s : bytes) : Z := match s with [] => 0 | b :: r => b * 256 ^ zlen r + horner r end.
Definition shortest (x : Z) (s : bytes) : Prop :=
  wf_bytes s /\ horner s = x /\ s <> [] /\ (forall b r, s = b :: r -> r <> [] -> b <> 0).

Lemma horner_be s : horner s = be_val s.
Proof. induction s as [|b s IH]; [reflexivity|]. rewrite be_val_cons, <- IH. reflexivity. Qed.
Lemma low_spec fuel : forall x, 0 < x -> x < 2 ^ Z.of_nat fuel ->
  wf_bytes (low_bytes fuel x) /\ le_val (low_bytes fuel x) = x /\ exists l h, low_bytes fuel x = l ++ [h] /\ h <> 0.
Proof.
  induction fuel as [|k IH]; intros x P B; [cbn in B; lia|]. cbn [low_bytes]. destruct (Z.eqb_spec x 0) as [|_]; [lia|].
  assert (L : Z.land x 255 = x mod 256) by (change 255 with (Z.ones 8); rewrite Z.land_ones by lia; reflexivity).
  assert (D : Z.shiftr x 8 = x / 256) by (rewrite Z.shiftr_div_pow2 by lia; reflexivity).
  rewrite L, D. pose proof (Z.mod_pos_bound x 256 ltac:(lia)) as M. pose proof (Z.div_mod x 256 ltac:(lia)) as E.
  destruct (Z.eq_dec (x / 256) 0) as [Z0|NZ].
  - rewrite Z0. assert (low_bytes k 0 = []) as -> by (destruct k; reflexivity). cbn [le_val]. repeat split.
    + constructor; [exact M|constructor].
    + lia.
    + exists [], (x mod 256). split; [reflexivity|lia].
  - assert (0 < x / 256) as P' by (pose proof (Z.div_pos x 256); lia).
    assert (x / 256 < 2 ^ Z.of_nat k) as B'. { rewrite Nat2Z.inj_succ, Z.pow_succ_r in B by lia. apply Z.div_lt_upper_bound; lia. }
    destruct (IH _ P' B') as (W & V & l & h & El & Hh). repeat split.
    + constructor; assumption.
    + cbn [le_val]. rewrite V. lia.
    + exists (x mod 256 :: l), h. rewrite El. split; [reflexivity|exact Hh].
Qed.
Lemma shortest_unique x s t : shortest x s -> shortest x t -> s = t.
Proof.
  intros (W & V & N & L) (W' & V' & N' & L'). rewrite horner_be in *.
  assert (Bound : forall s, wf_bytes s -> s <> [] -> (forall b r, s = b :: r -> r <> [] -> b <> 0) -> 1 < zlen s -> 256 ^ (zlen s - 1) <= be_val s).
  { clear. intros [|b r] W N L G; [congruence|]. rewrite zlen_cons in *. destruct r as [|c r]; [cbn in G; lia|].
    specialize (L b (c :: r) eq_refl ltac:(discriminate)). inversion W; subst. rewrite be_val_cons. pose proof (be_val_bound (c :: r) ltac:(assumption)).
    replace (1 + zlen (c :: r) - 1) with (zlen (c :: r)) by lia. unfold is_byte in *. nia. }
  assert (zlen s = zlen t); [|apply be_val_inj; congruence].
  pose proof (be_val_bound s W) as Bs. pose proof (be_val_bound t W') as Bt.
  assert (Ps : 1 <= zlen s) by (destruct s; [congruence|]; rewrite zlen_cons; pose proof (zlen_nonneg s); lia).
  assert (Pt : 1 <= zlen t) by (destruct t; [congruence|]; rewrite zlen_cons; pose proof (zlen_nonneg t); lia).
  destruct (Z.lt_trichotomy (zlen s) (zlen t)) as [H|[H|H]]; [|exact H|].
  - pose proof (Bound t W' N' L' ltac:(lia)) as B. pose proof (Z.pow_le_mono_r 256 (zlen s) (zlen t - 1) ltac:(lia) ltac:(lia)). lia.
  - pose proof (Bound s W N L ltac:(lia)) as B. pose proof (Z.pow_le_mono_r 256 (zlen t) (zlen s - 1) ltac:(lia) ltac:(lia)). lia.
Qed.

(** The conversion gives exactly the shortest big-endian byte string of every
    number that is not negative ... *)
Theorem C118_encoding : forall x s, int_to_string x = Ok s <-> 0 <= x /\ shortest x s.
Proof.
  assert (F : forall x, 0 <= x -> exists s, int_to_string x = Ok s /\ shortest x s).
  { intros x H. unfold int_to_string. destruct (Z.ltb_spec x 0); [lia|]. destruct (Z.eqb_spec x 0) as [->|N].
    - exists [0]. split; [reflexivity|]. repeat split; try discriminate.
      + constructor; [split; lia|constructor].
      + intros b r E R. congruence.
    - destruct (low_spec (S (Z.to_nat (Z.log2 x))) x) as (W & V & l & h & E & Hh); [lia| |].
      { rewrite Nat2Z.inj_succ, Z2Nat.id by apply Z.log2_nonneg. apply Z.log2_spec. lia. }
      eexists. split; [reflexivity|]. repeat split.
      + now apply wf_bytes_rev.
      + rewrite horner_be. unfold be_val. rewrite rev_involutive. exact V.
      + rewrite E, rev_app_distr. discriminate.
      + rewrite E, rev_app_distr. intros b r Eq _. cbn in Eq. congruence. }
  intros x s. split.
  - intro E. assert (0 <= x) as H by (unfold int_to_string in E; destruct (Z.ltb_spec x 0); [discriminate|assumption]).
    split; [exact H|]. destruct (F x H) as (s' & E' & S). congruence.
  - intros (H & S). destruct (F x H) as (s' & E' & S'). rewrite E'. f_equal. exact (shortest_unique x s' s S' S).
Qed.
(** ... and refuses negative numbers. *)
Theorem C118_negative : forall x, x < 0 -> int_to_string x = Raise AssertionError.
Proof. intros x H. unfold int_to_string. destruct (Z.ltb_spec x 0); [reflexivity|lia]. Qed.
(** Reading a byte string gives the number it denotes, ... *)
Theorem C118_decoding : forall s, string_to_int s = horner s.
Proof.
  intro s. unfold string_to_int. assert (G : forall acc, fold_left (fun result c => 256 * result + c) s acc = acc * 256 ^ zlen s + horner s).
  { induction s as [|b s IH]; intro acc; cbn [fold_left horner]; [cbn; lia|]. rewrite IH, zlen_cons, Z.pow_add_r by (try lia; apply zlen_nonneg). lia. }
  rewrite G. lia.
Qed.
(** ... so that the conversions are inverse to each other: back from numbers
    always, back from byte strings when there is no leading zero byte to lose. *)
Theorem C118_back : forall x, 0 <= x -> exists s, int_to_string x = Ok s /\ string_to_int s = x.
Proof.
  intros x H. destruct (int_to_string x) as [s|e] eqn:E.
  - exists s. split; [reflexivity|]. apply C118_encoding in E. rewrite C118_decoding. apply E.
  - exfalso. unfold int_to_string in E. destruct (Z.ltb_spec x 0); [lia|]. destruct (x =? 0); discriminate.
Qed.
Theorem C118_again : forall s, wf_bytes s -> int_to_string (string_to_int s) = Ok s <-> s <> [] /\ (forall b r, s = b :: r -> r <> [] -> b <> 0).
Proof.
  intros s W. rewrite C118_encoding, C118_decoding. split; [intros (_ & _ & _ & H); exact H|]. intros (N & L).
  split; [rewrite horner_be; apply be_val_bound, W|]. repeat split; assumption.
Qed.
(** The digest of an integer is that of its shortest byte string. *)
Theorem C118_digest : forall sha1 m s, 0 <= m -> shortest m s -> digest_integer sha1 m = Ok (horner (sha1 s)).
Proof.
  intros sha1 m s H S. unfold digest_integer. rewrite (proj2 (C118_encoding m s) (conj H S)). cbn [bind]. now rewrite C118_decoding.
Qed.
(** Two's complement: the result is congruent to the number modulo 2^bits; for
    every number of [bits] bits it is the one in the signed range. *)
Theorem C118_twos_complement : forall val bits, 0 < bits -> 0 <= val < 2 ^ bits -> exists v, twos_comp val bits = Ok v /\
  - 2 ^ (bits - 1) <= v < 2 ^ (bits - 1) /\ v mod 2 ^ bits = val.
Proof.
  intros val bits B R. unfold twos_comp. destruct (Z.ltb_spec (bits - 1) 0); [lia|].
  assert (P : 2 ^ bits = 2 * 2 ^ (bits - 1)) by (rewrite <- Z.pow_succ_r by lia; f_equal; lia). pose proof (Z.pow_pos_nonneg 2 (bits - 1) ltac:(lia) ltac:(lia)) as Q.
  rewrite !Z.shiftl_mul_pow2, !Z.mul_1_l by lia.
  assert (T : Z.land val (2 ^ (bits - 1)) = if Z.testbit val (bits - 1) then 2 ^ (bits - 1) else 0).
  { apply Z.bits_inj'. intros n Hn. rewrite Z.land_spec, Z.pow2_bits_eqb by lia. destruct (Z.eqb_spec (bits - 1) n) as [<-|Hne].
    - rewrite andb_true_r. destruct (Z.testbit val (bits - 1)); [now rewrite Z.pow2_bits_true by lia|now rewrite Z.bits_0].
    - rewrite andb_false_r. destruct (Z.testbit val (bits - 1)); [now rewrite Z.pow2_bits_false by lia|now rewrite Z.bits_0]. }
  rewrite T. rewrite Z.testbit_eqb by lia.
  destruct (Z.lt_ge_cases val (2 ^ (bits - 1))) as [S|S].
  - rewrite Z.div_small by lia. cbn [Z.modulo Z.eqb Z.div_eucl]. exists val. split; [reflexivity|]. split; [lia|]. apply Z.mod_small; lia.
  - assert (val / 2 ^ (bits - 1) = 1) as -> by (symmetry; apply (Z.div_unique val (2 ^ (bits - 1)) 1 (val - 2 ^ (bits - 1))); lia).
    change (1 mod 2 =? 1) with true. cbv iota. destruct (Z.eqb_spec (2 ^ (bits - 1)) 0); [lia|].
    exists (val - 2 ^ bits). split; [reflexivity|]. split; [lia|]. replace (val - 2 ^ bits) with (val + (-1) * 2 ^ bits) by lia. rewrite Z.mod_add by lia. apply Z.mod_small; lia.
Qed.
(** A width of no bits is refused. *)
Theorem C118_no_bits : forall val bits, bits <= 0 -> twos_comp val bits = Raise ValueError.
Proof. intros val bits H. unfold twos_comp. destruct (Z.ltb_spec (bits - 1) 0); [reflexivity|lia]. Qed.

Example C118_example : int_to_string 66051 = Ok [1; 2; 3] /\ int_to_string 0 = Ok [0] /\ string_to_int [0; 1; 2] = 258 /\
  int_to_string (string_to_int [0; 1; 2]) = Ok [1; 2] /\ twos_comp 255 8 = Ok (-1) /\ twos_comp 127 8 = Ok 127 /\ shortest 258 [1; 2].
Proof.
  split; [reflexivity|]. split; [reflexivity|]. split; [reflexivity|]. split; [reflexivity|]. split; [reflexivity|]. split; [reflexivity|].
  repeat split; try discriminate; try (repeat constructor; lia). intros b r E _. congruence.
Qed.

(** ** Assumptions *)

Print Assumptions C118_encoding.
Print Assumptions C118_negative.
Print Assumptions C118_decoding.
Print Assumptions C118_back.
Print Assumptions C118_again.
Print Assumptions C118_digest.
Print Assumptions C118_twos_complement.
Print Assumptions C118_no_bits.
