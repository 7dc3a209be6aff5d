(** Properties C35, C36, C61, C65, C72, C73 and C76: DER, number encodings, random
    ranges and deterministic nonces. *)
From Coq Require Import ZArith List Lia Bool.
From Verif Require Import PyBase PyVal UtilModel Base58Proofs DerModel DerProofs Rfc6979Spec Rfc6979Proofs DerSpec DerAccept.
Import ListNotations.
Open Scope list_scope.
Open Scope Z_scope.

(** ** C36: what an encoder wrote is read back, and the reader stops there *)
Definition reads_back {A} (encoded : res bytes) (reader : bytes -> res (A * bytes)) (v : A) : Prop :=
  exists e, encoded = Ok e /\ wf_bytes e /\ forall rest, reader (e ++ rest) = Ok (v, rest).
(** The largest length that fits the 127 length bytes. *)
Definition fits (n : Z) : Prop := 0 <= n < 256 ^ 127.

Theorem C36_length l : fits l -> exists e, encode_length l = Ok e /\ wf_bytes e /\ forall rest, read_length (e ++ rest) = Ok (l, zlen e).
Proof.
  intro H. destruct (read_encode_length l [] H) as (h & E & _ & W). exists h. split; [exact E|]. split; [exact W|].
  intro rest. destruct (read_encode_length l rest H) as (h' & E' & R & _). assert (h' = h) as -> by congruence. exact R.
Qed.
Theorem C36_integer_partial r : 0 <= r < 2 ^ 1015 -> reads_back (encode_integer r) remove_integer r.
Proof.
  intro H. destruct (remove_encode_integer r [] H) as (e & E & _ & _ & _ & W). exists e. split; [exact E|]. split; [exact W|].
  intro rest. destruct (remove_encode_integer r rest H) as (e' & E' & R & _). assert (e' = e) as -> by congruence. exact R.
Qed.
(** An integer of 128 bytes is written with a short-form length of 128, that
    is with the byte that announces a long form. *)
Theorem C36_integer_refuted : ~ (forall r, 0 <= r -> reads_back (encode_integer r) remove_integer r).
Proof.
  intro H. destruct (H (256 ^ 127) ltac:(apply Z.pow_nonneg; lia)) as (e & E & _ & R). specialize (R []).
  assert (E' : encode_integer (256 ^ 127) = Ok (2 :: 128 :: 1 :: repeat 0 127)) by (vm_compute; reflexivity).
  assert (e = 2 :: 128 :: 1 :: repeat 0 127) as -> by congruence. rewrite app_nil_r in R.
  assert (R' : remove_integer (2 :: 128 :: 1 :: repeat 0 127) = Raise ValueError) by (vm_compute; reflexivity). congruence.
Qed.
Lemma body_back tag body : zlen body < max_length -> wf_bytes body -> is_byte tag ->
  exists h, encode_length (zlen body) = Ok h /\ wf_bytes (tag :: h ++ body) /\ forall rest, body_rest ((tag :: h ++ body) ++ rest) = Ok (body, rest).
Proof.
  intros H W T. destruct (body_rest_enc tag body [] H) as (h & E & _ & Wh). exists h. split; [exact E|]. split; [constructor; [exact T|]; now apply Forall_app|].
  intro rest. destruct (body_rest_enc tag body rest H) as (h' & E' & R & _). assert (h' = h) as -> by congruence. cbn [app]. rewrite <- app_assoc. exact R.
Qed.
Ltac byte := unfold is_byte; lia.
Theorem C36_octet_string s : wf_bytes s -> fits (zlen s) -> reads_back (encode_octet_string s) remove_octet_string s.
Proof.
  intros W [_ H]. destruct (body_back 4 s H W ltac:(byte)) as (h & E & Wh & R). unfold encode_octet_string. rewrite E. cbn [bind]. eexists. split; [reflexivity|].
  split; [exact Wh|]. intro rest. unfold remove_octet_string. cbn [app expect]. change (4 =? 4) with true. cbn [bind]. apply (R rest).
Qed.
Theorem C36_bitstring s : wf_bytes s -> fits (zlen s) -> reads_back (encode_bitstring s) remove_bitstring s.
Proof.
  intros W [_ H]. destruct (body_back 3 s H W ltac:(byte)) as (h & E & Wh & R). unfold encode_bitstring. rewrite E. cbn [bind]. eexists. split; [reflexivity|].
  split; [exact Wh|]. intro rest. unfold remove_bitstring. cbn [app expect]. change (3 =? 3) with true. cbn [bind]. apply (R rest).
Qed.
Theorem C36_sequence pieces : Forall wf_bytes pieces -> fits (zlen (concat pieces)) -> reads_back (encode_sequence pieces) remove_sequence (concat pieces).
Proof.
  intros W [_ H]. assert (wf_bytes (concat pieces)) as Wc by (clear H; induction W; cbn [concat]; [constructor|]; apply Forall_app; now split).
  destruct (body_back 0x30 (concat pieces) H Wc ltac:(byte)) as (h & E & Wh & R). unfold encode_sequence. rewrite E. cbn [bind]. eexists. split; [reflexivity|].
  split; [exact Wh|]. intro rest. unfold remove_sequence. cbn [app expect]. change (0x30 =? 0x30) with true. cbn [bind]. apply (R rest).
Qed.
Theorem C36_constructed tag s : 0 <= tag < 32 -> wf_bytes s -> fits (zlen s) ->
  reads_back (encode_constructed tag s) remove_constructed (tag, s).
Proof.
  intros T W [_ H]. destruct (body_back (0xa0 + tag) s H W ltac:(byte)) as (h & E & Wh & R). unfold encode_constructed, int2byte, is_byteb.
  destruct (Z.leb_spec 0 (0xa0 + tag)); [|lia]. destruct (Z.ltb_spec (0xa0 + tag) 256); [|lia]. cbn [andb bind]. rewrite E. cbn [bind]. eexists. split; [reflexivity|].
  split; [exact Wh|]. intro rest. unfold remove_constructed. cbn [app].
  assert (Z.land (0xa0 + tag) 0xe0 = 0xa0 /\ Z.land (0xa0 + tag) 0x1f = tag) as [-> ->].
  { assert (In tag (map Z.of_nat (seq 0 32))) as I by (apply in_map_iff; exists (Z.to_nat tag); split; [lia|apply in_seq; lia]).
    assert (Forall (fun t => Z.land (0xa0 + t) 0xe0 = 0xa0 /\ Z.land (0xa0 + t) 0x1f = t) (map Z.of_nat (seq 0 32))) as F by (cbn; repeat (apply Forall_cons; [split; reflexivity|]); constructor).
    rewrite Forall_forall in F. apply (F tag I). }
  change (0xa0 =? 0xa0) with true. cbn [negb]. change (160 + tag :: (h ++ s) ++ rest) with ((160 + tag :: h ++ s) ++ rest). rewrite R. reflexivity.
Qed.
(** A larger tag number does not fit the byte: the encoder raises. *)
Theorem C36_constructed_large tag s : 96 <= tag -> encode_constructed tag s = Raise StructError.
Proof. intro H. unfold encode_constructed, int2byte, is_byteb. destruct (Z.ltb_spec (0xa0 + tag) 256); [lia|]. now rewrite andb_false_r. Qed.
Theorem C36_number n rest : 0 <= n -> read_number (encode_number n ++ rest) = Ok (n, zlen (encode_number n)).
Proof. intro H. apply (read_encode_number n rest H). Qed.
Lemma encode_small n : 0 <= n < 128 -> encode_number n = [n].
Proof.
  intro H. assert (In n (map Z.of_nat (seq 0 128))) as I by (apply in_map_iff; exists (Z.to_nat n); split; [lia|apply in_seq; lia]).
  assert (F : forallb (fun n => match encode_number n with [x] => x =? n | _ => false end) (map Z.of_nat (seq 0 128)) = true) by (vm_compute; reflexivity).
  rewrite forallb_forall in F. specialize (F n I). destruct (encode_number n) as [|x [|]]; try discriminate F. apply Z.eqb_eq in F. now subst.
Qed.
Lemma wf_numbers ns : Forall (fun n => 0 <= n) ns -> wf_bytes (concat (map encode_number ns)).
Proof. induction 1 as [|n ns H _ IH]; cbn [map concat]; [constructor|]. apply Forall_app. split; [apply (read_encode_number n [] H)|exact IH]. Qed.
Theorem C36_object_identifier first second pieces : 0 <= first <= 2 -> 0 <= second <= 39 -> Forall (fun n => 0 <= n) pieces ->
  fits (1 + zlen (concat (map encode_number pieces))) ->
  reads_back (encode_oid first second pieces) remove_object (first :: second :: pieces).
Proof.
  intros Hf Hs Hp [_ H]. unfold encode_oid, int2byte, is_byteb. destruct (Z.ltb_spec 2 first); [lia|]. destruct (Z.ltb_spec 39 second); [lia|].
  destruct (Z.leb_spec 0 (40 * first + second)); [|lia]. destruct (Z.ltb_spec (40 * first + second) 256); [|lia]. cbn [andb bind].
  set (n0 := 40 * first + second) in *. assert (0 <= n0 < 128) as N0 by lia.
  assert ([n0] ++ concat (map encode_number pieces) = concat (map encode_number (n0 :: pieces))) as -> by (cbn [map concat]; now rewrite (encode_small n0 N0)).
  assert (Forall (fun n => 0 <= n) (n0 :: pieces)) as F by (constructor; [lia|exact Hp]).
  assert (zlen (concat (map encode_number (n0 :: pieces))) < max_length) as H' by (cbn [map concat]; rewrite (encode_small n0 N0), zlen_app; exact H).
  destruct (body_back 6 _ H' (wf_numbers _ F) ltac:(byte)) as (h & E & Wh & R). rewrite E. cbn [bind]. eexists. split; [reflexivity|].
  split; [exact Wh|]. intro rest. unfold remove_object. cbn [app expect]. change (6 =? 6) with true. cbn [bind].
  change (6 :: (h ++ concat (map encode_number (n0 :: pieces))) ++ rest) with ((6 :: h ++ concat (map encode_number (n0 :: pieces))) ++ rest). rewrite R. cbn [bind fst snd].
  rewrite read_numbers_spec by (exact F || lia). cbn [bind]. assert (n0 / 40 = first) as -> by (unfold n0; symmetry; apply (Z.div_unique _ _ _ second); lia).
  replace (n0 - 40 * first) with second by lia. reflexivity.
Qed.
(** Other first or second numbers are refused. *)
Theorem C36_object_identifier_refused first second pieces : 2 < first \/ 39 < second -> encode_oid first second pieces = Raise AssertionError.
Proof. intro H. unfold encode_oid. destruct (Z.ltb_spec 2 first); [reflexivity|]. destruct (Z.ltb_spec 39 second); [reflexivity|lia]. Qed.
(** The secp256k1 identifier, 1.3.132.0.10. *)
Example C36_secp256k1 : encode_oid 1 3 [132; 0; 10] = Ok [6; 5; 0x2b; 0x81; 0x04; 0x00; 0x0a] /\
  remove_object ([6; 5; 0x2b; 0x81; 0x04; 0x00; 0x0a] ++ [99]) = Ok ([1; 3; 132; 0; 10], [99]).
Proof. split; [vm_compute; reflexivity|vm_compute; reflexivity]. Qed.
Example C36_negative_high : encode_integer 255 = Ok [2; 2; 0; 255].
Proof. reflexivity. Qed.

(** ** C35: signatures *)
Theorem C35_der_partial r s : 0 <= r < 2 ^ 1015 -> 0 <= s < 2 ^ 1015 ->
  exists sig, sigencode_der r s = Ok sig /\ wf_bytes sig /\ sigdecode_der sig = Ok (r, s) /\ ecc_sigdecode_der sig = Ok (r, s).
Proof.
  intros Hr Hs. destruct (remove_encode_integer s [] Hs) as (es & Es & Ss & Ls & Zs & Ws). rewrite app_nil_r in *.
  destruct (remove_encode_integer r es Hr) as (er & Er & Sr & Lr & Zr & Wr). unfold sigencode_der. rewrite Er, Es. cbn [bind].
  assert (zlen (concat [er; es]) < max_length) as H.
  { cbn [concat]. rewrite !zlen_app, app_nil_r || rewrite app_nil_r, zlen_app. pose proof (zlen_nonneg es). apply Z.le_lt_trans with 258; [lia|]. unfold max_length. change 256 with (2 ^ 8). rewrite <- Z.pow_mul_r by lia. apply Z.lt_le_trans with (2 ^ 9); [lia|]. apply Z.pow_le_mono_r; lia. }
  destruct (C36_sequence [er; es]) as (sig & E & W & R).
  { repeat constructor; assumption. }
  { split; [apply zlen_nonneg|exact H]. }
  exists sig. split; [exact E|]. split; [exact W|]. specialize (R []). rewrite app_nil_r in R. cbn [concat] in R. rewrite app_nil_r in R. unfold sigdecode_der, ecc_sigdecode_der.
  rewrite R. cbn [bind fst snd]. rewrite Sr, Lr. cbn [bind fst snd]. rewrite Ss, Ls. split; reflexivity.
Qed.
(** Beyond 1015 bits the encoded signature is not read back. *)
Theorem C35_der_refuted : ~ (forall r s, 0 <= r -> 0 <= s -> exists sig, sigencode_der r s = Ok sig /\ sigdecode_der sig = Ok (r, s)).
Proof.
  intro H. destruct (H (256 ^ 127) 1 ltac:(apply Z.pow_nonneg; lia) ltac:(lia)) as (sig & E & D).
  assert (X : match sigencode_der (256 ^ 127) 1 with Ok sig => sigdecode_der sig | Raise e => Raise e end = Raise ValueError) by (vm_compute; reflexivity).
  rewrite E in X. congruence.
Qed.
(** The supported curves have orders of at most 521 bits. *)
Corollary C35_der_in_use order r s : order <= 2 ^ 521 -> 0 <= r < order -> 0 <= s < order ->
  exists sig, sigencode_der r s = Ok sig /\ wf_bytes sig /\ sigdecode_der sig = Ok (r, s) /\ ecc_sigdecode_der sig = Ok (r, s).
Proof. intros H Hr Hs. assert (2 ^ 521 < 2 ^ 1015) by (apply Z.pow_lt_mono_r; lia). apply C35_der_partial; lia. Qed.

(** ** C65: numbers as byte strings *)
(** [l] is the number of bytes of [order]. *)
Definition byte_length (order l : Z) : Prop := 1 <= l /\ order < 256 ^ l /\ forall j, 1 <= j -> order < 256 ^ j -> l <= j.
Lemma orderlen_byte_length order : 0 < order -> byte_length order (orderlen order).
Proof.
  intro H. destruct (orderlen_spec order H) as (A & B & C). split; [exact A|]. split; [exact B|]. intros j Hj HH.
  destruct C as [C|C]; [lia|]. assert (orderlen order - 1 < j); [|lia]. apply (Z.pow_lt_mono_r_iff 256); lia.
Qed.
Lemma byte_length_unique order l : 0 < order -> byte_length order l -> l = orderlen order.
Proof. intros H (A & B & C). destruct (orderlen_byte_length order H) as (A' & B' & C'). pose proof (C _ A' B'). pose proof (C' _ A B). lia. Qed.
Theorem C65_encoding order l x s : 0 < order -> byte_length order l ->
  (number_to_string x order = Ok s <-> 0 <= x < 256 ^ l /\ wf_bytes s /\ zlen s = l /\ be_val s = x).
Proof.
  intros H L. apply (byte_length_unique order l H) in L. subst l. destruct (orderlen_spec order H) as (A & _ & _). rewrite number_to_string_spec by exact H.
  split.
  - destruct (Z.ltb_spec x 0); [discriminate|]. destruct (Z.ltb_spec x (256 ^ orderlen order)); [|destruct (_ =? _); discriminate].
    intro E. assert (s = be_bytes (Z.to_nat (orderlen order)) x) as -> by congruence. split; [lia|]. split; [apply wf_be_bytes|]. split; [rewrite zlen_be_bytes; lia|].
    apply be_val_be_bytes_small. rewrite Z2Nat.id by lia. lia.
  - intros (Hx & W & Ls & V). destruct (Z.ltb_spec x 0); [lia|]. destruct (Z.ltb_spec x (256 ^ orderlen order)); [|lia]. f_equal. rewrite <- V, <- Ls. unfold zlen. rewrite Nat2Z.id. now apply be_bytes_be_val.
Qed.
Theorem C65_rejected order l x : 0 < order -> byte_length order l -> ~ 0 <= x < 256 ^ l ->
  number_to_string x order = Raise ValueError \/ number_to_string x order = Raise AssertionError.
Proof.
  intros H L Hx. apply (byte_length_unique order l H) in L. subst l. rewrite number_to_string_spec by exact H.
  destruct (Z.ltb_spec x 0); [now left|]. destruct (Z.ltb_spec x (256 ^ orderlen order)); [lia|]. destruct (_ =? _); auto.
Qed.
Theorem C65_inverse order x s : 0 < order -> number_to_string x order = Ok s ->
  string_to_number s = Ok x /\ string_to_number_fixedlen s order = Ok x.
Proof.
  intros H E. pose proof (orderlen_byte_length order H) as L. apply (C65_encoding order (orderlen order) x s H L) in E. destruct E as (_ & _ & Ls & V).
  unfold string_to_number_fixedlen, string_to_number, bytes_int. rewrite Ls, Z.eqb_refl. cbn [negb]. destruct s; [destruct L; cbn in Ls; lia|]. rewrite V. split; reflexivity.
Qed.
Theorem C65_string_signature order r s : 0 < order -> 0 <= r < order -> 0 <= s < order ->
  (exists sig, sigencode_string r s order = Ok sig /\ sigdecode_string sig order = Ok (r, s)) /\
  (exists a b, sigencode_strings r s order = Ok (a, b) /\ sigdecode_strings a b order = Ok (r, s)).
Proof.
  intros H Hr Hs. pose proof (orderlen_byte_length order H) as L. pose proof L as (A & B & _).
  assert (forall x, 0 <= x < order -> exists e, number_to_string x order = Ok e) as T.
  { intros x Hx. rewrite number_to_string_spec by exact H. destruct (Z.ltb_spec x 0); [lia|]. destruct (Z.ltb_spec x (256 ^ orderlen order)); [|lia]. eexists. reflexivity. }
  destruct (T r Hr) as [a Ea]. destruct (T s Hs) as [b Eb].
  pose proof (C65_inverse order r a H Ea) as [_ Da]. pose proof (C65_inverse order s b H Eb) as [_ Db].
  pose proof (proj1 (C65_encoding order _ r a H L) Ea) as (_ & _ & La & _). pose proof (proj1 (C65_encoding order _ s b H L) Eb) as (_ & _ & Lb & _).
  unfold sigencode_string, sigencode_strings. rewrite Ea, Eb. cbn [bind fst snd]. split.
  - eexists. split; [reflexivity|]. unfold sigdecode_string. rewrite zlen_app, La, Lb. replace (orderlen order + orderlen order =? 2 * orderlen order) with true by (symmetry; apply Z.eqb_eq; lia).
    cbn [negb]. rewrite (ztake_app_exact a b) by congruence. rewrite Da. cbn [bind]. rewrite (zdrop_app_exact a b) by congruence. rewrite Db. reflexivity.
  - eexists _, _. split; [reflexivity|]. unfold sigdecode_strings. rewrite La, Lb, Z.eqb_refl. cbn [negb]. rewrite Da, Db. reflexivity.
Qed.
Example C65_example : number_to_string 258 65536 = Ok [0; 1; 2] /\ byte_length 65536 3 /\ number_to_string (256 ^ 3) 65536 = Raise ValueError.
Proof. split; [reflexivity|]. split; [|reflexivity]. split; [lia|]. split; [lia|]. intros j Hj H. assert (2 < j); [|lia]. apply (Z.pow_lt_mono_r_iff 256); lia. Qed.

(** ** C61: random ranges *)
(** The i-th answer of the entropy source, read as the candidate. *)
Definition candidate_of (entropy : nat -> Z -> bytes) (order : Z) (i : nat) : Z := be_val (entropy i (orderlen order)) + 1.
(** An entropy source that returns as many bytes as it is asked for. *)
Definition entropy_ok (entropy : nat -> Z -> bytes) : Prop := forall i n, 0 <= n -> wf_bytes (entropy i n) /\ zlen (entropy i n) = n.
Lemma randrange_loop_spec entropy order : entropy_ok entropy -> 1 < order -> forall tries i,
  (exists j, (i <= j < i + tries)%nat /\ (forall h, (i <= h < j)%nat -> order <= candidate_of entropy order h) /\ 1 <= candidate_of entropy order j < order /\
     randrange_loop tries i entropy order = Ok (candidate_of entropy order j)) \/
  ((forall h, (i <= h < i + tries)%nat -> order <= candidate_of entropy order h) /\ randrange_loop tries i entropy order = Raise RuntimeError).
Proof.
  intros HE HO. destruct (orderlen_spec order ltac:(lia)) as (A & _). induction tries as [|k IH]; intro i; cbn [randrange_loop].
  - right. split; [intros; lia|reflexivity].
  - destruct (HE i (orderlen order) ltac:(lia)) as [W L]. unfold string_to_number, bytes_int.
    assert (entropy i (orderlen order) <> []) as NE by (intro X; rewrite X in L; cbn in L; lia).
    pose proof (be_val_bound _ W) as B.
    assert (match entropy i (orderlen order) with [] => Raise ValueError | _ => Ok (be_val (entropy i (orderlen order))) end = Ok (be_val (entropy i (orderlen order)))) as X by (destruct (entropy i (orderlen order)); [congruence|reflexivity]).
    rewrite X. cbn [bind]. fold (candidate_of entropy order i). assert (1 <= candidate_of entropy order i) as C1 by (unfold candidate_of; lia).
    destruct (Z.leb_spec 1 (candidate_of entropy order i)); [|lia]. cbn [andb].
    destruct (Z.ltb_spec (candidate_of entropy order i) order) as [Lt|Ge].
    + left. exists i. split; [lia|]. split; [intros; lia|]. split; [lia|reflexivity].
    + destruct (IH (S i)) as [(j & Hj & Hb & Hc & E)|[Hb E]].
      * left. exists j. split; [lia|]. split; [|now split]. intros h Hh. destruct (Nat.eq_dec h i) as [->|]; [lia|]. apply Hb. lia.
      * right. split; [|exact E]. intros h Hh. destruct (Nat.eq_dec h i) as [->|]; [lia|]. apply Hb. lia.
Qed.
(** [randrange] answers with the first candidate in range among 10000. *)
Theorem C61_randrange order entropy k : entropy_ok entropy -> 1 < order ->
  (randrange order entropy = Ok k <->
   exists j, Z.of_nat j < 10000 /\ candidate_of entropy order j = k /\ 1 <= k < order /\ forall h, (h < j)%nat -> ~ 1 <= candidate_of entropy order h < order).
Proof.
  intros HE HO. unfold randrange. destruct (Z.ltb_spec 1 order); [|lia]. cbn [negb].
  destruct (randrange_loop_spec entropy order HE HO (Z.to_nat 10000) 0) as [(j & Hj & Hb & Hc & E)|[Hb E]]; rewrite E.
  - split.
    + intro X. assert (candidate_of entropy order j = k) as Y by congruence. exists j. split; [lia|]. split; [exact Y|]. split; [lia|]. intros h Hh. pose proof (Hb h ltac:(lia)). lia.
    + intros (j' & Hj' & Y & Hk & Hb'). destruct (lt_eq_lt_dec j j') as [[D|D]|D]; [exfalso; apply (Hb' j D); exact Hc|subst j'; congruence|]. pose proof (Hb j' ltac:(lia)). lia.
  - split; [discriminate|]. intros (j' & Hj' & Y & Hk & Hb'). pose proof (Hb j' ltac:(lia)). lia.
Qed.
Theorem C61_randrange_gives_up order entropy : entropy_ok entropy -> 1 < order ->
  ((forall k, randrange order entropy <> Ok k) <-> (forall j, Z.of_nat j < 10000 -> ~ 1 <= candidate_of entropy order j < order)) /\
  (forall e, randrange order entropy = Raise e -> e = RuntimeError).
Proof.
  intros HE HO. unfold randrange. destruct (Z.ltb_spec 1 order); [|lia]. cbn [negb].
  destruct (randrange_loop_spec entropy order HE HO (Z.to_nat 10000) 0) as [(j & Hj & Hb & Hc & E)|[Hb E]]; rewrite E.
  - split; [|discriminate]. split; intro X; [now elim (X (candidate_of entropy order j))|]. intros k _. apply (X j); [lia|exact Hc].
  - split; [|congruence]. split; intros _; [|discriminate]. intros j Hj X. pose proof (Hb j ltac:(lia)). lia.
Qed.
(** Every value of the range comes from exactly one byte string: the choice is
    as uniform as the entropy. *)
Theorem C61_randrange_uniform order k : 1 < order -> 1 <= k < order ->
  exists s, (wf_bytes s /\ zlen s = orderlen order /\ be_val s + 1 = k) /\
  forall s', wf_bytes s' /\ zlen s' = orderlen order /\ be_val s' + 1 = k -> s' = s.
Proof.
  intros HO Hk. destruct (orderlen_spec order ltac:(lia)) as (A & B & _). exists (be_bytes (Z.to_nat (orderlen order)) (k - 1)). split.
  - split; [apply wf_be_bytes|]. split; [rewrite zlen_be_bytes; lia|]. rewrite be_val_be_bytes_small; [lia|]. rewrite Z2Nat.id by lia. lia.
  - intros s' (W & L & V). replace (k - 1) with (be_val s') by lia. rewrite <- L. unfold zlen. rewrite Nat2Z.id. symmetry. now apply be_bytes_be_val.
Qed.
Theorem C61_overshoot_modulo base order : 1 < order -> wf_bytes base -> base <> [] ->
  let k := be_val base mod (order - 1) + 1 in overshoot_modulo base order = Ok k /\ 1 <= k < order.
Proof.
  intros HO W NE. unfold overshoot_modulo, bytes_int. destruct base as [|b base]; [congruence|]. cbn [bind].
  destruct (Z.eqb_spec (order - 1) 0); [lia|]. pose proof (Z.mod_pos_bound (be_val (b :: base)) (order - 1) ltac:(lia)).
  destruct (Z.leb_spec 1 (be_val (b :: base) mod (order - 1) + 1)); [|lia]. destruct (Z.ltb_spec (be_val (b :: base) mod (order - 1) + 1) order); [|lia]. cbn [andb negb].
  split; [reflexivity|cbv zeta; lia].
Qed.
Theorem C61_generate_k hmac holen fuel py2 order secexp data k : generate_k hmac holen fuel py2 order secexp data = Some (Ok k) -> 1 <= k < order.
Proof. apply generate_range. Qed.
Example C61_example : randrange 200 (fun i n => repeat (Z.of_nat (250 - 40 * i)) (Z.to_nat n)) = Ok 171 /\ randrange 200 (fun _ n => repeat 255 (Z.to_nat n)) = Raise RuntimeError.
Proof. split; [vm_compute; reflexivity|vm_compute; reflexivity]. Qed.

(** ** C72: canonical signatures *)
Lemma half_rounded_error order : 0 < order -> let (m, e) := half_rounded order in
  2 * Z.abs (m * 2 ^ e - order) <= 2 ^ e /\ (order < 2 ^ 53 -> m * 2 ^ e = order) /\ e = Z.max 0 (Z.log2 order - 52).
Proof.
  intro H. unfold half_rounded. set (e := Z.max 0 (Z.log2 order - 52)). assert (0 <= e) as He by lia. assert (0 < 2 ^ e) as P by (apply Z.pow_pos_nonneg; lia).
  pose proof (Z.div_mod order (2 ^ e) ltac:(lia)) as D. pose proof (Z.mod_pos_bound order (2 ^ e) P) as M.
  split; [|split; [|reflexivity]].
  - destruct (Z.eqb_spec (2 * (order mod 2 ^ e)) (2 ^ e)) as [T|T]; [destruct (Z.even _); cbn [negb]; lia|]. destruct (Z.ltb_spec (2 ^ e) (2 * (order mod 2 ^ e))); lia.
  - intro L. assert (Z.log2 order < 53) by (apply Z.log2_lt_pow2; lia). assert (e = 0) as -> by lia. change (2 ^ 0) with 1 in *. rewrite Z.mod_1_r, Z.div_1_r. change (2 * 0 =? 1) with false. change (1 <? 2 * 0) with false. cbv iota. lia.
Qed.
(** The canonical encoders write [s] or [order - s], the lower one up to the
    rounding of [order / 2] to a float. *)
Theorem C72_low_s_partial r s order : 0 < order < 2 ^ 1024 -> 1 <= s < order ->
  exists s', (s' = s \/ s' = order - s) /\ 1 <= s' < order /\
    2 * (2 * s' - order) <= 2 ^ Z.max 0 (Z.log2 order - 52) /\ (order < 2 ^ 53 -> 2 * s' <= order) /\
    sigencode_der_canonize r s order = sigencode_der r s' /\
    sigencode_string_canonize r s order = sigencode_string r s' order /\
    sigencode_strings_canonize r s order = sigencode_strings r s' order.
Proof.
  intros [H _] Hs. exists (canonize s order). unfold canonize, half_above. pose proof (half_rounded_error order H) as E. destruct (half_rounded order) as [m e] eqn:HR. destruct E as (E1 & E2 & ->).
  split; [destruct (_ <? _); auto|]. split; [destruct (_ <? _); lia|].
  split; [|split; [|unfold sigencode_der_canonize, sigencode_string_canonize, sigencode_strings_canonize, canonize, half_above; rewrite HR; split; [reflexivity|split; reflexivity]]].
  - destruct (Z.ltb_spec (m * 2 ^ Z.max 0 (Z.log2 order - 52)) (2 * s)); lia.
  - intro L. specialize (E2 L). rewrite E2. destruct (Z.ltb_spec order (2 * s)); lia.
Qed.
Definition secp256k1_order : Z := 0xFFFFFFFFFFFFFFFFFFFFFFFFFFFFFFFEBAAEDCE6AF48A03BBFD25E8CD0364141.
Theorem C72_low_s_refuted : ~ (forall r s, 1 <= r < secp256k1_order -> 1 <= s < secp256k1_order ->
  exists s', 2 * s' <= secp256k1_order /\ sigencode_der_canonize r s secp256k1_order = sigencode_der r s').
Proof.
  intro H. destruct (H 1 (2 ^ 255)) as (s' & L & E); [unfold secp256k1_order; lia|unfold secp256k1_order; lia|].
  assert (canonize (2 ^ 255) secp256k1_order = 2 ^ 255) as C by (vm_compute; reflexivity). unfold sigencode_der_canonize in E. rewrite C in E.
  destruct (Z.le_gt_cases 0 s') as [P|N].
  - assert (s' < 2 ^ 1015) as B.
    { apply Z.le_lt_trans with secp256k1_order; [lia|]. unfold secp256k1_order. apply Z.lt_le_trans with (2 ^ 256); [lia|]. apply Z.pow_le_mono_r; lia. }
    assert (2 ^ 255 < 2 ^ 1015) as B' by (apply Z.pow_lt_mono_r; lia). assert (0 <= 1 < 2 ^ 1015) as B1 by (split; [lia|apply Z.pow_gt_1; lia]).
    destruct (C35_der_partial 1 (2 ^ 255) B1 ltac:(split; [apply Z.pow_nonneg; lia|exact B'])) as (g & E1 & _ & D1 & _).
    destruct (C35_der_partial 1 s' B1 ltac:(lia)) as (g' & E2 & _ & D2 & _). assert (g' = g) by congruence. subst g'. assert (s' = 2 ^ 255) as -> by congruence.
    unfold secp256k1_order in L. lia.
  - assert (sigencode_der 1 (2 ^ 255) <> Raise AssertionError) as X by (vm_compute; discriminate). apply X. rewrite E. unfold sigencode_der, encode_integer. cbn [Z.ltb Z.compare].
    destruct (Z.ltb_spec s' 0); [|lia]. vm_compute. reflexivity.
Qed.

(** ** C73: RFC 6979 *)
(** A hash-based MAC of [holen] bytes. *)
Definition mac_ok (hmac : bytes -> bytes -> bytes) (holen : nat) : Prop :=
  (1 <= holen)%nat /\ forall k v, wf_bytes (hmac k v) /\ List.length (hmac k v) = holen.
(** The two interpreters make the same number of HMAC turns. *)
Definition no_extra_turn (holen : nat) (order : Z) : Prop := let h := 8 * Z.of_nat holen in
  (qlen order + 7 + h - 1) / h = (qlen order + h - 1) / h.
Theorem C73_python2 hmac holen order x h1 k : mac_ok hmac holen -> 1 < order -> 0 <= x < order -> wf_bytes h1 -> h1 <> [] ->
  ((exists fuel, generate_k hmac holen fuel true order x h1 = Some (Ok k)) <-> rfc6979_nonce hmac holen order x h1 k) /\
  (forall fuel e, generate_k hmac holen fuel true order x h1 <> Some (Raise e)).
Proof. intros [H1 H2] HO Hx W NE. apply (nonce_rfc hmac holen (fun k v => proj2 (H2 k v)) H1 order HO); try assumption. now left. Qed.
Theorem C73_python3_partial hmac holen order x h1 k : mac_ok hmac holen -> 1 < order -> 0 <= x < order -> wf_bytes h1 -> h1 <> [] -> no_extra_turn holen order ->
  ((exists fuel, generate_k hmac holen fuel false order x h1 = Some (Ok k)) <-> rfc6979_nonce hmac holen order x h1 k) /\
  (forall fuel e, generate_k hmac holen fuel false order x h1 <> Some (Raise e)).
Proof. intros [H1 H2] HO Hx W NE T. apply (nonce_rfc hmac holen (fun k v => proj2 (H2 k v)) H1 order HO); try assumption. right. unfold turns3, turns. now rewrite T. Qed.
(** Otherwise Python 3 agrees as long as the first candidate is acceptable. *)
Theorem C73_python3_first_partial hmac holen order x h1 fuel : mac_ok hmac holen -> 1 < order -> 0 <= x < order -> wf_bytes h1 -> h1 <> [] ->
  let k := candidate hmac holen order (fst (start hmac holen order x h1)) (snd (start hmac holen order x h1)) in
  1 <= k < order -> generate_k hmac holen (S fuel) false order x h1 = Some (Ok k) /\ rfc6979_nonce hmac holen order x h1 k.
Proof. intros [H1 H2] HO Hx W NE k Hk. now apply (nonce_first hmac holen (fun k v => proj2 (H2 k v)) (fun k v => proj1 (H2 k v)) H1 order HO). Qed.
Lemma rfc_functional hmac holen q K V k k' : rfc_loop hmac holen q K V k -> rfc_loop hmac holen q K V k' -> k = k'.
Proof.
  intro H. revert k'. induction H as [K V Hc|K V k Hc _ IH]; intros k' H'.
  - inversion H'; [reflexivity|contradiction].
  - inversion H' as [|k0 H1 H2]; subst; [contradiction|]. now apply IH.
Qed.
(** The RFC's nonce is unique. *)
Theorem C73_unique hmac holen order x h1 k k' : rfc6979_nonce hmac holen order x h1 k -> rfc6979_nonce hmac holen order x h1 k' -> k = k'.
Proof. apply rfc_functional. Qed.
Definition toy (k v : bytes) : bytes := [fold_left (fun a b => (a * 7 + b * 13 + 101) mod 256) (k ++ v) 0 mod 256].
Lemma toy_ok : mac_ok toy 1.
Proof. split; [lia|]. intros k v. split; [|reflexivity]. constructor; [|constructor]. unfold is_byte. apply Z.mod_pos_bound. lia. Qed.
(** After a rejected candidate the extra turn of Python 3 shifts the stream. *)
Theorem C73_python3_refuted : ~ (forall hmac holen order x h1 fuel k, mac_ok hmac holen -> 1 < order -> 0 <= x < order -> wf_bytes h1 -> h1 <> [] ->
  generate_k hmac holen fuel false order x h1 = Some (Ok k) -> rfc6979_nonce hmac holen order x h1 k).
Proof.
  intro H. assert (wf_bytes [3]) as W by (constructor; [unfold is_byte; lia|constructor]).
  destruct (generate_k toy 1 20 false 200 10 [3]) as [[k3|]|] eqn:E3; [|vm_compute in E3; discriminate E3|vm_compute in E3; discriminate E3].
  destruct (generate_k toy 1 20 true 200 10 [3]) as [[k2|]|] eqn:E2; [|vm_compute in E2; discriminate E2|vm_compute in E2; discriminate E2].
  assert (k2 = k3).
  { apply (C73_unique toy 1 200 10 [3]).
    - apply (proj1 (C73_python2 toy 1 200 10 [3] k2 toy_ok ltac:(lia) ltac:(lia) W ltac:(discriminate))). now exists 20%nat.
    - now apply (H toy 1%nat 200 10 [3] 20%nat k3 toy_ok ltac:(lia) ltac:(lia) W ltac:(discriminate)). }
  subst k3. assert (generate_k toy 1 20 false 200 10 [3] <> generate_k toy 1 20 true 200 10 [3]) as D by (vm_compute; discriminate). congruence.
Qed.
(** secp256k1 with SHA-256 makes the extra turn, with SHA-512 it does not. *)
Example C73_extra_turn : ~ no_extra_turn 32 secp256k1_order /\ no_extra_turn 64 secp256k1_order /\ no_extra_turn 64 (2 ^ 521 - 1).
Proof. split; [vm_compute; discriminate|]. split; [vm_compute; reflexivity|vm_compute; reflexivity]. Qed.
Example C73_example : exists k, generate_k toy 1 20 true 200 10 [3] = Some (Ok k) /\ rfc6979_nonce toy 1 200 10 [3] k.
Proof.
  assert (wf_bytes [3]) as W by (constructor; [unfold is_byte; lia|constructor]).
  destruct (generate_k toy 1 20 true 200 10 [3]) as [[k2|]|] eqn:E2; [|vm_compute in E2; discriminate E2|vm_compute in E2; discriminate E2].
  exists k2. split; [reflexivity|]. apply (proj1 (C73_python2 toy 1 200 10 [3] k2 toy_ok ltac:(lia) ltac:(lia) W ltac:(discriminate))). now exists 20%nat.
Qed.

(** ** C76: the accepted signatures (X.690 encodings: DerSpec.v) *)
(** Exactly the two-integer sequences without leftover bytes and without
    negative numbers, except that missing bytes at an end go unnoticed. *)
Theorem C76_strict_partial sig r s : wf_bytes sig -> sigdecode_der sig = Ok (r, s) <-> cut_signature_octets r s sig /\ 0 <= r /\ 0 <= s.
Proof. apply sigdecode_der_iff. Qed.
Theorem C76_strict_complete sig r s : wf_bytes sig -> signature_octets r s sig -> 0 <= r -> 0 <= s -> sigdecode_der sig = Ok (r, s).
Proof. intros W (body & cr & cs & b & T & Tr & Ts & Ir & Is) Hr Hs. apply sigdecode_der_iff; [exact W|]. split; [|now split]. exists body, cr, cs, b. auto 10. Qed.
Theorem C76_trailing_bytes sig r s x junk : wf_bytes (sig ++ x :: junk) -> signature_octets r s sig -> sigdecode_der (sig ++ x :: junk) = Raise UnexpectedDER.
Proof.
  intros W (body & cr & cs & b & T & _). unfold sigdecode_der, remove_sequence.
  assert ((let! _ := expect 48 (sig ++ x :: junk) in body_rest (sig ++ x :: junk)) = Ok (body, x :: junk)) as ->; [|reflexivity].
  apply tagged_iff; [exact W|]. left. destruct T as (h & L & ->). exists h. split; [exact L|]. cbn [app]. rewrite <- !app_assoc. reflexivity.
Qed.
(** A signature with its last bytes cut off is accepted, with other numbers. *)
Theorem C76_strict_refuted : exists sig r s, wf_bytes sig /\ sigdecode_der sig = Ok (r, s) /\ ~ (exists r' s', signature_octets r' s' sig).
Proof.
  exists [48; 8; 2; 1; 5; 2; 3; 7], 5, 7. split; [repeat (constructor; [unfold is_byte; lia|]); constructor|]. split; [vm_compute; reflexivity|].
  intros (r & s & body & cr & cs & b & T & _). assert (body_rest [48; 8; 2; 1; 5; 2; 3; 7] = Ok (body, [])) as E.
  { apply body_rest_iff; [repeat (constructor; [unfold is_byte; lia|]); constructor|now left]. }
  assert (body = [2; 1; 5; 2; 3; 7]) as -> by (vm_compute in E; congruence). destruct T as (h & L & E'). change (zlen [2; 1; 5; 2; 3; 7]) with 6 in L.
  remember 6 as six eqn:S6. destruct L as [n B|ds B]; cbn [app] in E'; [congruence|]. assert (8 = 128 + zlen ds) by congruence. lia.
Qed.
Theorem C76_length_octets s l k : wf_bytes s -> read_length s = Ok (l, k) <-> exists h rest, s = h ++ rest /\ zlen h = k /\ length_octets h l.
Proof. apply read_length_iff. Qed.
(** The decoder behind ecc.verify: leftover bytes are ignored and the numbers
    are read as unsigned, so that a negative r or s is read as a positive one. *)
Theorem C76_liberal sig r s : wf_bytes sig -> ecc_sigdecode_der sig = Ok (r, s) <->
  exists body cr cs rest junk1 junk2, (tlv 48 body junk1 sig \/ cut_tlv 48 body sig) /\ tlv 2 cr rest body /\ (tlv 2 cs junk2 rest \/ cut_tlv 2 cs rest) /\
    cr <> [] /\ cs <> [] /\ r = be_val cr /\ s = be_val cs.
Proof. apply ecc_sigdecode_der_iff. Qed.
Example C76_case : signature_octets 5 255 [48; 129; 7; 2; 1; 5; 2; 2; 0; 255] /\ signature_octets 5 (-1) [48; 6; 2; 1; 5; 2; 1; 255] /\
  sigdecode_der [48; 6; 2; 1; 5; 2; 1; 255] = Raise AssertionError /\ ecc_sigdecode_der [48; 6; 2; 1; 5; 2; 1; 255; 9] = Ok (5, 255).
Proof.
  split; [|split; [|split; reflexivity]].
  - exists [2; 1; 5; 2; 2; 0; 255], [5], [0; 255], [2; 2; 0; 255]. split; [exists [129; 7]; split; [apply (length_long [7]); unfold zlen; cbn [List.length]; lia|reflexivity]|].
    split; [exists [1]; split; [apply length_short; unfold zlen; cbn [List.length]; lia|reflexivity]|]. split; [exists [2]; split; [apply length_short; unfold zlen; cbn [List.length]; lia|reflexivity]|].
    split; [apply (integer_nonnegative 5 []); lia|apply (integer_nonnegative 0 [255]); lia].
  - exists [2; 1; 5; 2; 1; 255], [5], [255], [2; 1; 255]. split; [exists [6]; split; [apply length_short; unfold zlen; cbn [List.length]; lia|reflexivity]|].
    split; [exists [1]; split; [apply length_short; unfold zlen; cbn [List.length]; lia|reflexivity]|]. split; [exists [1]; split; [apply length_short; unfold zlen; cbn [List.length]; lia|reflexivity]|].
    split; [apply (integer_nonnegative 5 []); lia|change (-1) with (be_val [255] - 256 ^ zlen [255]); apply integer_negative; lia].
Qed.

(** ** Assumptions *)

Print Assumptions C36_length.
Print Assumptions C36_integer_partial.
Print Assumptions C36_integer_refuted.
Print Assumptions C36_octet_string.
Print Assumptions C36_bitstring.
Print Assumptions C36_sequence.
Print Assumptions C36_constructed.
Print Assumptions C36_constructed_large.
Print Assumptions C36_number.
Print Assumptions C36_object_identifier.
Print Assumptions C36_object_identifier_refused.
Print Assumptions C35_der_partial.
Print Assumptions C35_der_refuted.
Print Assumptions C65_encoding.
Print Assumptions C65_rejected.
Print Assumptions C65_inverse.
Print Assumptions C65_string_signature.
Print Assumptions C61_randrange.
Print Assumptions C61_randrange_gives_up.
Print Assumptions C61_randrange_uniform.
Print Assumptions C61_overshoot_modulo.
Print Assumptions C61_generate_k.
Print Assumptions C72_low_s_partial.
Print Assumptions C72_low_s_refuted.
Print Assumptions C73_python2.
Print Assumptions C73_python3_partial.
Print Assumptions C73_python3_first_partial.
Print Assumptions C73_unique.
Print Assumptions C73_python3_refuted.
Print Assumptions C76_strict_partial.
Print Assumptions C76_strict_complete.
Print Assumptions C76_trailing_bytes.
Print Assumptions C76_strict_refuted.
Print Assumptions C76_length_octets.
Print Assumptions C76_liberal.
