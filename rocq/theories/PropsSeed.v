(** C107: numbers derived from seeds (nbc/util/ecdsa/util.py). *)
From Coq Require Import String ZArith List Lia Bool Znumtheory.
From Verif Require Import PyBase PyVal PyTextProofs DerModel DerProofs PropsDer SeedModel.
Import ListNotations.
Open Scope string_scope.
Open Scope list_scope.
Open Scope Z_scope.

(** ** Different seeds, different texts *)
Lemma hex_chr_inj a b : 0 <= a < 16 -> 0 <= b < 16 -> hex_chr a = hex_chr b -> a = b.
Proof. unfold hex_chr. intros A B. destruct (Z.ltb_spec a 10), (Z.ltb_spec b 10); lia. Qed.
Lemma repr_byte_inj q a b r s : q = 34 \/ q = 39 -> 0 <= a < 256 -> 0 <= b < 256 ->
  repr_byte q a ++ r = repr_byte q b ++ s -> a = b /\ r = s.
Proof.
  intros Q A B H. unfold repr_byte in H.
  destruct (Z.eqb_spec a q), (Z.eqb_spec a 92), (Z.eqb_spec a 9), (Z.eqb_spec a 10), (Z.eqb_spec a 13), (Z.ltb_spec a 32), (Z.leb_spec 127 a); try lia; cbn [orb] in H;
  destruct (Z.eqb_spec b q), (Z.eqb_spec b 92), (Z.eqb_spec b 9), (Z.eqb_spec b 10), (Z.eqb_spec b 13), (Z.ltb_spec b 32), (Z.leb_spec 127 b); try lia; cbn [orb] in H; cbn [app] in H;
  first [ (injection H; intros; split; [congruence|assumption])
        | (exfalso; injection H; intros; lia)
        | (injection H; intros E1 E2 E3;
           apply hex_chr_inj in E2; [|apply Z.mod_pos_bound; lia|apply Z.mod_pos_bound; lia];
           apply hex_chr_inj in E3; [|split; [apply Z.div_pos; lia|apply Z.div_lt_upper_bound; lia]|split; [apply Z.div_pos; lia|apply Z.div_lt_upper_bound; lia]];
           split; [pose proof (Z.div_mod a 16 ltac:(lia)); pose proof (Z.div_mod b 16 ltac:(lia)); lia|assumption]) ].
Qed.
Lemma repr_byte_head q c : q = 34 \/ q = 39 -> exists x r, repr_byte q c = x :: r /\ x <> q.
Proof.
  intro Q. unfold repr_byte. destruct (Z.eqb_spec c q), (Z.eqb_spec c 92), (c =? 9), (c =? 10), (c =? 13), ((c <? 32) || (127 <=? c)); cbn [orb]; do 2 eexists; (split; [reflexivity|lia]).
Qed.
Lemma flat_repr_inj q a b : q = 34 \/ q = 39 -> wf_bytes a -> wf_bytes b ->
  flat_map (repr_byte q) a ++ [q] = flat_map (repr_byte q) b ++ [q] -> a = b.
Proof.
  intros Q A. revert b. induction A as [|x a X A IH]; intros b B H.
  - destruct B as [|y b Y B]; [reflexivity|]. exfalso. cbn [flat_map app] in H. rewrite <- app_assoc in H. destruct (repr_byte_head q y Q) as (z & r & E & N). rewrite E in H. cbn in H. injection H. intros. lia.
  - destruct B as [|y b Y B].
    + exfalso. cbn [flat_map app] in H. rewrite <- app_assoc in H. destruct (repr_byte_head q x Q) as (z & r & E & N). rewrite E in H. cbn in H. injection H. intros. lia.
    + cbn [flat_map] in H. rewrite <- !app_assoc in H. apply repr_byte_inj in H; [|assumption|exact X|exact Y]. destruct H as (-> & H). f_equal. now apply IH.
Qed.
Lemma repr_quote_cases s : repr_quote s = 34 \/ repr_quote s = 39.
Proof. unfold repr_quote. destruct (_ && _); auto. Qed.
Lemma repr_inj a b : wf_bytes a -> wf_bytes b -> repr_bytes a = repr_bytes b -> a = b.
Proof.
  intros A B H. unfold repr_bytes in H. injection H as E H. rewrite E in H. refine (flat_repr_inj _ _ _ (repr_quote_cases b) A B _). exact H.
Qed.
Lemma split_at (c : Z) a b x y : Forall (fun z => z <> c) a -> Forall (fun z => z <> c) b -> a ++ [c] ++ x = b ++ [c] ++ y -> a = b /\ x = y.
Proof.
  intro A. revert b. induction A as [|z a Z A IH]; intros b B H.
  - destruct B as [|w b W B]; cbn in H; [split; congruence|]. injection H. intros. congruence.
  - destruct B as [|w b W B]; cbn in H; [injection H; intros; congruence|]. injection H as -> H. destruct (IH b B H) as (-> & ->). auto.
Qed.
(** The texts that are hashed differ for different seeds and block numbers. *)
Theorem C107_texts i j seed seed' : 0 <= i -> 0 <= j -> wf_bytes seed -> wf_bytes seed' ->
  prng_text i seed = prng_text j seed' -> i = j /\ seed = seed'.
Proof.
  intros I J A B H. unfold prng_text in H. apply app_inv_head in H.
  assert (forall x, 0 <= x -> Forall (fun y => y <> 45) (text_of_int 10 x)) as D.
  { intros x Hx. destruct (text_of_int_spec 10 x) as (_ & Hd & _); [lia|assumption|]. eapply Forall_impl; [|exact Hd]. intros y Hy. apply digitc_facts in Hy; lia. }
  apply split_at in H; [|now apply D|now apply D]. destruct H as (E & F). split; [|now apply repr_inj].
  apply (f_equal (int_of_text 10)) in E. rewrite !int_of_text_of_int in E by auto. congruence.
Qed.

Section Stream.
  Variable sha256 : bytes -> bytes.
  Hypothesis sha_len : forall x, zlen (sha256 x) = 32.
  Hypothesis sha_wf : forall x, wf_bytes (sha256 x).
  Variable seed : bytes.

  (** The stream: the digests of "prng-0-seed", "prng-1-seed", ... in a row. *)
  Definition stream (i : nat) : Z := nth (i mod 32)%nat (sha256 (prng_text (Z.of_nat (i / 32)) seed)) 0.
  Definition chunk (from len : nat) : bytes := map stream (seq from len).
  Lemma chunk_len p n : zlen (chunk p n) = Z.of_nat n. Proof. unfold chunk, zlen. now rewrite map_length, seq_length. Qed.
  Lemma stream_byte i : is_byte (stream i).
  Proof.
    unfold stream. pose proof (sha_wf (prng_text (Z.of_nat (i / 32)) seed)) as W. unfold wf_bytes in W. rewrite Forall_forall in W. apply W.
    apply nth_In. pose proof (sha_len (prng_text (Z.of_nat (i / 32)) seed)) as L. unfold zlen in L. pose proof (Nat.mod_upper_bound i 32). lia.
  Qed.
  Lemma chunk_wf p n : wf_bytes (chunk p n).
  Proof. apply Forall_forall. intros x H. apply in_map_iff in H. destruct H as (i & <- & _). apply stream_byte. Qed.
  Lemma chunk_cons p n : chunk p (S n) = stream p :: chunk (S p) n. Proof. reflexivity. Qed.
  Lemma list_eq (a b : list Z) : List.length a = List.length b -> (forall i, (i < List.length a)%nat -> nth i a 0 = nth i b 0) -> a = b.
  Proof. intros L H. now apply (nth_ext a b 0 0). Qed.
  Lemma block c : sha256 (prng_text (Z.of_nat c) seed) = chunk (32 * c) 32.
  Proof.
    pose proof (sha_len (prng_text (Z.of_nat c) seed)) as L. unfold zlen in L. apply list_eq.
    - unfold chunk. rewrite map_length, seq_length. lia.
    - intros i Hi. unfold chunk. rewrite (nth_indep (map stream (seq (32 * c) 32)) 0 (stream 0)) by (rewrite map_length, seq_length; lia). rewrite map_nth, seq_nth by lia. unfold stream.
      replace (32 * c + i)%nat with (i + c * 32)%nat by lia. rewrite Nat.mod_add, Nat.div_add, Nat.mod_small, Nat.div_small by lia. reflexivity.
  Qed.
  Definition at_pos (p : nat) (st : prng_state) : Prop :=
    exists c, fst st = Z.of_nat c /\ (p + List.length (snd st) = 32 * c)%nat /\ snd st = chunk p (List.length (snd st)).
  Lemma at_init : at_pos 0 prng_init. Proof. exists 0%nat. repeat split. Qed.
  Lemma next_spec p st : at_pos p st -> exists st', prng_next sha256 seed st = (stream p, st') /\ at_pos (S p) st'.
  Proof.
    intros (c & F & L & S0). destruct st as (cn, left). cbn [fst snd] in *. subst cn. unfold prng_next. destruct left as [|b r].
    - cbn [List.length] in L. rewrite block, chunk_cons. eexists. replace p with (32 * c)%nat by lia. split; [reflexivity|]. exists (S c). cbn [fst snd].
      unfold chunk at 1 3. rewrite map_length, seq_length. repeat split; lia.
    - cbn [List.length] in *. rewrite chunk_cons in S0. injection S0 as -> S0. eexists. split; [reflexivity|]. exists c. cbn [fst snd]. repeat split; [lia|exact S0].
  Qed.
  Lemma call_spec n : forall p st, at_pos p st -> exists st', prng_call sha256 seed n st = (chunk p n, st') /\ at_pos (p + n) st'.
  Proof.
    induction n as [|n IH]; intros p st H; cbn [prng_call].
    - eexists. split; [reflexivity|]. now rewrite Nat.add_0_r.
    - destruct (next_spec p st H) as (st1 & -> & H1). destruct (IH (S p) st1 H1) as (st2 & -> & H2). eexists. split; [reflexivity|]. now rewrite <- Nat.add_succ_comm.
  Qed.

  (** The candidates of [trytryagain]: consecutive groups of as many whole
      bytes as hold [bits] bits, of which the low [bits] count. *)
  Definition width (bits : Z) : nat := Z.to_nat ((bits + 7) / 8).
  Definition candidate (bits : Z) (j : nat) : Z := be_val (chunk (j * width bits) (width bits)) mod 2 ^ bits.

  Lemma pow_256 n : 0 <= n -> 256 ^ n = 2 ^ (8 * n). Proof. intro H. change 256 with (2 ^ 8). now rewrite <- Z.pow_mul_r by lia. Qed.
  Lemma loop_spec bits order (Hb : 1 <= bits) fuel : forall j st, at_pos (j * width bits) st ->
    let r := trytryagain_loop sha256 fuel seed (bits / 8) (bits mod 8) order st in
    (r = None /\ forall i, (i < fuel)%nat -> order <= candidate bits (j + i) + 1) \/
    (exists i, (i < fuel)%nat /\ (forall k, (k < i)%nat -> order <= candidate bits (j + k) + 1) /\ candidate bits (j + i) + 1 < order /\ r = Some (Ok (candidate bits (j + i) + 1))).
  Proof.
    induction fuel as [|fuel IH]; intros j st H; cbn [trytryagain_loop].
    - left. split; [reflexivity|]. intros; lia.
    - pose proof (Z.div_mod bits 8 ltac:(lia)) as D. pose proof (Z.mod_pos_bound bits 8 ltac:(lia)) as M.
      assert (0 <= bits / 8) as Hn by (apply Z.div_pos; lia).
      assert (exists extra st1 body st2, (if bits mod 8 =? 0 then ([], st) else let (c, st) := prng_next sha256 seed st in ([Z.land c (lsb_of_ones (bits mod 8))], st)) = (extra, st1) /\
        prng_call sha256 seed (Z.to_nat (bits / 8)) st1 = (body, st2) /\ at_pos (S j * width bits) st2 /\ extra ++ body <> [] /\ be_val (extra ++ body) = candidate bits j) as (extra & st1 & body & st2 & E1 & E2 & H2 & NE & V).
      { destruct (Z.eqb_spec (bits mod 8) 0) as [Z0|NZ].
        - assert (width bits = Z.to_nat (bits / 8)) as Wd. { unfold width. f_equal. replace (bits + 7) with (7 + (bits / 8) * 8) by lia. rewrite Z.div_add by lia. reflexivity. }
          destruct (call_spec (Z.to_nat (bits / 8)) _ _ H) as (st2 & E & H2). do 4 eexists. split; [reflexivity|]. split; [exact E|]. split; [|split].
          + replace (S j * width bits)%nat with (j * width bits + Z.to_nat (bits / 8))%nat by lia. exact H2.
          + cbn [app]. intro X. apply (f_equal zlen) in X. rewrite chunk_len in X. cbn in X. lia.
          + unfold candidate. rewrite Wd. cbn [app]. symmetry. apply Z.mod_small. pose proof (be_val_bound _ (chunk_wf (j * Z.to_nat (bits / 8)) (Z.to_nat (bits / 8)))) as B.
            rewrite chunk_len, pow_256, Z2Nat.id in B by lia. rewrite <- Wd in *. replace (8 * (bits / 8)) with bits in B by lia. exact B.
        - assert (width bits = S (Z.to_nat (bits / 8))) as Wd. { unfold width. replace (bits + 7) with ((bits mod 8 + 7) + (bits / 8) * 8) by lia. rewrite Z.div_add by lia. replace ((bits mod 8 + 7) / 8) with 1; [lia|]. apply Z.div_unique with (bits mod 8 - 1); lia. }
          destruct (next_spec _ _ H) as (st1 & En & H1). rewrite En. destruct (call_spec (Z.to_nat (bits / 8)) _ _ H1) as (st2 & E & H2). do 4 eexists. split; [reflexivity|]. split; [exact E|]. split; [|split].
          + replace (S j * width bits)%nat with (S (j * width bits) + Z.to_nat (bits / 8))%nat by lia. exact H2.
          + discriminate.
          + unfold candidate. set (p := (j * width bits)%nat). rewrite Wd, chunk_cons. cbn [app]. rewrite !be_val_cons, chunk_len, Z2Nat.id by lia.
            pose proof (be_val_bound _ (chunk_wf (S p) (Z.to_nat (bits / 8)))) as B. rewrite chunk_len, Z2Nat.id in B by lia. set (v := be_val _) in *. rewrite pow_256 in * by lia.
            unfold lsb_of_ones. rewrite Z.shiftl_1_l. replace (2 ^ (bits mod 8) - 1) with (Z.ones (bits mod 8)) by (rewrite Z.ones_equiv; lia). rewrite Z.land_ones by lia.
            replace bits with (bits mod 8 + 8 * (bits / 8)) at 4 by lia. rewrite Z.pow_add_r by lia. set (N := 2 ^ (8 * (bits / 8))) in *. set (E0 := 2 ^ (bits mod 8)). assert (0 < N) by lia. assert (0 < E0) by (apply Z.pow_pos_nonneg; lia).
            apply Z.mod_unique with (stream p / E0).
            * left. pose proof (Z.mod_pos_bound (stream p) E0 ltac:(lia)). nia.
            * pose proof (Z.div_mod (stream p) E0 ltac:(lia)). nia. }
      rewrite E1, E2, string_to_number_spec, V by assumption.
      assert (0 <= candidate bits j) as P by (apply Z.mod_pos_bound; apply Z.pow_pos_nonneg; lia).
      destruct (Z.leb_spec 1 (candidate bits j + 1)); [|lia]. cbn [andb]. destruct (Z.ltb_spec (candidate bits j + 1) order) as [Lt|Ge].
      + right. exists 0%nat. rewrite Nat.add_0_r. split; [lia|]. split; [intros; lia|]. split; [exact Lt|reflexivity].
      + destruct (IH (S j) st2 H2) as [(-> & A)|(i & Hi & A & Lt & ->)].
        * left. split; [reflexivity|]. intros [|i] Hi; [rewrite Nat.add_0_r; exact Ge|]. rewrite <- Nat.add_succ_comm. apply A. lia.
        * right. exists (S i). split; [lia|]. rewrite <- Nat.add_succ_comm. split; [|split; [exact Lt|reflexivity]].
          intros [|k] Hk; [rewrite Nat.add_0_r; exact Ge|]. rewrite <- Nat.add_succ_comm. apply A. lia.
  Qed.

  (** trytryagain returns [k] exactly if [k - 1] is the first candidate below
      [order - 1]; it does not raise. *)
  Theorem C107_trytryagain bits order fuel : 1 < order -> 1 <= bits ->
    (forall k, from_seed_trytryagain sha256 fuel bits seed order = Some (Ok k) <->
       exists j, (j < fuel)%nat /\ (forall i, (i < j)%nat -> order - 1 <= candidate bits i) /\ candidate bits j < order - 1 /\ k = candidate bits j + 1) /\
    (forall e, from_seed_trytryagain sha256 fuel bits seed order <> Some (Raise e)).
  Proof.
    intros HO HB. unfold from_seed_trytryagain. destruct (Z.ltb_spec 1 order); [|lia]. cbn [negb bits_and_bytes].
    destruct (loop_spec bits order HB fuel 0 prng_init at_init) as [(-> & A)|(i & Hi & A & L & ->)]; cbn [Nat.add] in *.
    - split; [|discriminate]. intro k. split; [discriminate|]. intros (j & Hj & _ & L & _). specialize (A j Hj). lia.
    - split; [|discriminate]. intro k. split.
      + intro E. injection E as <-. exists i. split; [exact Hi|]. split; [intros m Hm; specialize (A m Hm); lia|]. split; [lia|reflexivity].
      + intros (j & Hj & B & L' & ->). assert (i = j) as ->; [|reflexivity]. destruct (Nat.lt_trichotomy i j) as [X|[X|X]]; [specialize (B i X); lia|exact X|specialize (A j X); lia].
  Qed.
  (** In range, whatever [math.log] gave. *)
  Theorem C107_range bits order fuel k : 1 < order -> 1 <= bits ->
    from_seed_trytryagain sha256 fuel bits seed order = Some (Ok k) -> 1 <= k < order.
  Proof.
    intros HO HB H. apply C107_trytryagain in H; [|assumption|assumption]. destruct H as (j & _ & _ & L & ->). unfold candidate in *.
    pose proof (Z.mod_pos_bound (be_val (chunk (j * width bits) (width bits))) (2 ^ bits) ltac:(apply Z.pow_pos_nonneg; lia)). lia.
  Qed.
  (** It ends as soon as one candidate is in range, and more time gives the
      same number. *)
  Theorem C107_ends bits order j : 1 < order -> 1 <= bits -> candidate bits j < order - 1 ->
    exists k, forall fuel, (j < fuel)%nat -> from_seed_trytryagain sha256 fuel bits seed order = Some (Ok k).
  Proof.
    intros HO HB. revert j. induction j as [j IH] using (well_founded_induction Wf_nat.lt_wf). intro L.
    assert ((exists i, (i < j)%nat /\ candidate bits i < order - 1) \/ forall i, (i < j)%nat -> order - 1 <= candidate bits i) as [(i & Hi & Li)|A].
    { clear. induction j as [|j IH]; [right; intros; lia|]. destruct IH as [(i & Hi & L)|A]; [left; exists i; split; [lia|exact L]|].
      destruct (Z_lt_le_dec (candidate bits j) (order - 1)) as [L|G]; [left; exists j; split; [lia|exact L]|]. right. intros i Hi. destruct (Nat.eq_dec i j) as [->|]; [exact G|apply A; lia]. }
    - destruct (IH i Hi Li) as (k & Hk). exists k. intros fuel Hf. apply Hk. lia.
    - exists (candidate bits j + 1). intros fuel Hf. apply C107_trytryagain; [assumption|assumption|]. exists j. auto.
  Qed.
  (** The other method: the first bytes of the stream, reduced. *)
  Theorem C107_overshoot order : 1 < order ->
    let k := be_val (chunk 0 (Z.to_nat (2 * orderlen order))) mod (order - 1) + 1 in
    from_seed_overshoot_modulo sha256 seed order = Ok k /\ 1 <= k < order.
  Proof.
    intro HO. unfold from_seed_overshoot_modulo. destruct (call_spec (Z.to_nat (2 * orderlen order)) 0 prng_init at_init) as (st & E & _). rewrite E. cbn [fst].
    apply C61_overshoot_modulo; [exact HO|apply chunk_wf|]. destruct (orderlen_spec order ltac:(lia)) as (A & _ & _). intro X. apply (f_equal zlen) in X. rewrite chunk_len in X. change (zlen []) with 0 in X. lia.
  Qed.
End Stream.

(** Every number of the range is the candidate of some bytes, and equally many
    bytes give each, if [bits] is large enough. *)
Theorem C107_uniform bits order k top : 1 <= bits -> order - 1 <= 2 ^ bits -> 1 <= k < order -> 0 <= top < 2 ^ (8 * Z.of_nat (width bits) - bits) ->
  exists s, (wf_bytes s /\ zlen s = Z.of_nat (width bits) /\ be_val s mod 2 ^ bits + 1 = k /\ be_val s / 2 ^ bits = top) /\
  forall s', wf_bytes s' /\ zlen s' = Z.of_nat (width bits) /\ be_val s' mod 2 ^ bits + 1 = k /\ be_val s' / 2 ^ bits = top -> s' = s.
Proof.
  intros HB HO Hk Ht. set (w := width bits) in *. assert (bits <= 8 * Z.of_nat w) as Hw.
  { unfold w, width. pose proof (Z.div_mod (bits + 7) 8 ltac:(lia)). pose proof (Z.mod_pos_bound (bits + 7) 8 ltac:(lia)). rewrite Z2Nat.id; [lia|apply Z.div_pos; lia]. }
  assert (0 < 2 ^ bits) as P by (apply Z.pow_pos_nonneg; lia).
  assert (256 ^ Z.of_nat w = 2 ^ (8 * Z.of_nat w - bits) * 2 ^ bits) as Ew by (rewrite pow_256, <- Z.pow_add_r by lia; f_equal; lia).
  set (T := 2 ^ (8 * Z.of_nat w - bits)) in *. exists (be_bytes w (top * 2 ^ bits + (k - 1))).
  assert (0 <= top * 2 ^ bits + (k - 1) < 256 ^ Z.of_nat w) as R by (rewrite Ew; nia). split.
  - split; [apply wf_be_bytes|]. split; [apply zlen_be_bytes|]. rewrite be_val_be_bytes_small by exact R.
    rewrite (Z.add_comm (top * 2 ^ bits)), Z.mod_add, Z.div_add, Z.mod_small, Z.div_small by lia. lia.
  - intros s' (W & L & M & Q). replace (top * 2 ^ bits + (k - 1)) with (be_val s'). 2: { pose proof (Z.div_mod (be_val s') (2 ^ bits) ltac:(lia)) as D. rewrite Q in D. lia. }
    assert (List.length s' = w) as Ls by (unfold zlen in L; lia). rewrite <- Ls. symmetry. now apply be_bytes_be_val.
Qed.

(** The two truncating methods never work on Python 3; on Python 2 they fail
    for some digests, and the second does not reach all of the range. *)
Theorem C107_truncate_refuted : forall hash bits seed order,
  from_seed_truncate_bytes false hash bits seed order = Raise TypeError /\ from_seed_truncate_bits false hash bits seed order = Raise TypeError.
Proof. intros. split; reflexivity. Qed.
Theorem C107_truncate_python2_refuted :
  (exists hash, from_seed_truncate_bytes true hash 8 [] 200 = Raise AssertionError) /\
  (exists hash, from_seed_truncate_bits true hash 9 [] 300 = Raise AssertionError) /\
  (forall hash seed k, (forall x, wf_bytes (hash x)) -> from_seed_truncate_bits true hash 5 seed 30 = Ok k -> k <= 8).
Proof.
  split; [exists (fun _ => repeat 255 32); reflexivity|]. split; [exists (fun _ => repeat 255 32); reflexivity|].
  intros hash seed k W H. unfold from_seed_truncate_bits in H. change ((5 + 7) / 8) with 1 in H. cbn [negb] in H. change (8 * 1 - 5 =? 0) with false in H. cbv iota in H.
  assert (forall s, (s = [] \/ exists x, s = [x]) -> exists c, repeat 0 (Z.to_nat (1 - zlen s)) ++ s = [c]) as One.
  { intros s [->|(x & ->)]; eexists; reflexivity. }
  destruct (One (ztake 1 (hash seed))) as (c & E). { destruct (hash seed) as [|x r]; [left; reflexivity|right; exists x; rewrite ztake_firstn; reflexivity]. }
  rewrite E in H. cbn [bind] in H. change (lsb_of_ones (8 * 1 - 5)) with (Z.ones 3) in H. rewrite Z.land_ones in H by lia. unfold bytes_int in H. cbn [bind] in H.
  pose proof (Z.mod_pos_bound c (2 ^ 3) ltac:(lia)) as B. change (2 ^ 3) with 8 in *. assert (be_val [c mod 8] = c mod 8) as V by (rewrite be_val_cons; change (zlen []) with 0; change (be_val []) with 0; lia). rewrite V in H.
  match type of H with (if ?b then _ else _) = _ => destruct b end; [|discriminate]. assert (k = 1 + c mod 8) as -> by congruence. lia.
Qed.
(** Where they do work: the number is one more than that of the first bytes. *)
Theorem C107_truncate_bytes_partial hash bits seed order k : 1 <= bits -> (forall x, wf_bytes (hash x)) ->
  from_seed_truncate_bytes true hash bits seed order = Ok k <-> k = be_val (ztake (Z.of_nat (width bits)) (hash seed)) + 1 /\ k < order.
Proof.
  intros HB W. unfold from_seed_truncate_bytes, bits_and_bytes.
  assert ((if bits mod 8 =? 0 then bits / 8 else bits / 8 + 1) = Z.of_nat (width bits)) as ->.
  { unfold width. pose proof (Z.div_mod bits 8 ltac:(lia)). pose proof (Z.mod_pos_bound bits 8 ltac:(lia)). assert (0 <= bits / 8) by (apply Z.div_pos; lia).
    replace (bits + 7) with ((bits mod 8 + 7) + (bits / 8) * 8) by lia. rewrite Z.div_add by lia. destruct (Z.eqb_spec (bits mod 8) 0) as [->|N].
    - change ((0 + 7) / 8) with 0. lia.
    - replace ((bits mod 8 + 7) / 8) with 1; [lia|]. apply Z.div_unique with (bits mod 8 - 1); lia. }
  assert (0 < Z.of_nat (width bits)) as Hw. { unfold width. rewrite Z2Nat.id; [|apply Z.div_pos; lia]. apply Z.div_str_pos. lia. }
  cbn [negb]. set (d := ztake (Z.of_nat (width bits)) (hash seed)). set (z := repeat 0 (Z.to_nat (Z.of_nat (width bits) - zlen d))).
  assert (z ++ d <> []) as NE. { intro X. apply app_eq_nil in X. destruct X as (X1 & X2). unfold z in X1. rewrite X2 in X1. apply (f_equal zlen) in X1. rewrite zlen_repeat in X1. cbn in X1. lia. }
  replace (bytes_int (z ++ d)) with (Ok (be_val d)). 2: { unfold bytes_int. destruct (z ++ d) eqn:E; [congruence|]. rewrite <- E. rewrite be_val_app. unfold z.
    assert (be_val (repeat 0 (Z.to_nat (Z.of_nat (width bits) - zlen d))) = 0) as ->; [|reflexivity]. generalize (Z.to_nat (Z.of_nat (width bits) - zlen d)). intro m. induction m as [|m IH]; [reflexivity|]. cbn [repeat]. rewrite be_val_cons, IH. lia. }
  cbn [bind]. assert (0 <= be_val d) as P. { apply be_val_bound. apply Forall_ztake. apply W. }
  destruct (Z.leb_spec 1 (1 + be_val d)); [|lia]. cbn [andb]. destruct (Z.ltb_spec (1 + be_val d) order); split.
  - intro E. assert (k = 1 + be_val d) by congruence. lia.
  - intros (-> & _). f_equal. lia.
  - discriminate.
  - intros (-> & L). lia.
Qed.
Definition seed_sha (x : bytes) : bytes := le_bytes 32 (be_val x * 2654435761).
Example C107_applies : (forall x, zlen (seed_sha x) = 32 /\ wf_bytes (seed_sha x)) /\
  from_seed_trytryagain seed_sha 1 9 (bs "abc") 300 = None /\ from_seed_trytryagain seed_sha 9 9 (bs "abc") 300 = Some (Ok 54) /\
  candidate seed_sha (bs "abc") 9 0 = 508 /\ from_seed_overshoot_modulo seed_sha (bs "abc") 300 = Ok 18.
Proof. split; [intro x; split; [apply zlen_le_bytes|apply wf_le_bytes]|]. repeat split; vm_compute; reflexivity. Qed.

(** ** Assumptions *)

Print Assumptions C107_texts.
Print Assumptions C107_trytryagain.
Print Assumptions C107_range.
Print Assumptions C107_ends.
Print Assumptions C107_overshoot.
Print Assumptions C107_uniform.
Print Assumptions C107_truncate_refuted.
Print Assumptions C107_truncate_python2_refuted.
Print Assumptions C107_truncate_bytes_partial.
