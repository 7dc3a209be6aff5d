(** The deterministic nonce is that of RFC 6979. *)
From Coq Require Import ZArith List Lia Bool.
From Verif Require Import PyBase PyVal UtilModel Base58Proofs DerModel DerProofs Rfc6979Spec.
Import ListNotations.
Open Scope list_scope.
Open Scope Z_scope.

Section Proofs.
  Variable hmac : bytes -> bytes -> bytes.
  Variable holen : nat.
  Hypothesis Hlen : forall k v, List.length (hmac k v) = holen.
  Hypothesis Hwf : forall k v, wf_bytes (hmac k v).
  Hypothesis Hh : (1 <= holen)%nat.
  Variable q : Z.
  Hypothesis Hq : 1 < q.
  Let ql := qlen q.
  Lemma ql_pos : 1 <= ql. Proof. unfold ql, qlen. pose proof (Z.log2_nonneg q). lia. Qed.
  Lemma rlen_orderlen : Z.of_nat (rlen q) = orderlen q.
  Proof.
    destruct (orderlen_spec q ltac:(lia)) as (A & B & C). unfold rlen. fold ql. pose proof ql_pos.
    rewrite Z2Nat.id by (apply Z.div_pos; lia). pose proof (Z.log2_spec q ltac:(lia)) as [L U]. unfold ql, qlen in *.
    pose proof (Z.div_mod (Z.log2 q + 1 + 7) 8 ltac:(lia)). pose proof (Z.mod_pos_bound (Z.log2 q + 1 + 7) 8 ltac:(lia)).
    change 256 with (2 ^ 8) in B, C. rewrite <- !Z.pow_mul_r in * by lia.
    assert (Z.log2 q < 8 * orderlen q) by (apply (Z.pow_lt_mono_r_iff 2); lia).
    destruct C as [C|C]; [lia|]. assert (8 * (orderlen q - 1) < Z.succ (Z.log2 q)) by (apply (Z.pow_lt_mono_r_iff 2); lia). lia.
  Qed.
  Lemma bits2int_spec s : s <> [] -> bits2int s ql = Ok (spec_bits2int q s).
  Proof.
    intro H. unfold bits2int, bytes_int, spec_bits2int. fold ql. destruct s as [|b s]; [congruence|]. cbn [bind]. f_equal.
    destruct (Z.ltb_spec ql (zlen (b :: s) * 8)).
    - rewrite Z.shiftr_div_pow2 by lia. do 2 f_equal. lia.
    - rewrite Z.max_l by lia. now rewrite Z.div_1_r.
  Qed.
  Lemma spec_bound s : wf_bytes s -> 0 <= spec_bits2int q s < 2 ^ ql.
  Proof.
    intro W. unfold spec_bits2int. fold ql. pose proof (be_val_bound s W) as B. pose proof ql_pos. split; [apply Z.div_pos; [lia|apply Z.pow_pos_nonneg; lia]|].
    apply Z.div_lt_upper_bound; [apply Z.pow_pos_nonneg; lia|]. rewrite <- Z.pow_add_r by lia. apply Z.lt_le_trans with (1 := proj2 B). change 256 with (2 ^ 8).
    pose proof (zlen_nonneg s). rewrite <- Z.pow_mul_r by lia. apply Z.pow_le_mono_r; lia.
  Qed.
  Lemma bits2octets_spec s : wf_bytes s -> s <> [] -> bits2octets s q = Ok (spec_bits2octets q s).
  Proof.
    intros W NE. unfold bits2octets. change (bit_length q) with ql. rewrite bits2int_spec by exact NE. cbn [bind]. pose proof (spec_bound s W) as B.
    pose proof (Z.log2_spec q ltac:(lia)) as [L U]. assert (2 ^ ql <= 2 * q) as P by (unfold ql, qlen; rewrite Z.pow_add_r by (try apply Z.log2_nonneg; lia); lia).
    set (z := spec_bits2int q s) in *.
    assert ((if z - q <? 0 then z else z - q) = z mod q) as ->.
    { destruct (Z.ltb_spec (z - q) 0); [symmetry; apply Z.mod_small; lia|]. apply (Z.mod_unique _ _ 1); lia. }
    unfold number_to_string_crop. destruct (orderlen_spec q ltac:(lia)) as (A & B' & C). pose proof (Z.mod_pos_bound z q ltac:(lia)).
    rewrite unhex_small by lia. cbn [bind]. unfold spec_bits2octets, int2octets. fold z. replace (Z.to_nat (orderlen q)) with (rlen q) by (pose proof rlen_orderlen; lia).
    f_equal. apply ztake_all. rewrite zlen_be_bytes, rlen_orderlen. lia.
  Qed.
  Lemma blocks_len m : forall K V, List.length (snd (blocks hmac m K V)) = (m * holen)%nat.
  Proof. induction m as [|m IH]; intros K V; cbn [blocks fst snd]; [reflexivity|]. rewrite app_length, IH, Hlen. lia. Qed.
  Lemma blocks_wf m : forall K V, wf_bytes (snd (blocks hmac m K V)).
  Proof. induction m as [|m IH]; intros K V; cbn [blocks fst snd]; [constructor|]. apply Forall_app. split; [apply Hwf|apply IH]. Qed.
  Lemma blocks_app m j : forall K V, exists r, snd (blocks hmac (m + j) K V) = snd (blocks hmac m K V) ++ r /\ wf_bytes r.
  Proof.
    induction m as [|m IH]; intros K V; cbn [Nat.add blocks fst snd].
    - eexists. split; [reflexivity|apply blocks_wf].
    - destruct (IH K (hmac K V)) as (r & E & W). exists r. rewrite E, app_assoc. now split.
  Qed.
  Lemma fill_blocks py2 m : forall fuel k v t, (m <= fuel)%nat ->
    (forall j, (j < m)%nat -> forall t', List.length t' = (List.length t + j * holen)%nat -> short py2 t' ql = true) ->
    (forall t', List.length t' = (List.length t + m * holen)%nat -> short py2 t' ql = false) ->
    fill hmac fuel py2 k v t ql = (fst (blocks hmac m k v), t ++ snd (blocks hmac m k v)).
  Proof.
    induction m as [|m IH]; intros fuel k v t Hf HS HN.
    - assert (short py2 t ql = false) as S by (apply HN; lia). cbn [blocks fst snd]. rewrite app_nil_r. destruct fuel; cbn [fill]; rewrite S; reflexivity.
    - destruct fuel as [|fuel]; [lia|]. cbn [fill]. rewrite (HS 0%nat) by (try rewrite Nat.mul_0_l; lia). cbn [blocks fst snd].
      rewrite IH; [now rewrite <- app_assoc|lia| |].
      + intros j Hj t' Ht'. apply (HS (S j)); [lia|]. rewrite Ht', app_length, Hlen. lia.
      + intros t' Ht'. apply HN. rewrite Ht', app_length, Hlen. lia.
  Qed.
  (** The number of turns on Python 3. *)
  Definition turns3 : nat := Z.to_nat ((ql + 7 + 8 * Z.of_nat holen - 1) / (8 * Z.of_nat holen)).
  Let m2 := turns holen q.
  Lemma ceil_spec x h : 1 <= x -> 1 <= h -> let m := (x + h - 1) / h in 1 <= m /\ x <= h * m /\ h * (m - 1) < x.
  Proof. intros Hx H1 m. pose proof (Z.div_mod (x + h - 1) h ltac:(lia)). pose proof (Z.mod_pos_bound (x + h - 1) h ltac:(lia)). fold m in H. nia. Qed.
  Lemma fill_py2 k v : fill hmac (Z.to_nat (ql + 1)) true k v [] ql = (fst (blocks hmac m2 k v), snd (blocks hmac m2 k v)).
  Proof.
    pose proof ql_pos. destruct (ceil_spec ql (8 * Z.of_nat holen) ltac:(lia) ltac:(lia)) as (A & B & C).
    unfold m2, turns. fold ql. set (m := (ql + 8 * Z.of_nat holen - 1) / (8 * Z.of_nat holen)) in *.
    apply (fill_blocks true).
    - nia.
    - intros j Hj t' Ht'. cbn [List.length] in Ht'. unfold short, zlen. rewrite Ht'. apply Z.ltb_lt. pose proof (Z.div_mod (ql + 7) 8 ltac:(lia)). pose proof (Z.mod_pos_bound (ql + 7) 8 ltac:(lia)). nia.
    - intros t' Ht'. cbn [List.length] in Ht'. unfold short, zlen. rewrite Ht'. apply Z.ltb_ge. pose proof (Z.div_mod (ql + 7) 8 ltac:(lia)). pose proof (Z.mod_pos_bound (ql + 7) 8 ltac:(lia)). nia.
  Qed.
  Lemma fill_py3 k v : fill hmac (Z.to_nat (ql + 1)) false k v [] ql = (fst (blocks hmac turns3 k v), snd (blocks hmac turns3 k v)).
  Proof.
    pose proof ql_pos. destruct (ceil_spec (ql + 7) (8 * Z.of_nat holen) ltac:(lia) ltac:(lia)) as (A & B & C).
    unfold turns3. set (m := (ql + 7 + 8 * Z.of_nat holen - 1) / (8 * Z.of_nat holen)) in *.
    apply (fill_blocks false).
    - nia.
    - intros j Hj t' Ht'. cbn [List.length] in Ht'. unfold short, zlen. rewrite Ht'. apply Z.ltb_lt. nia.
    - intros t' Ht'. cbn [List.length] in Ht'. unfold short, zlen. rewrite Ht'. apply Z.ltb_ge. nia.
  Qed.
  Lemma turns_pos : (1 <= m2)%nat.
  Proof. pose proof ql_pos. destruct (ceil_spec ql (8 * Z.of_nat holen) ltac:(lia) ltac:(lia)) as (A & _). unfold m2, turns. fold ql. lia. Qed.
  Lemma blocks_nonempty m K V : (1 <= m)%nat -> snd (blocks hmac m K V) <> [].
  Proof. intros H E. apply (f_equal (@List.length Z)) in E. rewrite blocks_len in E. cbn in E. nia. Qed.
  Lemma turns_enough K V m : (m2 <= m)%nat -> spec_bits2int q (snd (blocks hmac m K V)) = candidate hmac holen q K V.
  Proof.
    intro H. unfold candidate. fold m2. replace m with (m2 + (m - m2))%nat by lia. destruct (blocks_app m2 (m - m2) K V) as (r & E & W). rewrite E.
    pose proof (blocks_len m2 K V) as L. pose proof (blocks_wf m2 K V) as WT. set (T := snd (blocks hmac m2 K V)) in *. unfold spec_bits2int. fold ql.
    rewrite be_val_app, zlen_app. pose proof (be_val_bound r W) as Br. pose proof (zlen_nonneg r).
    assert (ql <= 8 * zlen T) as Lt.
    { pose proof ql_pos. destruct (ceil_spec ql (8 * Z.of_nat holen) ltac:(lia) ltac:(lia)) as (A & B & C). unfold zlen. rewrite L. unfold m2, turns. fold ql.
      rewrite Nat2Z.inj_mul, Z2Nat.id by lia. lia. }
    rewrite !Z.max_r by lia. replace (8 * (zlen T + zlen r) - ql) with (8 * zlen r + (8 * zlen T - ql)) by lia. rewrite Z.pow_add_r by lia.
    rewrite <- Z.div_div by (apply Z.pow_nonzero || apply Z.pow_pos_nonneg; lia). f_equal. change 256 with (2 ^ 8) in *. rewrite <- Z.pow_mul_r in * by lia.
    symmetry. apply (Z.div_unique _ _ _ (be_val r)); lia.
  Qed.
  (** Python 2 computes the RFC's nonce, and Python 3 too when it makes as many
      turns. *)
  Definition same_turns (py2 : bool) : Prop := py2 = true \/ turns3 = m2.
  Lemma fill_same py2 k v : same_turns py2 -> fill hmac (Z.to_nat (ql + 1)) py2 k v [] ql = (fst (blocks hmac m2 k v), snd (blocks hmac m2 k v)).
  Proof. intros [->|E]; [apply fill_py2|]. destruct py2; [apply fill_py2|]. rewrite fill_py3, E. reflexivity. Qed.
  Lemma loop_sound py2 fuel : same_turns py2 -> forall K V r, nonce_loop hmac fuel py2 K V q ql = Some r -> exists k, r = Ok k /\ rfc_loop hmac holen q K V k.
  Proof.
    intro HT. induction fuel as [|fuel IH]; intros K V r H; cbn [nonce_loop] in H; [discriminate|]. rewrite fill_same in H by exact HT.
    rewrite bits2int_spec in H by (apply blocks_nonempty, turns_pos). fold m2 in H. change (spec_bits2int q (snd (blocks hmac m2 K V))) with (candidate hmac holen q K V) in H.
    destruct ((1 <=? candidate hmac holen q K V) && (candidate hmac holen q K V <? q)) eqn:E.
    - apply andb_true_iff in E. rewrite Z.leb_le, Z.ltb_lt in E. exists (candidate hmac holen q K V). split; [congruence|]. now apply rfc_accept.
    - apply IH in H. destruct H as (k & -> & H). exists k. split; [reflexivity|]. apply rfc_retry; [|exact H]. intro X. apply andb_false_iff in E. rewrite Z.leb_gt, Z.ltb_ge in E. lia.
  Qed.
  Lemma loop_complete py2 : same_turns py2 -> forall K V k, rfc_loop hmac holen q K V k -> exists fuel, nonce_loop hmac fuel py2 K V q ql = Some (Ok k).
  Proof.
    intros HT K V k H. induction H as [K V Hc|K V k Hc _ [fuel IH]].
    - exists 1%nat. cbn [nonce_loop]. rewrite fill_same by exact HT. rewrite bits2int_spec by (apply blocks_nonempty, turns_pos). change (spec_bits2int q (snd (blocks hmac m2 K V))) with (candidate hmac holen q K V).
      destruct (Z.leb_spec 1 (candidate hmac holen q K V)); [|lia]. destruct (Z.ltb_spec (candidate hmac holen q K V) q); [|lia]. reflexivity.
    - exists (S fuel). cbn [nonce_loop]. rewrite fill_same by exact HT. rewrite bits2int_spec by (apply blocks_nonempty, turns_pos). change (spec_bits2int q (snd (blocks hmac m2 K V))) with (candidate hmac holen q K V).
      replace ((1 <=? candidate hmac holen q K V) && (candidate hmac holen q K V <? q)) with false; [exact IH|]. symmetry. apply andb_false_iff. rewrite Z.leb_gt, Z.ltb_ge. lia.
  Qed.
  Lemma start_eq fuel py2 x h1 : 0 <= x < q -> wf_bytes h1 -> h1 <> [] ->
    generate_k hmac holen fuel py2 q x h1 = nonce_loop hmac fuel py2 (fst (start hmac holen q x h1)) (snd (start hmac holen q x h1)) q ql.
  Proof.
    intros Hx W NE. unfold generate_k. destruct (orderlen_spec q ltac:(lia)) as (A & B & _). rewrite number_to_string_spec by lia. destruct (Z.ltb_spec x 0); [lia|]. destruct (Z.ltb_spec x (256 ^ orderlen q)); [|lia].
    cbn [bind]. rewrite bits2octets_spec by assumption. cbn [bind]. unfold start, int2octets. cbn [fst snd]. rewrite <- rlen_orderlen, Nat2Z.id. reflexivity.
  Qed.
  Theorem nonce_rfc py2 x h1 k : same_turns py2 -> 0 <= x < q -> wf_bytes h1 -> h1 <> [] ->
    ((exists fuel, generate_k hmac holen fuel py2 q x h1 = Some (Ok k)) <-> rfc6979_nonce hmac holen q x h1 k) /\
    (forall fuel e, generate_k hmac holen fuel py2 q x h1 <> Some (Raise e)).
  Proof.
    intros HT Hx W NE. split; [split|].
    - intros [fuel H]. rewrite start_eq in H by assumption. apply loop_sound in H; [|exact HT]. destruct H as (k' & E & H). assert (k' = k) as -> by congruence. exact H.
    - intro H. destruct (loop_complete py2 HT _ _ _ H) as [fuel E]. exists fuel. now rewrite start_eq.
    - intros fuel e H. rewrite start_eq in H by assumption. apply loop_sound in H; [|exact HT]. destruct H as (k' & E & _). discriminate E.
  Qed.
  (** On Python 3 the first candidate is the RFC's. *)
  Theorem nonce_first py2 x h1 fuel : 0 <= x < q -> wf_bytes h1 -> h1 <> [] ->
    let k := candidate hmac holen q (fst (start hmac holen q x h1)) (snd (start hmac holen q x h1)) in
    1 <= k < q -> generate_k hmac holen (S fuel) py2 q x h1 = Some (Ok k) /\ rfc6979_nonce hmac holen q x h1 k.
  Proof.
    intros Hx W NE k Hk. split; [|now apply rfc_accept]. rewrite start_eq by assumption. cbn [nonce_loop].
    assert (exists m, (m2 <= m)%nat /\ (let K := fst (start hmac holen q x h1) in let V := snd (start hmac holen q x h1) in fill hmac (Z.to_nat (ql + 1)) py2 K V [] ql = (fst (blocks hmac m K V), snd (blocks hmac m K V)))) as (m & Hm & E).
    { destruct py2; [exists m2; split; [lia|apply fill_py2]|]. exists turns3. split; [|apply fill_py3]. unfold m2, turns, turns3. fold ql.
      apply Z2Nat.inj_le; [apply Z.div_pos; pose proof ql_pos; lia|apply Z.div_pos; pose proof ql_pos; lia|]. apply Z.div_le_mono; lia. }
    cbv zeta in E. rewrite E. rewrite bits2int_spec by (apply blocks_nonempty; pose proof turns_pos; lia). rewrite turns_enough by exact Hm. fold k.
    destruct (Z.leb_spec 1 k); [|lia]. destruct (Z.ltb_spec k q); [|lia]. reflexivity.
  Qed.
End Proofs.

(** Whatever the fuel and the hash, a returned nonce is in range. *)
Lemma loop_range hmac py2 q ql fuel : forall K V k, nonce_loop hmac fuel py2 K V q ql = Some (Ok k) -> 1 <= k < q.
Proof.
  induction fuel as [|fuel IH]; intros K V k H; cbn [nonce_loop] in H; [discriminate|]. destruct (fill _ _ _ _ _ _ _) as [v t].
  destruct (bits2int t ql) as [s|e]; [|discriminate]. destruct (_ && _) eqn:E; [|now apply IH in H].
  apply andb_true_iff in E. rewrite Z.leb_le, Z.ltb_lt in E. assert (s = k) by congruence. lia.
Qed.
Lemma generate_range hmac holen fuel py2 q x h1 k : generate_k hmac holen fuel py2 q x h1 = Some (Ok k) -> 1 <= k < q.
Proof. unfold generate_k. destruct (bind _ _); [|discriminate]. apply loop_range. Qed.
