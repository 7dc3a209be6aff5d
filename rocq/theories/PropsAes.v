(** Properties C38-C41, C62 and C68-C70: AES, its modes, the feeders and the
    wallet's use of them. *)
From Coq Require Import ZArith List Lia Bool.
From Verif Require Import PyBase PyVal AesTables AesModel AesSpec AesProofs AesModes ModesUse ModesSpec ModesProofs ModesProofs2 ModesProofs3.
Import ListNotations.
Open Scope list_scope.
Open Scope Z_scope.

Definition block (b : bytes) : Prop := wf_bytes b /\ zlen b = 16.
Lemma block_iff b : block b <-> block_ok b.
Proof. unfold block, block_ok, zlen, wf_bytes. split; intros [? ?]; split; try assumption; lia. Qed.
Lemma key_iff py2 key a : wf_bytes key -> aes_init py2 key = Ok a -> key_ok key.
Proof. intros H E. apply key_ok_of; [exact H|]. now apply (init_key_size py2 key a). Qed.

(** ** C70: keys *)
Theorem C70_keys_python2 key : (exists a, aes_init true key = Ok a) <-> key_size_ok key.
Proof.
  split; [intros [a H]; now apply (init_key_size true key a)|].
  intros [E|[E|E]]; unfold aes_init; rewrite E; cbn [Z.eqb Pos.eqb negb orb andb]; eexists; reflexivity.
Qed.
Theorem C70_keys_python3_partial key : (exists a, aes_init false key = Ok a) <-> zlen key = 16 \/ zlen key = 24.
Proof.
  split.
  - intros [a H]. destruct (init_key_size false key a H) as [E|[E|E]]; [now left|now right|]. unfold aes_init in H. rewrite E in H. discriminate H.
  - intros [E|E]; unfold aes_init; rewrite E; cbn [Z.eqb Pos.eqb negb orb andb]; eexists; reflexivity.
Qed.
Theorem C70_keys_python3_refuted : ~ (forall key, wf_bytes key -> key_size_ok key -> exists a, aes_init false key = Ok a).
Proof.
  intro H. destruct (H (repeat 7 32)) as [a E].
  - cbn. repeat (apply Forall_cons; [unfold is_byte; lia|]). constructor.
  - right. right. reflexivity.
  - discriminate E.
Qed.
Theorem C70_other_keys py2 key : ~ key_size_ok key -> aes_init py2 key = Raise ValueError.
Proof.
  unfold key_size_ok, aes_init. intro H. destruct (Z.eqb_spec (zlen key) 16); [tauto|]. destruct (Z.eqb_spec (zlen key) 24); [tauto|]. destruct (Z.eqb_spec (zlen key) 32); [tauto|]. reflexivity.
Qed.

(** ** C38: the block cipher can be undone, both ways *)
Theorem C38_decrypt_encrypt py2 key a b : wf_bytes key -> aes_init py2 key = Ok a -> block b ->
  exists c, aes_encrypt a b = Ok c /\ block c /\ aes_decrypt a c = Ok b.
Proof.
  intros Hk Hi Hb. pose proof (key_iff py2 key a Hk Hi) as K. apply block_iff in Hb. pose proof (cipher_ok key b K Hb) as Hc.
  exists (cipher key b). split; [now apply (encrypt_spec key a b K Hb py2)|]. split; [now apply block_iff|].
  rewrite (decrypt_spec key a (cipher key b) K Hc py2 Hi), inv_cipher_cipher by assumption. reflexivity.
Qed.
Theorem C38_encrypt_decrypt py2 key a c : wf_bytes key -> aes_init py2 key = Ok a -> block c ->
  exists b, aes_decrypt a c = Ok b /\ block b /\ aes_encrypt a b = Ok c.
Proof.
  intros Hk Hi Hb. pose proof (key_iff py2 key a Hk Hi) as K. apply block_iff in Hb. pose proof (inv_cipher_ok key c K Hb) as Hc.
  exists (inv_cipher key c). split; [now apply (decrypt_spec key a c K Hb py2)|]. split; [now apply block_iff|].
  rewrite (encrypt_spec key a (inv_cipher key c) K Hc py2 Hi), cipher_inv_cipher by assumption. reflexivity.
Qed.
(** Any other length is a ValueError. *)
Theorem C38_wrong_length a b : zlen b <> 16 -> aes_encrypt a b = Raise ValueError /\ aes_decrypt a b = Raise ValueError.
Proof. intro H. unfold aes_encrypt, aes_decrypt. destruct (Z.eqb_spec (zlen b) 16); [contradiction|]. split; reflexivity. Qed.

(** ** C39: FIPS-197 *)
Theorem C39_encrypt_fips197 py2 key a b : wf_bytes key -> aes_init py2 key = Ok a -> block b -> aes_encrypt a b = Ok (cipher key b).
Proof. intros Hk Hi Hb. apply (encrypt_spec key a b (key_iff py2 key a Hk Hi)) with (py2 := py2); [now apply block_iff|exact Hi]. Qed.
Theorem C39_decrypt_fips197 py2 key a b : wf_bytes key -> aes_init py2 key = Ok a -> block b -> aes_decrypt a b = Ok (inv_cipher key b).
Proof. intros Hk Hi Hb. apply (decrypt_spec key a b (key_iff py2 key a Hk Hi)) with (py2 := py2); [now apply block_iff|exact Hi]. Qed.

Definition count_up (a n : nat) : bytes := map Z.of_nat (seq a n).
Lemma count_up_wf n : (n <= 256)%nat -> wf_bytes (count_up 0 n).
Proof. intro H. apply Forall_forall. intros x Hx. apply in_map_iff in Hx. destruct Hx as (i & <- & Hi). apply in_seq in Hi. unfold is_byte. lia. Qed.
(** FIPS-197, appendix C, for the three sizes. *)
Definition fips_block : bytes := [0; 17; 34; 51; 68; 85; 102; 119; 136; 153; 170; 187; 204; 221; 238; 255].
Example C39_appendix_C1 : (let! a := aes_init false (count_up 0 16) in aes_encrypt a fips_block) =
  Ok [105; 196; 224; 216; 106; 123; 4; 48; 216; 205; 183; 128; 112; 180; 197; 90].
Proof. vm_compute. reflexivity. Qed.
Example C39_appendix_C2 : (let! a := aes_init false (count_up 0 24) in aes_encrypt a fips_block) =
  Ok [221; 169; 124; 164; 134; 76; 223; 224; 110; 175; 112; 160; 236; 13; 113; 145].
Proof. vm_compute. reflexivity. Qed.
Example C39_appendix_C3 : (let! a := aes_init true (count_up 0 32) in let! c := aes_encrypt a fips_block in let! d := aes_decrypt a c in Ok (c, d)) =
  Ok ([142; 162; 183; 202; 81; 103; 69; 191; 234; 252; 73; 144; 75; 73; 96; 137], fips_block).
Proof. vm_compute. reflexivity. Qed.
(** The hypotheses of the theorems above hold there. *)
Example C39_hypotheses : wf_bytes (count_up 0 24) /\ (exists a, aes_init false (count_up 0 24) = Ok a) /\ block fips_block.
Proof.
  split; [apply count_up_wf; lia|]. split; [apply C70_keys_python3_partial; right; reflexivity|].
  split; [|reflexivity]. repeat (apply Forall_cons; [unfold is_byte; lia|]). constructor.
Qed.

(** ** C68: the modes are those of SP 800-38A *)
Definition iv_bytes (iv : option bytes) : bytes := match iv with None => repeat 0 16 | Some v => v end.
Definition spec_output (E : bytes -> bytes) (args : mode_args) (plain cipher_text : bytes) : Prop :=
  match args with
  | NewECB => exists blocks, Forall (fun b => zlen b = 16) blocks /\ concat blocks = plain /\ cipher_text = concat (ecb_encrypt E blocks)
  | NewCBC iv => exists blocks, Forall (fun b => zlen b = 16) blocks /\ concat blocks = plain /\ cipher_text = concat (cbc_encrypt E (iv_bytes iv) blocks)
  | NewCFB iv n => exists segs, Forall (fun b => zlen b = (if n =? 0 then 1 else n)) segs /\ concat segs = plain /\ cipher_text = concat (cfb_encrypt E (iv_bytes iv) segs)
  | NewOFB iv => forall n, zlen plain <= 16 * Z.of_nat n -> cipher_text = xor_bytes plain (ofb_stream E n (iv_bytes iv))
  | NewCTR v => forall n, zlen plain <= 16 * Z.of_nat n -> cipher_text = xor_bytes plain (ctr_stream E n (v mod 2 ^ 128))
  end.
Lemma iv_bytes_eq iv b : iv_block iv = Ok b -> b = iv_bytes iv.
Proof. destruct iv as [v|]; cbn [iv_block iv_bytes]; [destruct (negb _); congruence|congruence]. Qed.
Lemma Forall_len l : Forall (fun b : list Z => List.length b = 16%nat) l -> Forall (fun b => zlen b = 16) l.
Proof. intro H. eapply Forall_impl; [|exact H]. cbv beta. intros x Hx. unfold zlen. rewrite Hx. reflexivity. Qed.
Theorem C68_modes_sp800_38a py2 key args a m calls :
  wf_bytes key -> args_ok args -> mode_init py2 key args = Ok (a, m) ->
  Forall wf_bytes calls -> Forall (accepts args) calls ->
  exists outs m', run (mode_encrypt a) m calls = Ok (outs, m') /\ spec_output (cipher key) args (concat calls) (concat outs).
Proof.
  intros Hk Ha Hi Hw Hacc. destruct (modes_spec py2 key args a m Hk Ha Hi calls Hw Hacc) as (outs & m' & HR & HO & _).
  exists outs, m'. split; [exact HR|]. clear HR. revert HO. unfold mode_output, spec_output. destruct args as [|iv|iv n|iv|v].
  - intros (l & H1 & H2). exists l. split; [now apply Forall_len|exact H2].
  - intros (b & l & Hb & H1 & H2). apply iv_bytes_eq in Hb. subst b. exists l. split; [now apply Forall_len|exact H2].
  - intros (b & l & Hb & H1 & H2). apply iv_bytes_eq in Hb. subst b. exists l. split; [exact H1|exact H2].
  - intros (b & Hb & H1) n Hn. apply iv_bytes_eq in Hb. subst b. apply H1. unfold zlen in Hn. lia.
  - intros H n Hn. apply H. unfold zlen in Hn. lia.
Qed.
(** A block mode refuses anything but 16 bytes, CFB anything but whole segments. *)
Theorem C68_refused py2 key args a m c : mode_init py2 key args = Ok (a, m) -> ~ accepts args c ->
  mode_encrypt a m c = Raise ValueError /\ mode_decrypt a m c = Raise ValueError.
Proof.
  intros Hi Hn. destruct args as [|iv|iv n|iv|v]; cbn [accepts mode_init] in *; [| | |tauto|tauto].
  - apply bind_ok in Hi. destruct Hi as (x & _ & H). assert (m = ECB) as -> by (unfold segment_of; congruence). cbn [mode_encrypt mode_decrypt].
    destruct (Z.eqb_spec (zlen c) 16); [contradiction|]. split; reflexivity.
  - apply bind_ok in Hi. destruct Hi as (b & _ & Hi). apply bind_ok in Hi. destruct Hi as (x & _ & H). assert (m = CBC b) as -> by (unfold segment_of; congruence). cbn [mode_encrypt mode_decrypt].
    destruct (Z.eqb_spec (zlen c) 16); [contradiction|]. split; reflexivity.
  - apply bind_ok in Hi. destruct Hi as (b & _ & Hi). apply bind_ok in Hi. destruct Hi as (x & _ & H). assert (m = CFB (segment_of n) b) as -> by (unfold segment_of; congruence). cbn [mode_encrypt mode_decrypt].
    destruct (Z.eqb_spec (zlen c mod segment_of n) 0); [contradiction|]. split; reflexivity.
Qed.

(** ** C69: the CTR keystream never repeats a block within 2^128 blocks *)
Definition ctr_block (key : bytes) (v i : Z) : bytes := cipher key (block_of ((v + i) mod 2 ^ 128)).
Lemma ctr_stream_map key n : forall v, 0 <= v < 2 ^ 128 -> ctr_stream (cipher key) n v = concat (map (fun i => ctr_block key v (Z.of_nat i)) (seq 0 n)).
Proof.
  induction n as [|n IH]; intros v Hv; [reflexivity|]. cbn [ctr_stream seq map concat]. unfold ctr_block at 1. rewrite Z.add_0_r, (Z.mod_small v) by exact Hv.
  f_equal. rewrite IH by (apply Z.mod_pos_bound; lia). f_equal. rewrite <- seq_shift, map_map. apply map_ext. intro i. unfold ctr_block. do 2 f_equal.
  rewrite Z.add_mod_idemp_l by lia. f_equal. lia.
Qed.
Lemma block_of_inj v w : 0 <= v < 2 ^ 128 -> 0 <= w < 2 ^ 128 -> block_of v = block_of w -> v = w.
Proof.
  intros Hv Hw E.
  assert (forall x, 0 <= x < 2 ^ 128 -> x = fold_left (fun acc b => acc * 256 + b) (block_of x) 0) as G; [|now rewrite (G v Hv), (G w Hw), E].
  intros x Hx. unfold block_of. cbn [seq map fold_left Nat.sub].
  assert (forall i, x / 256 ^ Z.of_nat i = (x / 256 ^ Z.of_nat (S i)) * 256 + x / 256 ^ Z.of_nat i mod 256) as S.
  { intro i. rewrite Nat2Z.inj_succ, Z.pow_succ_r by lia. rewrite (Z.mul_comm 256), <- Z.div_div by lia. rewrite Z.mul_comm. apply Z.div_mod. lia. }
  assert (x / 256 ^ Z.of_nat 16 = 0) as Z16 by (apply Z.div_small; exact Hx).
  pose proof (S 15%nat) as S15. rewrite Z16 in S15. rewrite <- S15.
  do 15 (rewrite <- S). cbn [Z.of_nat]. now rewrite Z.pow_0_r, Z.div_1_r.
Qed.
Theorem C69_ctr_keystream py2 key v a m calls :
  wf_bytes key -> mode_init py2 key (NewCTR v) = Ok (a, m) -> Forall wf_bytes calls ->
  exists outs m', run (mode_encrypt a) m calls = Ok (outs, m') /\
    forall n, zlen (concat calls) <= 16 * Z.of_nat n ->
      concat outs = xor_bytes (concat calls) (concat (map (fun i => ctr_block key v (Z.of_nat i)) (seq 0 n))).
Proof.
  intros Hk Hi Hw. destruct (C68_modes_sp800_38a py2 key (NewCTR v) a m calls Hk I Hi Hw) as (outs & m' & HR & HO).
  - apply Forall_forall. intros; exact I.
  - exists outs, m'. split; [exact HR|]. intros n Hn. rewrite (HO n Hn). f_equal. rewrite ctr_stream_map by (apply Z.mod_pos_bound; lia). f_equal. apply map_ext. intro i.
    unfold ctr_block. do 2 f_equal. apply Z.add_mod_idemp_l. lia.
Qed.
Theorem C69_ctr_blocks_distinct py2 key a v i j : wf_bytes key -> aes_init py2 key = Ok a ->
  0 <= i < 2 ^ 128 -> 0 <= j < 2 ^ 128 -> i <> j -> ctr_block key v i <> ctr_block key v j.
Proof.
  intros Hk Ha Hi Hj Hne E. pose proof (key_iff py2 key a Hk Ha) as K. apply Hne. unfold ctr_block in E.
  apply (f_equal (inv_cipher key)) in E. rewrite !inv_cipher_cipher in E by (assumption || apply block_of_ok).
  apply block_of_inj in E; try (apply Z.mod_pos_bound; lia).
  assert ((i - j) mod 2 ^ 128 = 0) as D.
  { replace (i - j) with ((v + i) - (v + j)) by lia. rewrite Zminus_mod, E, Z.sub_diag. reflexivity. }
  apply Z.mod_divide in D; [|lia]. destruct D as [q D].
  assert (q = 0) as -> by nia. lia.
Qed.

(** ** C40: modes round-trip, whatever the calls *)
Theorem C40_modes_roundtrip py2 key args a m calls :
  wf_bytes key -> args_ok args -> mode_init py2 key args = Ok (a, m) ->
  Forall wf_bytes calls -> Forall (accepts args) calls ->
  exists outs m', run (mode_encrypt a) m calls = Ok (outs, m') /\
    forall calls', Forall (accepts args) calls' -> concat calls' = concat outs ->
    exists outs' m'', run (mode_decrypt a) m calls' = Ok (outs', m'') /\ concat outs' = concat calls.
Proof.
  intros Hk Ha Hi Hw Hacc. destruct (modes_spec py2 key args a m Hk Ha Hi calls Hw Hacc) as (outs & m' & HR & _).
  exists outs, m'. split; [exact HR|]. exact (modes_roundtrip py2 key args a m Hk Ha Hi calls outs m' Hw Hacc HR).
Qed.
(** The ciphertext of a call has the length of its plaintext, so that the same
    cuts can be used for decryption. *)
Lemma xor_zip_len : forall d s, zlen (xor_zip d s) = Z.min (zlen d) (zlen s).
Proof. intros d s. change xor_zip with xor_bytes. unfold zlen. rewrite xor_bytes_length. lia. Qed.
Example C40_hypotheses : exists a m, mode_init false (repeat 1 16) (NewCFB None 8) = Ok (a, m) /\ args_ok (NewCFB None 8) /\
  Forall (accepts (NewCFB None 8)) [repeat 65 8; []; repeat 66 24] /\ wf_bytes (repeat 1 16).
Proof.
  eexists _, _. split; [reflexivity|]. split; [split; [exact I|lia]|]. split.
  - repeat (apply Forall_cons; [reflexivity|]). constructor.
  - cbn. repeat (apply Forall_cons; [unfold is_byte; lia|]). constructor.
Qed.
(** With a CFB segment longer than the block, the tail of each segment is lost. *)
Theorem C40_long_segments_refuted : exists a m m1 m2 c,
  mode_init false (repeat 1 16) (NewCFB None 17) = Ok (a, m) /\
  mode_encrypt a m (repeat 65 16 ++ [1]) = Ok (c, m1) /\ mode_encrypt a m (repeat 65 16 ++ [2]) = Ok (c, m2) /\ zlen c = 16.
Proof. do 5 eexists. split; [reflexivity|]. split; [vm_compute; reflexivity|]. split; [vm_compute; reflexivity|]. reflexivity. Qed.

(** ** C62: padding and feeders *)
Theorem C62_padding_python2 data : strip_padding true (append_padding data) = Ok data.
Proof.
  set (pad := 16 - zlen data mod 16). pose proof (Z.mod_pos_bound (zlen data) 16 ltac:(lia)) as Hm. destruct (append_length data) as (k & L & _).
  unfold strip_padding. rewrite L, Z.mul_comm, Z.mod_mul by lia. cbn [Z.eqb negb]. unfold append_padding in *. fold pad in L |- *.
  rewrite rev_app_distr. destruct (Z.to_nat pad) as [|p] eqn:Ep; [unfold pad in Ep; lia|].
  assert (rev (repeat pad (S p)) = pad :: repeat pad p) as ->.
  { clear. induction p as [|p IH]; [reflexivity|]. cbn [repeat rev] in *. rewrite IH. cbn. now rewrite <- repeat_cons. }
  cbn [app]. destruct (Z.ltb_spec 16 pad); [unfold pad in *; lia|]. destruct (Z.eqb_spec pad 0); [unfold pad in *; lia|].
  f_equal. apply ztake_app_exact. rewrite zlen_app, zlen_repeat in L. unfold pad in *. lia.
Qed.
(** Padding is 1 to 16 bytes and completes a block. *)
Theorem C62_padding_shape data : exists n, 1 <= n <= 16 /\ append_padding data = data ++ repeat n (Z.to_nat n) /\ zlen (append_padding data) mod 16 = 0.
Proof.
  exists (16 - zlen data mod 16). pose proof (Z.mod_pos_bound (zlen data) 16 ltac:(lia)). split; [lia|]. split; [reflexivity|].
  destruct (append_length data) as (k & L & _). rewrite L, Z.mul_comm. apply Z.mod_mul. lia.
Qed.
Theorem C62_padding_python3_refuted data : strip_padding false (append_padding data) = Raise TypeError.
Proof.
  unfold strip_padding. destruct (append_length data) as (k & L & HL). rewrite L, Z.mul_comm, Z.mod_mul by lia. cbn [Z.eqb negb].
  destruct (rev (append_padding data)) eqn:E; [|reflexivity]. apply (f_equal (@List.length Z)) in E. rewrite rev_length in E. unfold zlen in L. cbn in E. pose proof (zlen_nonneg data). lia.
Qed.
Theorem C62_feeders_python2 key args a m chunks :
  wf_bytes key -> args_ok args -> mode_init true key args = Ok (a, m) ->
  Forall wf_bytes chunks -> Forall (fun c => c <> []) chunks ->
  exists c, feed_and_flush true (feeder_init true a m) chunks = Ok c /\
    forall chunks', Forall (fun c => c <> []) chunks' -> concat chunks' = c -> feed_and_flush true (feeder_init false a m) chunks' = Ok (concat chunks).
Proof. intros Hk Ha Hi. now apply (feeders_roundtrip key args a m). Qed.
(** The output does not depend on the chunks. *)
Example C62_example : exists a m c, mode_init true (repeat 1 16) (NewCBC None) = Ok (a, m) /\
  feed_and_flush true (feeder_init true a m) [repeat 65 5; repeat 66 40; [1]] = Ok c /\ zlen c = 48 /\
  feed_and_flush true (feeder_init false a m) [ztake 20 c; zdrop 20 c] = Ok (repeat 65 5 ++ repeat 66 40 ++ [1]).
Proof. do 3 eexists. split; [reflexivity|]. split; [vm_compute; reflexivity|]. split; [reflexivity|]. vm_compute. reflexivity. Qed.
(** A feeder that was flushed refuses whatever it is given. *)
Theorem C62_finished py2 f out f' data : feeder_feed py2 f [] = Ok (out, f') -> feeder_feed py2 f' data = Raise ValueError.
Proof.
  intro E. assert (f_buffer f' = None) as B; [|unfold feeder_feed; now rewrite B]. unfold feeder_feed in E. destruct (f_buffer f) as [b|]; [|discriminate]. destruct py2; cbn [negb] in E.
  - destruct (feeder_final true f b); [|discriminate]. cbn [bind] in E. assert (f' = with_buffer f None) as -> by congruence. reflexivity.
  - destruct (f_mode f); try discriminate; assert (f' = with_buffer f None) as -> by congruence; reflexivity.
Qed.
(** On Python 3 no feeder accepts data. *)
Theorem C62_feeders_python3_refuted enc a m c chunks : c <> [] -> feed_and_flush false (feeder_init enc a m) (c :: chunks) = Raise TypeError.
Proof. intro H. destruct c as [|x c]; [congruence|]. unfold feed_and_flush. cbn [feed_all]. unfold feeder_feed. cbn. reflexivity. Qed.

(** ** C41 and C71: wallet encryption *)
Lemma pass_key_ok p : wf_bytes p -> wf_bytes (pass_key p) /\ zlen (pass_key p) = 16.
Proof.
  intro H. unfold pass_key. rewrite ztake_firstn. split.
  - apply Forall_app. split; [|apply zeros_wf]. rewrite <- (firstn_skipn (Z.to_nat 16) p) in H. now apply Forall_app in H.
  - unfold zlen. rewrite app_length, repeat_length, firstn_length. change (Z.to_nat 16) with 16%nat. lia.
Qed.
Lemma by_blocks_run call a k : forall st data, List.length data = (16 * k)%nat ->
  by_blocks k call a st data = (let! r := run (call a) st (segments 16 k data) in Ok (concat (fst r))).
Proof.
  induction k as [|k IH]; intros st data H; [reflexivity|]. cbn [by_blocks segments run]. rewrite ztake_firstn, zdrop_skipn. change (Z.to_nat 16) with 16%nat.
  destruct (call a st (firstn 16 data)) as [r|e]; [|reflexivity]. cbn [bind]. rewrite IH by (rewrite skipn_length; lia).
  destruct (run (call a) (snd r) (segments 16 k (skipn 16 data))) as [y|e]; reflexivity.
Qed.
(** The specification: AES-128-CBC with a zero initialization vector over the
    data padded with zeros to whole blocks. *)
Definition zero_padded (data : bytes) : bytes := data ++ repeat 0 (Z.to_nat ((- zlen data) mod 16)).
Definition wallet_key (p : bytes) : bytes := firstn 16 (p ++ repeat 0 16).
Lemma wallet_key_eq p : wallet_key p = pass_key p.
Proof.
  unfold wallet_key, pass_key. rewrite ztake_firstn. change (Z.to_nat 16) with 16%nat. rewrite firstn_app. f_equal. rewrite firstn_length.
  destruct (Nat.le_gt_cases 16 (List.length p)).
  - replace (16 - List.length p)%nat with 0%nat by lia. now replace (16 - Nat.min 16 (List.length p))%nat with 0%nat by lia.
  - replace (16 - Nat.min 16 (List.length p))%nat with (16 - List.length p)%nat by lia.
    assert (forall n k, (n <= k)%nat -> firstn n (repeat 0 k) = repeat 0 n) as G.
    { clear. induction n as [|n IH]; intros [|k] H; cbn; [reflexivity|reflexivity|lia|]. f_equal. apply IH. lia. }
    apply G. lia.
Qed.
Lemma padded_eq (data : bytes) : zlen data mod 16 <> 0 -> Z.to_nat (16 - zlen data mod 16) = Z.to_nat ((- zlen data) mod 16).
Proof. intro H. rewrite Z_mod_nz_opp_full by exact H. reflexivity. Qed.
Lemma enc_blocks data p : wallet_encrypt data p =
  (let! s := mode_init false (pass_key p) (NewCBC None) in by_blocks (List.length (zero_padded data) / 16) mode_encrypt (fst s) (snd s) (zero_padded data)).
Proof.
  unfold wallet_encrypt. destruct (mode_init _ _ _) as [s|e]; [|reflexivity]. cbn [bind]. unfold zero_padded. rewrite app_length, repeat_length.
  pose proof (Z.mod_pos_bound (zlen data) 16 ltac:(lia)) as B. pose proof (Z.div_mod (zlen data) 16 ltac:(lia)) as D. pose proof (zlen_nonneg data) as NN.
  destruct (Z.eqb_spec (zlen data mod 16) 0) as [E|E].
  - rewrite Z_mod_zero_opp_full by exact E. cbn [Z.to_nat repeat]. rewrite app_nil_r, Nat.add_0_r. f_equal. unfold zlen in *.
    change 16 with (Z.of_nat 16). rewrite <- Nat2Z.inj_div. apply Nat2Z.id.
  - rewrite <- padded_eq by exact E. f_equal. set (q := zlen data / 16) in *. set (r := zlen data mod 16) in *.
    assert (0 <= q) by (apply Z.div_pos; lia). unfold zlen in D.
    replace (List.length data + Z.to_nat (16 - r))%nat with (Z.to_nat (q + 1) * 16)%nat by lia. now rewrite Nat.div_mul by lia.
Qed.
Lemma padded_len data : exists k, List.length (zero_padded data) = (16 * k)%nat.
Proof.
  exists (List.length (zero_padded data) / 16)%nat. apply Nat.div_exact; [lia|]. apply Nat2Z.inj. rewrite Nat2Z.inj_mod. change (Z.of_nat 16) with 16. cbn [Z.of_nat].
  unfold zero_padded. rewrite app_length, repeat_length, Nat2Z.inj_add, Z2Nat.id by (apply Z.mod_pos_bound; lia). fold (zlen data).
  rewrite Z.add_mod_idemp_r by lia. rewrite Z.add_opp_diag_r. reflexivity.
Qed.
Theorem C71_wallet_encrypt data p : wf_bytes data -> wf_bytes p ->
  exists blocks, Forall (fun b => zlen b = 16) blocks /\ concat blocks = zero_padded data /\
    wallet_encrypt data p = Ok (concat (cbc_encrypt (cipher (wallet_key p)) (repeat 0 16) blocks)).
Proof.
  intros Hd Hp. destruct (pass_key_ok p Hp) as [Wk Lk]. destruct (padded_len data) as [k Hk].
  destruct (proj2 (C70_keys_python3_partial (pass_key p)) (or_introl Lk)) as [a Ha].
  assert (mode_init false (pass_key p) (NewCBC None) = Ok (a, CBC (repeat 0 16))) as Hi by (cbn [mode_init iv_block bind]; rewrite Ha; reflexivity).
  assert (wf_bytes (zero_padded data)) as Wz by (apply Forall_app; split; [exact Hd|apply zeros_wf]).
  destruct (segs_facts [] 16 k _ Hk) as [S1 S2]. exists (segments 16 k (zero_padded data)). split; [now apply Forall_len|]. split; [exact S1|].
  rewrite enc_blocks, Hi. cbn [bind fst snd]. rewrite Hk, Nat.mul_comm, Nat.div_mul by lia. rewrite by_blocks_run by exact Hk.
  assert (Forall wf_bytes (segments 16 k (zero_padded data))) as Wseg by (apply wf_concat_inv; now rewrite S1).
  destruct (modes_spec false (pass_key p) (NewCBC None) a _ Wk I Hi (segments 16 k (zero_padded data)) Wseg (Forall_len _ S2)) as (outs & m' & HR & HO & _).
  rewrite HR. cbn [bind fst]. f_equal. destruct HO as (b & blocks & Eb & HB & HC & HO). rewrite HO. apply iv_bytes_eq in Eb. subst b. cbn [iv_bytes].
  rewrite wallet_key_eq. do 2 f_equal. apply concat_16_inj; assumption.
Qed.
(** Decryption gives back the data with its zero padding when there are 1 to
    15 blocks, and refuses anything else. *)
Theorem C71_wallet_roundtrip data p : wf_bytes data -> wf_bytes p ->
  exists c, wallet_encrypt data p = Ok c /\ wf_bytes c /\ zlen c = zlen (zero_padded data) /\
    wallet_decrypt c p = (if (0 <? zlen data) && (zlen data <=? 240) then Ok (zero_padded data) else Raise ValueError).
Proof.
  intros Hd Hp. destruct (pass_key_ok p Hp) as [Wk Lk]. destruct (padded_len data) as [k Hk].
  destruct (proj2 (C70_keys_python3_partial (pass_key p)) (or_introl Lk)) as [a Ha].
  assert (mode_init false (pass_key p) (NewCBC None) = Ok (a, CBC (repeat 0 16))) as Hi by (cbn [mode_init iv_block bind]; rewrite Ha; reflexivity).
  assert (wf_bytes (zero_padded data)) as Wz by (apply Forall_app; split; [exact Hd|apply zeros_wf]).
  destruct (segs_facts [] 16 k _ Hk) as [S1 S2].
  assert (Forall wf_bytes (segments 16 k (zero_padded data))) as Wseg by (apply wf_concat_inv; now rewrite S1).
  destruct (modes_spec false (pass_key p) (NewCBC None) a _ Wk I Hi (segments 16 k (zero_padded data)) Wseg (Forall_len _ S2)) as (outs & m' & HR & HO & WO).
  exists (concat outs). split.
  { rewrite enc_blocks, Hi. cbn [bind fst snd]. rewrite Hk, Nat.mul_comm, Nat.div_mul by lia. rewrite by_blocks_run by exact Hk. rewrite HR. reflexivity. }
  assert (List.length (concat outs) = (16 * k)%nat) as LO.
  { destruct (obj_facts false (pass_key p) (NewCBC None) a _ Wk I Hi) as (HE & HD & OE & DE & _).
    destruct (cbc_both a _ _ HE HD OE DE (segments 16 k (zero_padded data))) with (iv := repeat 0 16) as (last & E1 & E2 & F & FL).
    - apply blocks_of; [exact Wseg|now apply Forall_len].
    - split; [apply zeros_wf|reflexivity].
    - rewrite E1 in HR. assert (outs = cbc_encrypt (cipher (pass_key p)) (repeat 0 16) (segments 16 k (zero_padded data))) as -> by congruence.
      assert (forall l : list (list Z), Forall block_ok l -> List.length (concat l) = (16 * List.length l)%nat) as G.
      { clear. intros l H. induction H as [|b l [_ Hb] Hl IH]; [reflexivity|]. cbn [concat]. rewrite app_length. cbn [List.length]. unfold bytes in *. lia. }
      rewrite G by exact F. f_equal. clear. generalize (repeat 0 16). generalize (zero_padded data).
      induction k as [|k IH]; intros l b; [reflexivity|]. cbn [segments cbc_encrypt List.length]. f_equal. apply IH. }
  split; [exact WO|]. split; [unfold zlen; now rewrite LO, Hk|].
  pose proof (zlen_nonneg data) as NN. assert (zlen (concat outs) = Z.of_nat k * 16) as LZ by (unfold zlen; rewrite LO; lia). unfold wallet_decrypt. cbv zeta. rewrite LZ, Z.mod_mul, Z.div_mul by lia. cbn [Z.eqb negb orb]. rewrite orb_false_r.
  assert (16 * Z.of_nat k = zlen data + (- zlen data) mod 16) as Ek.
  { replace (16 * Z.of_nat k) with (Z.of_nat (List.length (zero_padded data))) by (rewrite Hk; lia). unfold zero_padded. rewrite app_length, repeat_length. pose proof (Z.mod_pos_bound (- zlen data) 16). unfold zlen. lia. }
  pose proof (Z.mod_pos_bound (- zlen data) 16 ltac:(lia)) as B.
  assert (((Z.of_nat k =? 0) || (16 <=? Z.of_nat k))%bool = negb ((0 <? zlen data) && (zlen data <=? 240))) as ->.
  { destruct (Z.eqb_spec (Z.of_nat k) 0), (Z.leb_spec 16 (Z.of_nat k)), (Z.ltb_spec 0 (zlen data)), (Z.leb_spec (zlen data) 240); cbn; try reflexivity; try lia. }
  destruct ((0 <? zlen data) && (zlen data <=? 240)) eqn:EB; cbn [negb]; [|reflexivity].
  rewrite Hi. cbn [bind fst snd]. rewrite Nat2Z.id. rewrite by_blocks_run by exact LO. destruct (segs_facts [] 16 k _ LO) as [T1 T2].
  destruct (modes_roundtrip false (pass_key p) (NewCBC None) a _ Wk I Hi _ outs m' Wseg (Forall_len _ S2) HR (segments 16 k (concat outs)) (Forall_len _ T2) T1) as (outs' & m'' & HR' & HC).
  rewrite HR'. cbn [bind fst]. now rewrite HC, S1.
Qed.
Example C71_example : exists c, wallet_encrypt (count_up 0 34) [112; 119] = Ok c /\ zlen c = 48 /\ wallet_decrypt c [112; 119] = Ok (count_up 0 34 ++ repeat 0 14).
Proof. eexists. split; [vm_compute; reflexivity|]. split; [reflexivity|]. vm_compute. reflexivity. Qed.

(** Passphrases that agree on 16 bytes, or up to trailing NULs, are the same
    key: the second one opens a wallet encrypted with the first. *)
Theorem C41_passphrases_refuted :
  (exists p q c, p <> q /\ wf_bytes p /\ wf_bytes q /\ wallet_encrypt [1; 2; 3] p = Ok c /\ wallet_decrypt c q = Ok (zero_padded [1; 2; 3])) /\
  (forall p x y data c, zlen p = 16 -> x <> y -> p ++ [x] <> p ++ [y] /\ wallet_encrypt data (p ++ [x]) = wallet_encrypt data (p ++ [y]) /\ wallet_decrypt c (p ++ [x]) = wallet_decrypt c (p ++ [y])).
Proof.
  split.
  - exists [97], [97; 0]. eexists. split; [discriminate|]. split; [repeat (apply Forall_cons; [unfold is_byte; lia|]); constructor|].
    split; [repeat (apply Forall_cons; [unfold is_byte; lia|]); constructor|]. split; [vm_compute; reflexivity|]. vm_compute. reflexivity.
  - intros p x y data c Hp Hne. split; [intro E; apply app_inv_head in E; congruence|].
    assert (pass_key (p ++ [x]) = pass_key (p ++ [y])) as E.
    { unfold pass_key. assert (forall z, ztake 16 (p ++ [z]) = p) as G by (intro z; now apply ztake_app_exact). now rewrite !G. }
    unfold wallet_encrypt, wallet_decrypt. rewrite E. split; reflexivity.
Qed.
Theorem C41_passphrases_partial p q : zlen p <= 16 -> zlen q <= 16 -> last p 1 <> 0 -> last q 1 <> 0 -> p <> q ->
  wallet_key p <> wallet_key q.
Proof.
  intros Lp Lq Hp Hq Hne E. apply Hne. unfold wallet_key, zlen in *.
  assert (forall r n, (n <= 16)%nat -> firstn n (r ++ repeat 0 16) = r ++ repeat 0 (n - List.length r) \/ (n < List.length r)%nat) as G.
  { intros r n Hn. destruct (Nat.le_gt_cases (List.length r) n) as [H|H]; [left|now right]. rewrite firstn_app, firstn_all2 by exact H. f_equal.
    assert (forall n k, (n <= k)%nat -> firstn n (repeat 0 k) = repeat 0 n) as F.
    { clear. induction n as [|n IH]; intros [|k] H; cbn; [reflexivity|reflexivity|lia|]. f_equal. apply IH. lia. }
    apply F. lia. }
  destruct (G p 16%nat ltac:(lia)) as [Ep|Ep]; [|lia]. destruct (G q 16%nat ltac:(lia)) as [Eq|Eq]; [|lia]. rewrite Ep, Eq in E. clear Ep Eq G.
  revert q Lq Hq Hne E. generalize (16 - List.length p)%nat. intros i q _ Hq Hne E. generalize dependent (16 - List.length q)%nat. intros j E.
  clear Lp Hne. revert q Hq i j E. induction p as [|x p IH]; intros q Hq i j E.
  - destruct q as [|y q]; [reflexivity|]. exfalso. cbn [app] in E. clear Hp.
    assert (forall l : list Z, l <> [] -> last l 1 <> 0 -> forall i s, repeat 0 i = l ++ s -> False) as Z0.
    { clear. intros l Hl Hn i s E. assert (In (last l 1) (repeat 0 i)) as Hin.
      { rewrite E. apply in_app_iff. left. destruct (exists_last Hl) as (l' & a & ->). rewrite last_last. apply in_app_iff. right. now left. }
      apply repeat_spec in Hin. congruence. }
    apply (Z0 (y :: q) ltac:(discriminate) Hq i (repeat 0 j)). exact E.
  - destruct q as [|y q].
    + exfalso. cbn [app] in E.
      assert (forall l : list Z, l <> [] -> last l 1 <> 0 -> forall i s, repeat 0 i = l ++ s -> False) as Z0.
      { clear. intros l Hl Hn i s E. assert (In (last l 1) (repeat 0 i)) as Hin.
        { rewrite E. apply in_app_iff. left. destruct (exists_last Hl) as (l' & a & ->). rewrite last_last. apply in_app_iff. right. now left. }
        apply repeat_spec in Hin. congruence. }
      apply (Z0 (x :: p) ltac:(discriminate) Hp j (repeat 0 i)). now symmetry.
    + cbn [app] in E. assert (x = y) as -> by congruence. f_equal. apply (IH) with (i := i) (j := j).
      * destruct p as [|z p]; [cbn; lia|exact Hp].
      * destruct q as [|z q]; [cbn; lia|exact Hq].
      * congruence.
Qed.
Example C41_hypotheses : zlen [112; 119] <= 16 /\ last [112; 119] 1 <> 0 /\ [112; 119] <> [112; 120] /\ wallet_key [112; 119] <> wallet_key [112; 120].
Proof. split; [cbn; lia|]. split; [cbn; lia|]. split; [congruence|]. apply C41_passphrases_partial; cbn; try lia. congruence. Qed.

(** ** Assumptions *)

Print Assumptions C70_keys_python2.
Print Assumptions C70_keys_python3_partial.
Print Assumptions C70_keys_python3_refuted.
Print Assumptions C70_other_keys.
Print Assumptions C38_decrypt_encrypt.
Print Assumptions C38_encrypt_decrypt.
Print Assumptions C38_wrong_length.
Print Assumptions C39_encrypt_fips197.
Print Assumptions C39_decrypt_fips197.
Print Assumptions C68_modes_sp800_38a.
Print Assumptions C68_refused.
Print Assumptions C69_ctr_keystream.
Print Assumptions C69_ctr_blocks_distinct.
Print Assumptions C40_modes_roundtrip.
Print Assumptions C40_long_segments_refuted.
Print Assumptions C62_padding_python2.
Print Assumptions C62_padding_shape.
Print Assumptions C62_padding_python3_refuted.
Print Assumptions C62_feeders_python2.
Print Assumptions C62_finished.
Print Assumptions C62_feeders_python3_refuted.
Print Assumptions C71_wallet_encrypt.
Print Assumptions C71_wallet_roundtrip.
Print Assumptions C41_passphrases_refuted.
Print Assumptions C41_passphrases_partial.
