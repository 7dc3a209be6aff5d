(** Property C143: what the text kept for an encrypted wallet gives away and
    what may be done to it without the passphrase. *)
From Coq Require Import ZArith List Lia Bool.
From Verif Require Import PyBase PyVal AesModel AesSpec AesProofs AesModes ModesUse ModesSpec ModesProofs ModesProofs2 ModesProofs3 PropsAes WalletModel WalletProofs.
Import ListNotations.
Open Scope list_scope.
Open Scope Z_scope.

(** ** Specification: decryption in CBC mode (SP 800-38A, 6.2) *)
Fixpoint cbc_decrypt (D : list Z -> list Z) (prev : list Z) (blocks : list (list Z)) : list (list Z) :=
  match blocks with
  | [] => []
  | c :: r => xor_bytes (D c) prev :: cbc_decrypt D c r
  end.

Definition sixteen (b : list Z) : Prop := List.length b = 16%nat.

Lemma concat_length l : Forall sixteen l -> List.length (concat l) = (16 * List.length l)%nat.
Proof. induction 1 as [|b l Hb Hl IH]; [reflexivity|]. cbn [concat]. rewrite app_length, IH, Hb. cbn [List.length]. lia. Qed.
Lemma concat_firstn l : Forall sixteen l -> forall n, firstn (16 * n) (concat l) = concat (firstn n l).
Proof.
  induction 1 as [|b l Hb Hl IH]; intros [|n]; [reflexivity|now rewrite !firstn_nil|reflexivity|]. cbn [concat firstn]. rewrite firstn_app, Hb.
  rewrite firstn_all2 by (rewrite Hb; lia). f_equal. replace (16 * S n - 16)%nat with (16 * n)%nat by lia. apply IH.
Qed.
Lemma firstn_sixteen l n : Forall sixteen l -> Forall sixteen (firstn n l).
Proof. intro H. rewrite <- (firstn_skipn n l) in H. now apply Forall_app in H. Qed.
Lemma prefix_iff l l' n : Forall sixteen l -> Forall sixteen l' -> (firstn (16 * n) (concat l) = firstn (16 * n) (concat l') <-> firstn n l = firstn n l').
Proof.
  intros H H'. rewrite !concat_firstn by assumption. split; [|congruence]. intro E. apply concat_16_inj; [now apply firstn_sixteen|now apply firstn_sixteen|exact E].
Qed.

Section Key.
Variable key : list Z.
Hypothesis Hkey : key_ok key.
Lemma enc_blocks_ok l : Forall block_ok l -> forall iv, block_ok iv -> Forall block_ok (cbc_encrypt (cipher key) iv l).
Proof. induction 1 as [|b l Hb Hl IH]; intros iv Hiv; [constructor|]. cbn [cbc_encrypt]. cbv zeta. pose proof (cipher_ok key _ Hkey (block_xor b iv Hb Hiv)). constructor; [assumption|now apply IH]. Qed.
Lemma dec_blocks_ok l : Forall block_ok l -> forall iv, block_ok iv -> Forall block_ok (cbc_decrypt (inv_cipher key) iv l).
Proof. induction 1 as [|b l Hb Hl IH]; intros iv Hiv; [constructor|]. cbn [cbc_decrypt]. constructor; [apply block_xor; [now apply inv_cipher_ok|exact Hiv]|now apply IH]. Qed.
Lemma enc_dec l : Forall block_ok l -> forall iv, block_ok iv -> cbc_encrypt (cipher key) iv (cbc_decrypt (inv_cipher key) iv l) = l.
Proof.
  induction 1 as [|b l Hb Hl IH]; intros iv Hiv; [reflexivity|]. cbn [cbc_decrypt cbc_encrypt]. cbv zeta. pose proof (inv_cipher_ok key b Hkey Hb) as Hi.
  rewrite xor_twice by (destruct Hi as [_ ->], Hiv as [_ ->]; lia). rewrite cipher_inv_cipher by assumption. f_equal. now apply IH.
Qed.
Lemma enc_prefix : forall n l l' iv, Forall block_ok l -> Forall block_ok l' -> block_ok iv ->
  (firstn n (cbc_encrypt (cipher key) iv l) = firstn n (cbc_encrypt (cipher key) iv l') <-> firstn n l = firstn n l').
Proof.
  induction n as [|n IH]; intros l l' iv Hl Hl' Hiv; [split; reflexivity|].
  destruct Hl as [|b l Hb Hl], Hl' as [|b' l' Hb' Hl']; cbn [cbc_encrypt firstn]; cbv zeta; try (split; congruence).
  pose proof (block_xor b iv Hb Hiv) as X. pose proof (block_xor b' iv Hb' Hiv) as X'.
  assert (cipher key (xor_bytes b iv) = cipher key (xor_bytes b' iv) <-> b = b') as Q.
  { split; [|congruence]. intro E. apply (f_equal (inv_cipher key)) in E. rewrite !inv_cipher_cipher in E by assumption. apply (f_equal (fun z => xor_bytes z iv)) in E.
    rewrite !xor_twice in E by (destruct Hb as [_ ->] || destruct Hb' as [_ ->]; destruct Hiv as [_ ->]; lia). exact E. }
  split; intro E.
  - assert (cipher key (xor_bytes b iv) = cipher key (xor_bytes b' iv)) as E1 by congruence. rewrite (proj1 Q E1) in *. f_equal.
    apply (IH l l' (cipher key (xor_bytes b' iv))); [assumption..|now apply cipher_ok|]. congruence.
  - assert (b = b') as <- by congruence. f_equal. apply IH; [assumption..|now apply cipher_ok|]. congruence.
Qed.
End Key.

Lemma sixteen_of l : Forall block_ok l -> Forall sixteen l.
Proof. intro H. eapply Forall_impl; [|exact H]. intros b [_ L]. exact L. Qed.
Lemma zeros_block : block_ok (repeat 0 16).
Proof. split; [apply zeros_wf|reflexivity]. Qed.
Lemma wallet_key_ok p : wf_bytes p -> key_ok (wallet_key p).
Proof. intro H. rewrite wallet_key_eq. destruct (pass_key_ok p H) as [W L]. apply key_ok_of; [exact W|]. now left. Qed.
Lemma cut data : wf_bytes data -> zlen data mod 16 = 0 -> exists bl, Forall block_ok bl /\ concat bl = data /\ zlen data = 16 * Z.of_nat (List.length bl).
Proof.
  intros W M. set (k := (List.length data / 16)%nat). assert (List.length data = (16 * k)%nat) as L.
  { apply Nat.div_exact; [lia|]. apply Nat2Z.inj. rewrite Nat2Z.inj_mod. exact M. }
  destruct (segs_facts [] 16 k data L) as [S1 S2]. exists (segments 16 k data).
  assert (Forall block_ok (segments 16 k data)) as B.
  { apply blocks_of; [apply wf_concat_inv; now rewrite S1|now apply Forall_len]. }
  split; [exact B|]. split; [exact S1|]. pose proof (concat_length _ (sixteen_of _ B)) as L'. rewrite S1 in L'. unfold zlen. rewrite L', Nat2Z.inj_mul. reflexivity.
Qed.
Lemma encrypted data p c : wf_bytes data -> wf_bytes p -> wallet_encrypt data p = Ok c ->
  exists bl, Forall block_ok bl /\ concat bl = zero_padded data /\ c = concat (cbc_encrypt (cipher (wallet_key p)) (repeat 0 16) bl).
Proof.
  intros Hd Hp E. destruct (C71_wallet_encrypt data p Hd Hp) as (bl & F & C & E'). exists bl.
  assert (wf_bytes (zero_padded data)) as Wz by (apply Forall_app; split; [exact Hd|apply zeros_wf]). split; [|split; [exact C|congruence]].
  apply blocks_of; [|exact F]. apply wf_concat_inv. now rewrite C.
Qed.

(** ** C143: what is given away *)
(** Under one passphrase, the encrypted texts agree on their first blocks
    exactly as far as what was encrypted does. *)
Theorem C143_prefix data data' p c c' n : wf_bytes data -> wf_bytes data' -> wf_bytes p -> wallet_encrypt data p = Ok c -> wallet_encrypt data' p = Ok c' ->
  (firstn (16 * n) c = firstn (16 * n) c' <-> firstn (16 * n) (zero_padded data) = firstn (16 * n) (zero_padded data')).
Proof.
  intros Hd Hd' Hp E E'. destruct (encrypted data p c Hd Hp E) as (bl & B & C & ->), (encrypted data' p c' Hd' Hp E') as (bl' & B' & C' & ->).
  pose proof (wallet_key_ok p Hp) as K. rewrite <- C, <- C'.
  rewrite !prefix_iff; [|now apply sixteen_of|now apply sixteen_of|apply sixteen_of, enc_blocks_ok; [exact K|exact B|exact zeros_block]|apply sixteen_of, enc_blocks_ok; [exact K|exact B'|exact zeros_block]].
  now apply enc_prefix; [| | |exact zeros_block].
Qed.
(** In particular two private keys kept under one passphrase have the same
    encrypted text exactly when they are the same key. *)
Theorem C143_equal secret secret' p c c' : wf_bytes secret -> wf_bytes secret' -> wf_bytes p -> wrap_secret secret p = Ok (c, true) -> wrap_secret secret' p = Ok (c', true) ->
  (c = c' <-> secret = secret').
Proof.
  intros Hs Hs' Hp E E'. split; [|congruence]. intros <-.
  unfold wrap_secret in E, E'. destruct (Z.leb_spec (zlen secret) 255) as [L|]; [|discriminate]. destruct (Z.leb_spec (zlen secret') 255) as [L'|]; [|discriminate]. cbn [negb] in E, E'. cbv zeta in E, E'.
  destruct p as [|p0 p]; [discriminate|]. pose proof (zlen_nonneg secret) as N. pose proof (zlen_nonneg secret') as N'.
  set (t := hex2 (zlen secret) ++ secret) in *. set (t' := hex2 (zlen secret') ++ secret') in *.
  assert (wf_bytes t) as Wt by (apply Forall_app; split; [apply hex2_wf; lia|exact Hs]). assert (wf_bytes t') as Wt' by (apply Forall_app; split; [apply hex2_wf; lia|exact Hs']).
  destruct (wallet_encrypt t (p0 :: p)) as [d|] eqn:D; [|discriminate]. destruct (wallet_encrypt t' (p0 :: p)) as [d'|] eqn:D'; [|discriminate]. cbn [bind] in E, E'.
  assert (d' = d) as -> by congruence. clear E E'.
  set (n := (List.length (zero_padded t) + List.length (zero_padded t'))%nat).
  pose proof (proj1 (C143_prefix t t' (p0 :: p) d d n Wt Wt' Hp D D') eq_refl) as Q. rewrite !firstn_all2 in Q by lia.
  assert (forall x, 0 <= zlen x <= 255 -> unwrap_secret (zero_padded (hex2 (zlen x) ++ x)) = Ok x) as U.
  { intros x Hx. unfold zero_padded. rewrite <- app_assoc. apply unwrap_ok; [exact Hx|]. rewrite zlen_repeat. pose proof (Z.mod_pos_bound (- zlen (hex2 (zlen x) ++ x)) 16 ltac:(lia)). lia. }
  pose proof (U secret ltac:(lia)) as U1. pose proof (U secret' ltac:(lia)) as U2. fold t in U1. fold t' in U2. rewrite Q in U1. congruence.
Qed.
(** The size of what was encrypted is given away up to its last block. *)
Theorem C143_size data p c : wf_bytes data -> wf_bytes p -> wallet_encrypt data p = Ok c -> zlen data <= zlen c < zlen data + 16 /\ zlen c mod 16 = 0.
Proof.
  intros Hd Hp E. destruct (C71_wallet_roundtrip data p Hd Hp) as (c' & E' & _ & L & _). assert (c' = c) as -> by congruence. rewrite L. unfold zero_padded. rewrite zlen_app, zlen_repeat.
  pose proof (Z.mod_pos_bound (- zlen data) 16 ltac:(lia)). rewrite Z2Nat.id by lia. split; [lia|]. rewrite Z.add_mod_idemp_r by lia. now rewrite Z.add_opp_diag_r.
Qed.

(** ** C143: what may be done to it *)
Lemma dec_run py2 key a : key_ok key -> aes_init py2 key = Ok a -> forall bl, Forall block_ok bl -> forall iv, block_ok iv -> exists last,
  run (mode_decrypt a) (CBC iv) bl = Ok (cbc_decrypt (inv_cipher key) iv bl, last).
Proof.
  intros K Ha bl B. induction B as [|b l Hb Hl IH]; intros iv Hiv; [eexists; reflexivity|]. cbn [run mode_decrypt cbc_decrypt]. destruct (IH b Hb) as [last E]. exists last.
  rewrite block_zlen by assumption. change xor_zip with xor_bytes. rewrite (decrypt_spec key a b K Hb py2 Ha). cbn [bind fst snd]. now rewrite E.
Qed.
Lemma decrypted bl p : Forall block_ok bl -> wf_bytes p -> (1 <= List.length bl <= 15)%nat ->
  wallet_decrypt (concat bl) p = Ok (concat (cbc_decrypt (inv_cipher (wallet_key p)) (repeat 0 16) bl)).
Proof.
  intros B Hp Hn. pose proof (sixteen_of bl B) as S16. destruct (pass_key_ok p Hp) as [Wk Lk].
  destruct (proj2 (C70_keys_python3_partial (pass_key p)) (or_introl Lk)) as [a Ha].
  assert (zlen (concat bl) = Z.of_nat (List.length bl) * 16) as L by (unfold zlen; rewrite concat_length by exact S16; unfold bytes in *; lia).
  unfold wallet_decrypt. cbv zeta. rewrite L, Z.mod_mul, Z.div_mul by lia. destruct (Z.eqb_spec (Z.of_nat (List.length bl)) 0); [lia|]. destruct (Z.leb_spec 16 (Z.of_nat (List.length bl))); [lia|]. cbn [orb Z.eqb negb].
  cbn [mode_init iv_block bind]. rewrite Ha. cbn [bind fst snd]. rewrite Nat2Z.id, by_blocks_run by (rewrite concat_length by exact S16; reflexivity).
  destruct (segs_facts [] 16 (List.length bl) (concat bl)) as [T1 T2]; [now rewrite concat_length|].
  assert (segments 16 (List.length bl) (concat bl) = bl) as -> by (apply concat_16_inj; assumption).
  destruct (dec_run false (pass_key p) a) with (bl := bl) (iv := repeat 0 16) as [last R]; [rewrite <- wallet_key_eq; now apply wallet_key_ok|exact Ha|exact B|exact zeros_block|].
  rewrite R. cbn [bind fst]. now rewrite wallet_key_eq.
Qed.
(** Decryption never notices anything: whatever text of 1 to 15 blocks it is
    given with whatever passphrase, it returns the only data that encrypts to
    that text. *)
Theorem C143_accepts c p : wf_bytes c -> wf_bytes p -> zlen c mod 16 = 0 -> 16 <= zlen c <= 240 ->
  exists data, wallet_decrypt c p = Ok data /\ wf_bytes data /\ zlen data = zlen c /\ wallet_encrypt data p = Ok c.
Proof.
  intros Wc Hp M B. destruct (cut c Wc M) as (bl & F & <- & L). pose proof (wallet_key_ok p Hp) as K.
  pose proof (dec_blocks_ok _ K bl F _ zeros_block) as FD. eexists. split; [apply decrypted; [exact F|exact Hp|lia]|].
  assert (wf_bytes (concat (cbc_decrypt (inv_cipher (wallet_key p)) (repeat 0 16) bl))) as WD. { apply wf_concat. eapply Forall_impl; [|exact FD]. intros b [H _]. exact H. }
  assert (forall l iv, List.length (cbc_decrypt (inv_cipher (wallet_key p)) iv l) = List.length l) as LD by (induction l as [|x l IH]; intro iv; [reflexivity|]; cbn [cbc_decrypt List.length]; now rewrite IH).
  assert (zlen (concat (cbc_decrypt (inv_cipher (wallet_key p)) (repeat 0 16) bl)) = zlen (concat bl)) as LE.
  { unfold zlen. rewrite !concat_length, LD by (now apply sixteen_of). reflexivity. }
  split; [exact WD|]. split; [exact LE|]. destruct (C71_wallet_encrypt _ p WD Hp) as (bl' & F' & C' & ->). do 2 f_equal.
  assert (zero_padded (concat (cbc_decrypt (inv_cipher (wallet_key p)) (repeat 0 16) bl)) = concat (cbc_decrypt (inv_cipher (wallet_key p)) (repeat 0 16) bl)) as ZP.
  { unfold zero_padded. rewrite LE, Z_mod_zero_opp_full by exact M. apply app_nil_r. }
  assert (bl' = cbc_decrypt (inv_cipher (wallet_key p)) (repeat 0 16) bl) as ->.
  { apply concat_16_inj; [|now apply sixteen_of|congruence]. eapply Forall_impl; [|exact F']. cbv beta. unfold zlen. intros b Hb. lia. }
  now apply enc_dec; [| |exact zeros_block].
Qed.
Lemma dec_app D : forall l iv c r, cbc_decrypt D iv (l ++ c :: r) = cbc_decrypt D iv l ++ xor_bytes (D c) (last l iv) :: cbc_decrypt D c r.
Proof.
  induction l as [|x l IH]; intros iv c r; [reflexivity|]. cbn [app cbc_decrypt]. rewrite IH. do 3 f_equal. destruct l as [|y l]; [reflexivity|].
  change (last (x :: y :: l) iv) with (last (y :: l) iv). clear. revert y. induction l as [|z l IH]; intro y; [reflexivity|exact (IH z)].
Qed.
Lemma dec_length D : forall l iv, List.length (cbc_decrypt D iv l) = List.length l.
Proof. induction l as [|x l IH]; intro iv; [reflexivity|]. cbn [cbc_decrypt List.length]. now rewrite IH. Qed.
Lemma xor_change : forall x b b', List.length b = List.length x -> List.length b' = List.length x -> xor_bytes (xor_bytes x b) (xor_bytes b b') = xor_bytes x b'.
Proof.
  induction x as [|u x IH]; intros [|v b] [|w b'] H H'; try discriminate; [reflexivity|]. cbn [xor_bytes]. f_equal; [|apply IH; cbn in *; lia].
  rewrite Z.lxor_assoc, <- (Z.lxor_assoc v v w), Z.lxor_nilpotent, Z.lxor_0_l. reflexivity.
Qed.
(** Whoever exchanges one block of the text, without knowing the passphrase,
    spoils that block of the data, chooses the bits that change in the next
    one, and leaves the rest as it was. *)
Theorem C143_altered pre b b' nxt post p data : wf_bytes (pre ++ b ++ nxt ++ post) -> block b' -> zlen b = 16 -> zlen nxt = 16 -> zlen pre mod 16 = 0 -> zlen post mod 16 = 0 -> wf_bytes p ->
  wallet_decrypt (pre ++ b ++ nxt ++ post) p = Ok data ->
  exists dpre d d' dnext dpost, data = dpre ++ d ++ dnext ++ dpost /\ zlen dpre = zlen pre /\ zlen d = 16 /\ zlen d' = 16 /\ zlen dnext = 16 /\
    wallet_decrypt (pre ++ b' ++ nxt ++ post) p = Ok (dpre ++ d' ++ xor_bytes dnext (xor_bytes b b') ++ dpost) /\ (d' = d <-> b' = b).
Proof.
  intros W Hb' Lb Ln M1 M2 Hp E. apply Forall_app in W. destruct W as [W1 W]. apply Forall_app in W. destruct W as [W2 W]. apply Forall_app in W. destruct W as [W3 W4].
  assert (block_ok b) as Bb by (apply block_iff; now split). assert (block_ok nxt) as Bn by (apply block_iff; now split). apply block_iff in Hb'.
  destruct (cut pre W1 M1) as (l & Bl & <- & Ll), (cut post W4 M2) as (r & Br & <- & Lr).
  assert (forall x, concat l ++ x ++ nxt ++ concat r = concat (l ++ x :: nxt :: r)) as C by (intro x; rewrite concat_app; reflexivity).
  assert (forall x, block_ok x -> Forall block_ok (l ++ x :: nxt :: r)) as BX by (intros x Hx; apply Forall_app; split; [exact Bl|repeat (apply Forall_cons; [assumption|]); exact Br]).
  pose proof (wallet_key_ok p Hp) as K. set (D := inv_cipher (wallet_key p)) in *.
  assert (1 <= List.length (l ++ b :: nxt :: r) <= 15)%nat as N.
  { rewrite C in E. assert (zlen (concat (l ++ b :: nxt :: r)) = Z.of_nat (List.length (l ++ b :: nxt :: r)) * 16) as L.
    { unfold zlen. rewrite concat_length by (apply sixteen_of, BX, Bb). rewrite Nat2Z.inj_mul. apply Z.mul_comm. }
    unfold wallet_decrypt in E. cbv zeta in E. rewrite L, Z.div_mul in E by lia. unfold bytes in *.
    destruct (Z.eqb_spec (Z.of_nat (List.length (l ++ b :: nxt :: r))) 0); [discriminate E|]. destruct (Z.leb_spec 16 (Z.of_nat (List.length (l ++ b :: nxt :: r)))); [discriminate E|]. lia. }
  rewrite C in E. rewrite decrypted in E by (exact Hp || exact N || exact (BX b Bb)). fold D in E. rewrite dec_app in E. cbn [cbc_decrypt] in E.
  set (prev := last l (repeat 0 16)) in *. assert (block_ok prev) as Bp.
  { unfold prev. clear - Bl. induction Bl as [|x l Hx Hl IH]; [exact zeros_block|]. cbn [last]. destruct l; [exact Hx|exact IH]. }
  assert (forall x, block_ok x -> block_ok (D x)) as BD by (intros x Hx; now apply inv_cipher_ok).
  exists (concat (cbc_decrypt D (repeat 0 16) l)), (xor_bytes (D b) prev), (xor_bytes (D b') prev), (xor_bytes (D nxt) b), (concat (cbc_decrypt D nxt r)).
  assert (forall x y, block_ok x -> block_ok y -> zlen (xor_bytes x y) = 16) as LX by (intros x y Hx Hy; destruct (block_xor x y Hx Hy) as [_ Q]; unfold zlen; now rewrite Q).
  split. { injection E as <-. rewrite concat_app. reflexivity. }
  split. { unfold zlen. rewrite !concat_length by (apply sixteen_of; (assumption || (apply dec_blocks_ok; [exact K|exact Bl|exact zeros_block]))). now rewrite dec_length. }
  split; [apply LX; [now apply BD|exact Bp]|]. split; [apply LX; [now apply BD|exact Bp]|]. split; [apply LX; [now apply BD|exact Bb]|]. split.
  - rewrite C. rewrite decrypted; [|exact (BX b' Hb')|exact Hp|rewrite app_length in *; cbn [List.length] in *; lia]. fold D prev. rewrite dec_app, concat_app. cbn [cbc_decrypt concat]. fold prev. do 4 f_equal.
    symmetry. apply xor_change; destruct (BD nxt Bn) as [_ Q1], Bb as [_ Q2], Hb' as [_ Q3]; congruence.
  - split; [|intros ->; reflexivity]. intro Q. apply (f_equal (fun z => xor_bytes z prev)) in Q.
    assert (forall x, block_ok x -> xor_bytes (xor_bytes (D x) prev) prev = D x) as XX by (intros x Hx; apply xor_twice; destruct (BD x Hx) as [_ ->], Bp as [_ ->]; lia).
    rewrite !XX in Q by assumption. apply (f_equal (cipher (wallet_key p))) in Q. unfold D in Q. now rewrite !cipher_inv_cipher in Q by assumption.
Qed.

Lemma same_wf x n : 0 <= x < 256 -> wf_bytes (repeat x n).
Proof. intro H. apply Forall_forall. intros y Hy. apply repeat_spec in Hy. subst y. exact H. Qed.
Example C143_applies : exists c c' d, wallet_encrypt (repeat 65 20) (repeat 112 5) = Ok c /\ wallet_encrypt (repeat 65 16 ++ [66]) (repeat 112 5) = Ok c' /\
  firstn 16 c = firstn 16 c' /\ firstn 32 c <> firstn 32 c' /\ c <> c' /\ zlen c = 32 /\
  wallet_decrypt (repeat 1 16 ++ skipn 16 c) (repeat 112 5) = Ok d /\ zlen d = 32 /\
  exists head, d = head ++ xor_bytes (repeat 65 4 ++ repeat 0 12) (xor_bytes (firstn 16 c) (repeat 1 16)) ++ [].
Proof.
  pose proof (same_wf 112 5 ltac:(lia)) as Wp. pose proof (same_wf 65 20 ltac:(lia)) as W1.
  assert (wf_bytes (repeat 65 16 ++ [66])) as W2 by (apply Forall_app; split; [apply same_wf; lia|repeat constructor; lia]).
  destruct (C71_wallet_roundtrip _ _ W1 Wp) as (c & E & Wc & Lc & D). destruct (C71_wallet_roundtrip _ _ W2 Wp) as (c' & E' & _).
  change (zlen (zero_padded (repeat 65 20))) with 32 in Lc. change ((0 <? zlen (repeat 65 20)) && (zlen (repeat 65 20) <=? 240)) with true in D. cbv iota in D.
  assert (firstn 32 c <> firstn 32 c') as NE. { intro Q. apply (C143_prefix _ _ _ _ _ 2 W1 W2 Wp E E') in Q. discriminate Q. }
  pose proof (firstn_skipn 16 c) as FS. assert (List.length c = 32%nat) as L32 by (unfold zlen in Lc; lia).
  destruct (C143_altered [] (firstn 16 c) (repeat 1 16) (skipn 16 c) [] (repeat 112 5) (zero_padded (repeat 65 20))) as (dpre & x & x' & dn & dpost & S1 & S2 & S3 & S4 & S5 & S6 & _).
  - rewrite app_nil_r. cbn [app]. now rewrite FS.
  - split; [apply same_wf; lia|reflexivity].
  - unfold zlen. rewrite firstn_length, L32. reflexivity.
  - unfold zlen. rewrite skipn_length, L32. reflexivity.
  - reflexivity.
  - reflexivity.
  - exact Wp.
  - rewrite app_nil_r. cbn [app]. now rewrite FS.
  - rewrite app_nil_r in S6. cbn [app] in S6. destruct dpre; [|cbn in S2; unfold zlen in S2; cbn in S2; lia]. cbn [app] in S1, S6.
    assert (dpost = []) as ->. { apply (f_equal (@zlen Z)) in S1. rewrite !zlen_app in S1. change (zlen (zero_padded (repeat 65 20))) with 32 in S1. destruct dpost; [reflexivity|]. unfold zlen in *. cbn [List.length] in *. lia. }
    assert (dn = repeat 65 4 ++ repeat 0 12) as ->.
    { apply (f_equal (skipn 16)) in S1. rewrite app_nil_r, skipn_app in S1. unfold zlen in S3. rewrite (skipn_all2 x) in S1 by lia. replace (16 - List.length x)%nat with 0%nat in S1 by lia. symmetry. exact S1. }
    exists c, c', (x' ++ xor_bytes (repeat 65 4 ++ repeat 0 12) (xor_bytes (firstn 16 c) (repeat 1 16)) ++ []).
    split; [exact E|]. split; [exact E'|]. split; [apply (C143_prefix _ _ _ _ _ 1 W1 W2 Wp E E'); reflexivity|]. split; [exact NE|]. split; [intros <-; now apply NE|]. split; [exact Lc|].
    split; [exact S6|]. split; [|now exists x']. rewrite !zlen_app, S4. unfold zlen. rewrite !xor_bytes_length, firstn_length, L32. reflexivity.
Qed.

(** ** Assumptions *)

Print Assumptions C143_prefix.
Print Assumptions C143_equal.
Print Assumptions C143_size.
Print Assumptions C143_accepts.
Print Assumptions C143_altered.
