(** Round trip of every mode, whatever the calls; feeders. *)
From Coq Require Import ZArith List Lia Bool.
From Verif Require Import PyBase PyVal AesTables AesModel AesSpec AesProofs AesModes ModesUse ModesSpec ModesProofs.
Import ListNotations.
Open Scope list_scope.
Open Scope Z_scope.

Lemma key_ok_of key : wf_bytes key -> key_size_ok key -> key_ok key.
Proof. intros H K. split; [exact H|]. unfold key_size_ok, zlen in K. lia. Qed.
Lemma init_key_size py2 key a : aes_init py2 key = Ok a -> key_size_ok key.
Proof.
  unfold aes_init, key_size_ok. destruct (Z.eqb_spec (zlen key) 16); [auto|]. destruct (Z.eqb_spec (zlen key) 24); [auto|]. destruct (Z.eqb_spec (zlen key) 32); [auto|]. discriminate.
Qed.
Lemma block_ok_of b : wf_bytes b -> zlen b = 16 -> block_ok b.
Proof. intros H L. split; [exact H|]. unfold zlen in L. lia. Qed.

Lemma iv_block_ok iv b : iv_ok iv -> iv_block iv = Ok b -> block_ok b.
Proof.
  destruct iv as [v|]; cbn; intros H E.
  - destruct (Z.eqb_spec (zlen v) 16); [|discriminate]. cbn in E. assert (b = v) as -> by congruence. now apply block_ok_of.
  - assert (b = repeat 0 16) as -> by (cbn; congruence). split; [|reflexivity]. cbn. repeat (apply Forall_cons; [unfold is_byte; lia|]). constructor.
Qed.
Lemma bind_ok {A B} (m : res A) (k : A -> res B) b : bind m k = Ok b -> exists x, m = Ok x /\ k x = Ok b.
Proof. destruct m; cbn; [eauto|discriminate]. Qed.

Section Init.
  Variables (py2 : bool) (key : bytes) (args : mode_args) (a : aes) (m : mode).
  Hypothesis Hkey : wf_bytes key.
  Hypothesis Hargs : args_ok args.
  Hypothesis Hinit : mode_init py2 key args = Ok (a, m).
  Let E := cipher key.
  Let D := inv_cipher key.
  Lemma init_facts : aes_init py2 key = Ok a /\
    match args with
    | NewECB => m = ECB
    | NewCBC iv => exists b, iv_block iv = Ok b /\ block_ok b /\ m = CBC b
    | NewCFB iv n => exists b, iv_block iv = Ok b /\ block_ok b /\ m = CFB (segment_of n) b
    | NewOFB iv => exists b, iv_block iv = Ok b /\ block_ok b /\ m = OFB [] b
    | NewCTR v => m = CTR (block_of (v mod 2 ^ 128)) []
    end.
  Proof using Hinit Hargs.
    destruct args as [|iv|iv n|iv|v]; cbn [mode_init args_ok] in *.
    - apply bind_ok in Hinit. destruct Hinit as (x & -> & H). split; congruence.
    - apply bind_ok in Hinit. destruct Hinit as (b & Eb & H). apply bind_ok in H. destruct H as (x & -> & H). split; [congruence|]. exists b. split; [easy|]. split; [now apply (iv_block_ok iv)|congruence].
    - apply bind_ok in Hinit. destruct Hinit as (b & Eb & H). apply bind_ok in H. destruct H as (x & -> & H). split; [congruence|]. exists b. split; [easy|]. split; [now apply (iv_block_ok iv)|]. unfold segment_of. congruence.
    - apply bind_ok in Hinit. destruct Hinit as (b & Eb & H). apply bind_ok in H. destruct H as (x & -> & H). split; [congruence|]. exists b. split; [easy|]. split; [now apply (iv_block_ok iv)|congruence].
    - apply bind_ok in Hinit. destruct Hinit as (x & -> & H). split; [congruence|]. rewrite <- counter_init_spec. congruence.
  Qed.
  Lemma obj_facts : (forall b, block_ok b -> aes_encrypt a b = Ok (E b)) /\ (forall b, block_ok b -> aes_decrypt a b = Ok (D b)) /\
    (forall b, block_ok b -> block_ok (E b)) /\ (forall b, block_ok b -> D (E b) = b) /\ key_ok key.
  Proof using Hkey Hinit Hargs.
    destruct init_facts as [H _]. pose proof (key_ok_of key Hkey (init_key_size _ _ _ H)) as K.
    split; [|split; [|split; [|split]]]; [intros b Hb; now apply (encrypt_spec key a b K Hb py2) | intros b Hb; now apply (decrypt_spec key a b K Hb py2) |
      intros; now apply cipher_ok | intros; now apply inv_cipher_cipher | exact K].
  Qed.
  (** What a sequence of calls outputs (SP 800-38A). *)
  Definition mode_output (plain : list Z) (cipher_text : list Z) : Prop :=
    match args with
    | NewECB => exists blocks, Forall (fun b => List.length b = 16%nat) blocks /\ concat blocks = plain /\ cipher_text = concat (ecb_encrypt E blocks)
    | NewCBC iv => exists b blocks, iv_block iv = Ok b /\ Forall (fun b => List.length b = 16%nat) blocks /\ concat blocks = plain /\ cipher_text = concat (cbc_encrypt E b blocks)
    | NewCFB iv n => exists b segs, iv_block iv = Ok b /\ Forall (fun b => zlen b = segment_of n) segs /\ concat segs = plain /\ cipher_text = concat (cfb_encrypt E b segs)
    | NewOFB iv => exists b, iv_block iv = Ok b /\ forall n, (List.length plain <= 16 * n)%nat -> cipher_text = xor_bytes plain (ofb_stream E n b)
    | NewCTR v => forall n, (List.length plain <= 16 * n)%nat -> cipher_text = xor_bytes plain (ctr_stream E n (v mod 2 ^ 128))
    end.
  Lemma segs_facts seg k : forall l, List.length l = (seg * k)%nat -> concat (segments seg k l) = l /\ Forall (fun b => List.length b = seg) (segments seg k l).
  Proof.
    induction k as [|k IH]; intros l H; cbn [segments concat].
    - rewrite Nat.mul_0_r in H. destruct l; [|discriminate H]. now split.
    - destruct (IH (skipn seg l)) as [A B]; [rewrite skipn_length; nia|]. rewrite A, firstn_skipn. split; [reflexivity|]. constructor; [rewrite firstn_length; nia|exact B].
  Qed.
  Lemma blocks_of calls : Forall wf_bytes calls -> Forall (fun c => zlen c = 16) calls -> Forall block_ok calls /\ Forall (fun c => List.length c = 16%nat) calls.
  Proof.
    induction calls as [|c r IH]; intros H1 H2; [split; constructor|]. inversion H1; inversion H2; subst. destruct IH as [A B]; [easy|easy|].
    assert (block_ok c) as Hc by (now apply block_ok_of). split; constructor; try assumption. apply Hc.
  Qed.
  Theorem modes_spec calls : Forall wf_bytes calls -> Forall (accepts args) calls ->
    exists outs m', run (mode_encrypt a) m calls = Ok (outs, m') /\ mode_output (concat calls) (concat outs) /\ wf_bytes (concat outs).
  Proof using Hkey Hargs Hinit.
    intros Hw Hacc. destruct obj_facts as (HE & HD & OE & DE & _). destruct init_facts as [_ Hm]. unfold mode_output.
    assert (wf_bytes (concat calls)) as Wc by (clear - Hw; induction Hw; cbn; [constructor|]; now apply Forall_app).
    destruct args as [|iv|iv n|iv|v] eqn:EA; cbn [accepts args_ok] in *.
    - subst m. destruct (blocks_of calls Hw Hacc) as [B L]. eexists _, _. split; [now apply (ecb_enc a E)|]. split; [now exists calls|].
      clear - B OE. induction B as [|b l Hb Hl IH]; cbn; [constructor|]. apply Forall_app. split; [now apply OE|exact IH].
    - destruct Hm as (b & Eb & Hb & ->). destruct (blocks_of calls Hw Hacc) as [B L]. destruct (cbc_both a E D HE HD OE DE calls B b Hb) as (last & E1 & _ & F & _).
      eexists _, _. split; [exact E1|]. split; [now exists b, calls|]. clear - F. induction F as [|c l Hc Hl IH]; cbn; [constructor|]. apply Forall_app. split; [apply Hc|exact IH].
    - destruct Hm as (b & Eb & Hb & ->). destruct Hargs as [_ Hn].
      set (seg := Z.to_nat (segment_of n)). assert (segment_of n = Z.of_nat seg /\ (1 <= seg <= 16)%nat) as [Es Hs] by (unfold seg, segment_of; destruct (Z.eqb_spec n 0); lia).
      assert (forall l, Forall (accepts (NewCFB iv n)) l -> Forall (fun c => zlen c mod Z.of_nat seg = 0) l) as HA by (rewrite <- Es; intros l Hl; exact Hl).
      rewrite Es in *. destruct (cfb_run a E D HE HD OE DE seg Hs true calls Hw (HA _ Hacc) b Hb) as (k & outs & Hk & E1 & E2 & E3).
      eexists _, _. split; [exact E1|]. rewrite E2. destruct (segs_facts seg k _ Hk) as [S1 S2]. split.
      + exists b, (segments seg k (concat calls)). split; [exact Eb|]. split; [|split; [exact S1|]].
        * eapply Forall_impl; [|exact S2]. cbv beta. intros x <-. reflexivity.
        * now apply (cfb_fun_spec a E D HE HD OE DE).
      + now apply (cfb_fun_inverse a E D HE HD OE DE).
    - destruct Hm as (b & Eb & Hb & ->). set (N := List.length (concat calls)).
      assert (block_ok (b ++ [])) as Hb' by (now rewrite app_nil_r).
      assert (forall n, (List.length (concat calls) <= 16 * n)%nat -> exists s, ofb_loop a [] b (concat calls) = Ok (xor_bytes (concat calls) (ofb_stream E n b), s)) as P.
      { intros n Hn. destruct (ofb_loop_spec a E D HE HD OE DE (concat calls) [] b n Hb') as (r' & l' & E1 & _); [cbn; lia|]. rewrite app_nil_r in E1. eexists. exact E1. }
      destruct (P N ltac:(unfold N; lia)) as (s & E1). destruct (ofb_run a _ _ _ _ E1) as (outs & E2 & E3). eexists _, _. split; [exact E2|]. cbn [fst] in E3.
      split.
      + exists b. split; [exact Eb|]. intros n Hn. destruct (P n Hn) as (s' & E4). congruence.
      + rewrite E3. apply xor_wf; [exact Wc|]. clear - OE Hb. generalize N. intro n. revert b Hb. induction n as [|n IH]; intros b Hb; cbn; [constructor|]. apply Forall_app. split; [now apply OE|]. apply IH. now apply OE.
    - subst m. set (v0 := v mod 2 ^ 128) in *. assert (in_range v0) as R by (unfold v0, in_range; apply Z.mod_pos_bound; lia).
      set (N := List.length (concat calls)).
      destruct (ctr_run a E D HE HD OE DE calls v0 [] N R) as (outs & m' & E1 & E2); [cbn; unfold N; lia|]. eexists _, _. split; [exact E1|]. split.
      + intros n Hn. destruct (ctr_run a E D HE HD OE DE calls v0 [] n R) as (outs' & m'' & E3 & E4); [cbn; lia|]. cbn [app] in E4. assert (outs = outs') as -> by congruence. exact E4.
      + rewrite E2. apply xor_wf; [exact Wc|]. cbn [app]. clear - OE. generalize N. intro n. generalize v0. induction n as [|n IH]; intro w; cbn [ctr_stream]; [constructor|]. apply Forall_app. split; [|apply IH]. apply OE, block_of_ok.
  Qed.
  (** Decryption, calls cut anew. *)
  Theorem modes_roundtrip calls outs m' : Forall wf_bytes calls -> Forall (accepts args) calls -> run (mode_encrypt a) m calls = Ok (outs, m') ->
    forall calls', Forall (accepts args) calls' -> concat calls' = concat outs ->
    exists outs' m'', run (mode_decrypt a) m calls' = Ok (outs', m'') /\ concat outs' = concat calls.
  Proof using Hkey Hargs Hinit.
    intros Hw Hacc HR calls' Hacc' HC. destruct obj_facts as (HE & HD & OE & DE & _). destruct init_facts as [_ Hm].
    destruct (modes_spec calls Hw Hacc) as (outs0 & m0 & HR0 & _ & W). assert (outs0 = outs) as -> by congruence. clear HR0 m0.
    assert (Forall wf_bytes calls') as Hw'.
    { rewrite <- HC in W. clear - W. induction calls' as [|c r IH]; [constructor|]. cbn in W. apply Forall_app in W. constructor; [apply W|apply IH, W]. }
    destruct args as [|iv|iv n|iv|v] eqn:EA; cbn [accepts args_ok] in *.
    - subst m. destruct (blocks_of calls Hw Hacc) as [B L]. destruct (blocks_of calls' Hw' Hacc') as [B' L'].
      rewrite (ecb_enc a E HE) in HR by exact B. assert (outs = ecb_encrypt E calls) as -> by congruence.
      assert (calls' = ecb_encrypt E calls) as ->. { apply concat_16_inj; [easy| |easy]. clear - B OE. induction B; constructor; [now apply OE|easy]. }
      eexists _, _. split; [now apply (ecb_dec a E D HD OE DE)|reflexivity].
    - destruct Hm as (b & Eb & Hb & ->). destruct (blocks_of calls Hw Hacc) as [B L]. destruct (blocks_of calls' Hw' Hacc') as [B' L'].
      destruct (cbc_both a E D HE HD OE DE calls B b Hb) as (last & E1 & E2 & F & _). rewrite E1 in HR. assert (outs = cbc_encrypt E b calls) as -> by congruence.
      assert (calls' = cbc_encrypt E b calls) as ->. { apply concat_16_inj; [easy| |easy]. clear - F. induction F as [|c l Hc Hl IH]; constructor; [apply Hc|exact IH]. }
      eexists _, _. split; [exact E2|reflexivity].
    - destruct Hm as (b & Eb & Hb & ->). destruct Hargs as [_ Hn].
      set (seg := Z.to_nat (segment_of n)). assert (segment_of n = Z.of_nat seg /\ (1 <= seg <= 16)%nat) as [Es Hs] by (unfold seg, segment_of; destruct (Z.eqb_spec n 0); lia).
      assert (forall l, Forall (accepts (NewCFB iv n)) l -> Forall (fun c => zlen c mod Z.of_nat seg = 0) l) as HA by (rewrite <- Es; intros l Hl; exact Hl).
      rewrite Es in *. destruct (cfb_run a E D HE HD OE DE seg Hs true calls Hw (HA _ Hacc) b Hb) as (k & outs1 & Hk & E1 & E2 & E3). cbn [cfb_call] in E1.
      assert (outs1 = outs) as -> by congruence.
      destruct (cfb_run a E D HE HD OE DE seg Hs false calls' Hw' (HA _ Hacc') b Hb) as (k' & outs' & Hk' & E1' & E2' & E3'). cbn [cfb_call] in E1'.
      assert (wf_bytes (concat calls)) as Wc by (clear - Hw; induction Hw; cbn; [constructor|]; now apply Forall_app).
      assert (k' = k) as ->.
      { rewrite HC, E2 in Hk'. destruct (cfb_fun_reg a E D HE HD OE DE seg Hs true k b (concat calls) Hb Wc Hk) as [_ L]. rewrite L, Hk in Hk'. nia. }
      eexists _, _. split; [exact E1'|]. rewrite E2', HC, E2. destruct (cfb_fun_inverse a E D HE HD OE DE seg Hs k b (concat calls) Hb Wc Hk) as [X _]. cbv zeta in X. now rewrite X.
    - destruct Hm as (b & Eb & Hb & ->).
      assert (block_ok (b ++ [])) as Hb' by (now rewrite app_nil_r).
      assert (forall l n, (List.length l <= 16 * n)%nat -> exists s, ofb_loop a [] b l = Ok (xor_bytes l (ofb_stream E n b), s)) as P.
      { intros l n Hn. destruct (ofb_loop_spec a E D HE HD OE DE l [] b n Hb') as (r' & l' & E1 & _); [cbn; lia|]. rewrite app_nil_r in E1. eexists. exact E1. }
      set (N := List.length (concat calls)).
      destruct (P (concat calls) N ltac:(unfold N; lia)) as (s & E1). destruct (ofb_run a _ _ _ _ E1) as (outs1 & E2 & E3). cbn [fst] in E3. assert (outs1 = outs) as -> by congruence.
      pose proof (ofb_stream_length a E D HE HD OE DE N b Hb) as LN.
      assert (List.length (concat calls') = N) as L' by (rewrite HC, E3, xor_bytes_length, LN; unfold N; lia).
      destruct (P (concat calls') N ltac:(lia)) as (s' & F1). destruct (ofb_run a _ _ _ _ F1) as (outs' & F2 & F3). cbn [fst] in F3.
      exists outs'. eexists. split.
      + assert (forall st cs, run (mode_decrypt a) (OFB (fst st) (snd st)) cs = run (mode_encrypt a) (OFB (fst st) (snd st)) cs) as X.
        { intros st cs. revert st. induction cs as [|c cs IH]; intro st; [reflexivity|]. cbn [run mode_decrypt mode_encrypt]. destruct (ofb_loop a (fst st) (snd st) c) as [r|e]; [|reflexivity]. cbn [bind fst snd]. now rewrite IH. }
        rewrite (X ([], b)). exact F2.
      + rewrite F3, HC, E3. apply xor_twice. rewrite LN. unfold N. lia.
    - subst m. set (v0 := v mod 2 ^ 128) in *. assert (in_range v0) as R by (unfold v0, in_range; apply Z.mod_pos_bound; lia).
      set (N := List.length (concat calls)).
      destruct (ctr_run a E D HE HD OE DE calls v0 [] N R) as (outs1 & m1 & E1 & E2); [cbn; unfold N; lia|]. assert (outs1 = outs) as -> by congruence. cbn [app] in E2.
      pose proof (ctr_stream_length E OE N v0) as LN.
      assert (List.length (concat calls') = N) as L' by (rewrite HC, E2, xor_bytes_length, LN; unfold N; lia).
      destruct (ctr_run a E D HE HD OE DE calls' v0 [] N R) as (outs' & m2 & F1 & F2); [cbn; lia|]. cbn [app] in F2.
      exists outs', m2. split.
      + assert (forall c r cs, run (mode_decrypt a) (CTR c r) cs = run (mode_encrypt a) (CTR c r) cs) as X.
        { intros c r cs. revert c r. induction cs as [|d cs IH]; intros c r; [reflexivity|]. cbn [run mode_decrypt mode_encrypt]. unfold ctr_crypt. destruct (ctr_fill _ a c r _) as [s|e]; [|reflexivity]. cbn [bind fst snd]. now rewrite IH. }
        rewrite X. exact F1.
      + rewrite F2, HC, E2. apply xor_twice. rewrite LN. unfold N. lia.
  Qed.
End Init.
