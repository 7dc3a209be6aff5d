(** Scores, bans, heartbeats, the address book and the connection budget. *)
From Coq Require Import String ZArith List Lia Bool Permutation Sorting.Sorted.
From Verif Require Import PyBase PyVal FormatModel MessagesModel NodeModel NodeProofs NodeProofs2 NodeProofs3.
Import ListNotations.
Open Scope string_scope.
Open Scope list_scope.
Open Scope Z_scope.

(** ** The set of peers *)
Lemma open_from_in l : forall k i, In i (open_from k l) <-> exists j c, i = (k + j)%nat /\ nth_error l j = Some c /\ c_open c = true.
Proof.
  induction l as [|c l IH]; intros k i.
  - cbn. split; [tauto|]. intros ([|j] & c & _ & H & _); discriminate.
  - cbn [open_from].
    assert (In i (open_from (S k) l) <-> exists j c', i = (k + S j)%nat /\ nth_error l j = Some c' /\ c_open c' = true) as A.
    { rewrite IH. split; intros (j & c' & -> & H); exists j, c'; (split; [lia|exact H]). }
    destruct (c_open c) eqn:O; cbn [In]; rewrite A; split.
    + intros [<-|(j & c' & H)]; [exists 0%nat, c; split; [lia|auto]|exists (S j), c'; exact H].
    + intros ([|j] & c' & E & H & O'); [left; lia|right; eauto].
    + intros (j & c' & H). exists (S j), c'. exact H.
    + intros ([|j] & c' & E & H & O'); [cbn in H; congruence|eauto].
Qed.
Lemma open_from_nodup l : forall k, NoDup (open_from k l).
Proof.
  induction l as [|c l IH]; intro k; cbn [open_from]; [constructor|]. destruct (c_open c); [|apply IH].
  constructor; [|apply IH]. intro H. apply open_from_in in H. destruct H as (j & c' & E & _). lia.
Qed.
Lemma peers_in i n : In i (peers n) <-> is_open i n = true.
Proof.
  unfold peers. rewrite open_from_in, is_open_get. unfold get_conn. split.
  - intros (j & c & -> & H). eauto.
  - intros (c & H). exists i, c. split; [lia|exact H].
Qed.
Lemma peers_nodup n : NoDup (peers n). Proof. apply open_from_nodup. Qed.

(** ** What no operation ever changes *)
Definition grow (n n' : node) : Prop :=
  (exists added, n_trace n' = n_trace n ++ added) /\
  (forall i c, get_conn i n = Some c -> exists c', get_conn i n' = Some c' /\ c_address c' = c_address c /\
      c_incoming c' = c_incoming c /\ (c_open c' = true -> c_open c = true)).
Lemma grow_refl n : grow n n.
Proof. split; [exists []; now rewrite app_nil_r|]. intros i c G. exists c. auto. Qed.
Lemma grow_trans a b c : grow a b -> grow b c -> grow a c.
Proof.
  intros ((x & A1) & A2) ((y & B1) & B2). split.
  - exists (x ++ y). now rewrite B1, A1, app_assoc.
  - intros i ca G. destruct (A2 i ca G) as (cb & Gb & E1 & E2 & E3). destruct (B2 i cb Gb) as (cc & Gc & F1 & F2 & F3).
    exists cc. repeat split; [assumption|congruence|congruence|auto].
Qed.
Lemma grow_emit a n : grow n (emit a n).
Proof. split; [now exists [a]|]. intros i c G. exists c. auto. Qed.
Lemma grow_upd i f n : (forall c, c_address (f c) = c_address c /\ c_incoming (f c) = c_incoming c /\ (c_open (f c) = true -> c_open c = true)) ->
  grow n (upd i f n).
Proof.
  intro H. split; [exists []; now rewrite app_nil_r|]. intros j c G. rewrite get_upd, G. destruct (Nat.eqb i j); cbn; [exists (f c); split; [reflexivity|apply H]|exists c; auto].
Qed.
Lemma grow_fields n n' : n_conns n' = n_conns n -> n_trace n' = n_trace n -> grow n n'.
Proof. intros H1 H2. split; [exists []; now rewrite app_nil_r|]. unfold get_conn. rewrite H1. intros i c G. exists c. auto. Qed.

Section Invariants.
Variable sha256 : bytes -> bytes.
Variable py2 : bool.
Variable cf : config.
Notation step := (step sha256 py2 cf).
Notation history := (history sha256 py2 cf).

Lemma grow_prim n n' : prim sha256 cf n n' -> grow n n'.
Proof.
  intros [n1 n2 H|n1 i c len G F L|n1 i chunk now _ W].
  - destruct H; unfold queue, shut, register, add_banscore, reduce_banscore, pinged, check_external_ip, record_peer, wrote, ban, beat, disconnected.
    + destruct (get_conn i n0); [|apply grow_refl]. eapply grow_trans; [|apply grow_emit]. now apply grow_upd.
    + destruct (get_conn i n0); [|apply grow_refl]. eapply grow_trans; [apply (grow_upd i (set_c_open false)); cbn; intro; repeat split; discriminate|].
      eapply grow_trans; [apply (grow_emit (AClose i))|]. destruct (book_mem _ _); [now apply grow_fields|apply grow_refl].
    + eapply grow_trans; [|apply grow_emit]. split; [exists []; now rewrite app_nil_r|]. intros i c G. exists c. split; [|auto].
      unfold get_conn in *. cbn [n_conns set_n_conns]. rewrite nth_error_app1; [assumption|]. apply nth_error_Some. congruence.
    + destruct (get_conn i n0); [|apply grow_refl]. now apply grow_upd.
    + destruct (get_conn i n0); [|apply grow_refl]. now apply grow_upd.
    + rewrite H. eapply grow_trans; [|apply grow_emit]. now apply grow_upd.
    + destruct (count_votes _ _ _); [apply grow_refl|now apply grow_fields].
    + apply grow_upd. intro c. specialize (H c). unfold core in H. injection H as H1 H2 H3 _ _ _ _ _ _ _ _. repeat split; congruence.
    + destruct (get_conn i n0); [|apply grow_refl]. destruct (_ <? _); [now apply grow_fields|apply grow_refl].
    + now apply grow_fields.
    + apply grow_emit.
    + destruct (get_conn i n0) as [c|]; [|apply grow_refl]. eapply grow_trans; [|apply grow_emit].
      eapply grow_trans; [apply (grow_upd i (fun c => set_c_send (zdrop (Z.max 0 (Z.min k (zlen (c_send c)))) (c_send c)) c)); auto|].
      split; [exists []; now rewrite app_nil_r|]. intros j c' G. revert G. 
      match goal with |- context [get_conn j (set_n_tx ?v ?x)] => change (get_conn j (set_n_tx v x)) with (get_conn j x) end.
      rewrite !get_upd. destruct (Nat.eqb i j); [|intro G; exists c'; auto]. destruct (get_conn j n0) as [c2|]; cbn; [|discriminate].
      intro E. injection E as <-. eexists. split; [reflexivity|]. cbn. auto.
    + eapply grow_trans; [|apply grow_emit]. now apply grow_fields.
    + now apply grow_fields.
    + eapply grow_trans; [|apply grow_emit]. now apply grow_fields.
    + now apply grow_fields.
  - unfold take_frame. eapply grow_trans; [|apply grow_emit]. now apply grow_upd.
  - unfold received. destruct (get_conn i n1); [|apply grow_refl]. eapply grow_trans; [|apply grow_emit].
    eapply grow_trans; [apply (grow_upd i (fun c => set_c_recv (c_recv c ++ chunk) (set_c_rx (c_rx c + zlen chunk) (set_c_last_rx now c)))); auto|now apply grow_fields].
Qed.
Lemma grow_star n n' : star (prim sha256 cf) n n' -> grow n n'.
Proof. induction 1; [apply grow_refl|]. eapply grow_trans; [eassumption|now apply grow_prim]. Qed.
Lemma grow_step n e : wf_event e -> grow n (step n e).
Proof. intro W. now apply grow_star, step_prims. Qed.

(** ** Scores *)
Definition score_inv (n : node) : Prop := forall i c, get_conn i n = Some c -> 0 <= c_banscore c.
Lemma score_upd i f n : (forall c, 0 <= c_banscore c -> 0 <= c_banscore (f c)) -> score_inv n -> score_inv (upd i f n).
Proof.
  intros H S j c G. rewrite get_upd in G. destruct (Nat.eqb i j); [|eauto]. destruct (get_conn j n) as [c0|] eqn:G0; [|discriminate].
  cbn in G. injection G as <-. apply H. eauto.
Qed.
Lemma score_emit a n : score_inv n -> score_inv (emit a n). Proof. auto. Qed.
Lemma score_inv_prim n n' : prim sha256 cf n n' -> score_inv n -> score_inv n'.
Proof.
  intros [n1 n2 H|n1 i c len G F L|n1 i chunk now _ W] S.
  - destruct H; unfold queue, shut, add_banscore, reduce_banscore, pinged, check_external_ip, record_peer, wrote, ban, beat, disconnected; try exact S.
    + destruct (get_conn i n0); [|exact S]. apply score_emit, score_upd; auto.
    + destruct (get_conn i n0); [|exact S]. assert (score_inv (emit (AClose i) (upd i (set_c_open false) n0))) by (apply score_emit, score_upd; auto).
      destruct (book_mem _ _); assumption.
    + intros j c G. rewrite get_register in G. destruct (Nat.eqb j _); [injection G as <-; cbn; lia|eauto].
    + destruct (get_conn i n0) as [c|] eqn:G; [|exact S]. apply score_upd; [|exact S]. cbn. intros _ _. specialize (S i c G). lia.
    + destruct (get_conn i n0) as [c|] eqn:G; [|exact S]. apply score_upd; [|exact S]. cbn. intros _ _. destruct (Z.ltb_spec (c_banscore c - 1) 0); lia.
    + rewrite H. apply score_emit, score_upd; auto.
    + destruct (count_votes _ _ _); exact S.
    + apply score_upd; [|exact S]. intros c Hc. specialize (H c). unfold core in H. injection H as _ _ _ _ _ _ _ _ _ _ H. now rewrite H.
    + destruct (get_conn i n0); [|exact S]. destruct (_ <? _); exact S.
    + destruct (get_conn i n0); [|exact S]. apply score_emit. apply (score_upd i _ n0); auto.
  - unfold take_frame. apply score_emit, score_upd; auto.
  - unfold received. destruct (get_conn i n1); [|exact S]. apply score_emit. apply (score_upd i _ n1); auto.
Qed.
Theorem score_inv_history es : Forall wf_event es -> score_inv (history es).
Proof. apply history_inv; [|apply score_inv_prim]. intros i c. unfold get_conn. cbn. destruct i; discriminate. Qed.

(** An open connection has a score of at most 5; bans and scores change only
    as stated. *)
Definition bans_of (tr : list action) : list (text * Z) :=
  flat_map (fun a => match a with ABan ip t => [(ip, t)] | _ => [] end) tr.
Definition keep_score (n n' : node) : Prop :=
  (forall i c, get_conn i n = Some c -> exists c', get_conn i n' = Some c' /\ c_banscore c' = c_banscore c /\ (c_open c' = true -> c_open c = true)) /\
  (forall i c, get_conn i n = None -> get_conn i n' = Some c -> c_banscore c = 0) /\
  bans_of (n_trace n') = bans_of (n_trace n) /\
  (forall ip, ban_lookup (KIp ip) (n_banned n') = ban_lookup (KIp ip) (n_banned n)).
Lemma keep_refl n : keep_score n n.
Proof. split; [intros i c G; exists c; auto|]. split; [congruence|auto]. Qed.
Lemma keep_trans a b c : keep_score a b -> keep_score b c -> keep_score a c.
Proof.
  intros (A1 & A2 & A3 & A4) (B1 & B2 & B3 & B4). split; [|split; [|split; [congruence|intro; now rewrite B4]]].
  - intros i ca G. destruct (A1 i ca G) as (cb & Gb & E1 & E2). destruct (B1 i cb Gb) as (cc & Gc & F1 & F2). exists cc. repeat split; [assumption|congruence|auto].
  - intros i cc G Gc. destruct (get_conn i b) as [cb|] eqn:Gb; [|eauto]. destruct (B1 i cb Gb) as (cc' & Gc' & F1 & _).
    assert (cc' = cc) as -> by congruence. rewrite F1. eauto.
Qed.
Lemma bans_app a b : bans_of (a ++ b) = bans_of a ++ bans_of b. Proof. apply flat_map_app. Qed.
Lemma keep_emit a n : bans_of [a] = [] -> keep_score n (emit a n).
Proof.
  intro H. split; [intros i c G; exists c; auto|]. split; [intros i c G1 G2; change (get_conn i n = Some c) in G2; congruence|]. split; [|reflexivity]. unfold emit. cbn [n_trace set_n_trace].
  rewrite bans_app, H. apply app_nil_r.
Qed.
Lemma keep_upd i f n : (forall c, c_banscore (f c) = c_banscore c /\ (c_open (f c) = true -> c_open c = true)) -> keep_score n (upd i f n).
Proof.
  intro H. split; [|split; [|split; reflexivity]].
  - intros j c G. rewrite get_upd, G. destruct (Nat.eqb i j); cbn; [exists (f c); split; [reflexivity|apply H]|exists c; auto].
  - intros j c G. rewrite get_upd, G. destruct (Nat.eqb i j); discriminate.
Qed.
Lemma keep_fields n n' : n_conns n' = n_conns n -> n_trace n' = n_trace n -> n_banned n' = n_banned n -> keep_score n n'.
Proof.
  intros H1 H2 H3. split; [|split; [|split; [congruence|intro; now rewrite H3]]]; unfold get_conn; rewrite H1.
  - intros i c G. exists c. auto.
  - congruence.
Qed.
Lemma keep_queue n i m b : keep_score n (queue i m b n).
Proof. unfold queue. destruct (get_conn i n); [|apply keep_refl]. eapply keep_trans; [|apply keep_emit; reflexivity]. now apply keep_upd. Qed.
Lemma keep_shut n i : keep_score n (shut i n).
Proof.
  unfold shut. destruct (get_conn i n); [|apply keep_refl]. eapply keep_trans; [apply (keep_upd i (set_c_open false)); cbn; split; [reflexivity|discriminate]|].
  eapply keep_trans; [apply (keep_emit (AClose i)); reflexivity|]. unfold disconnected. destruct (book_mem _ _); [now apply keep_fields|apply keep_refl].
Qed.
Lemma keep_register n a inc : keep_score n (register a inc n).
Proof.
  split; [|split; [|split]].
  - intros i c G. rewrite get_register. destruct (Nat.eqb_spec i (List.length (n_conns n))) as [->|]; [|exists c; auto].
    assert (get_conn (List.length (n_conns n)) n = None) by (apply nth_error_None; lia). congruence.
  - intros i c G. rewrite get_register. destruct (Nat.eqb i _); [intro H; injection H as <-; reflexivity|congruence].
  - unfold register, emit. cbn [n_trace set_n_trace set_n_conns]. rewrite bans_app. apply app_nil_r.
  - reflexivity.
Qed.
Lemma keep_pinged n i now now2 : keep_score n (pinged i now now2 n).
Proof. unfold pinged. destruct (get_conn i n); [|apply keep_refl]. eapply keep_trans; [|apply keep_emit; reflexivity]. now apply keep_upd. Qed.
Lemma keep_ext n : keep_score n (check_external_ip n).
Proof. unfold check_external_ip. destruct (count_votes _ _ _); [apply keep_refl|now apply keep_fields]. Qed.
Lemma keep_info n i f : (forall c, core (f c) = core c) -> keep_score n (upd i f n).
Proof. intro H. apply keep_upd. intro c. specialize (H c). unfold core in H. injection H as _ _ H1 _ _ _ _ _ _ _ H2. split; congruence. Qed.
Lemma keep_record n i now : keep_score n (record_peer i now n).
Proof. unfold record_peer. destruct (get_conn i n); [|apply keep_refl]. destruct (_ <? _); [now apply keep_fields|apply keep_refl]. Qed.
Lemma keep_note n a : inert a -> keep_score n (emit a n).
Proof. intro H. apply keep_emit. destruct a; try contradiction; reflexivity. Qed.
Lemma keep_wrote n i k now : keep_score n (wrote i k now n).
Proof.
  unfold wrote. destruct (get_conn i n) as [c|]; [|apply keep_refl]. eapply keep_trans; [|apply keep_emit; reflexivity].
  eapply keep_trans; [|apply keep_fields; reflexivity]. now apply keep_upd.
Qed.
Lemma ban_lookup_filter k l ip : ban_lookup (KIp ip) (filter (fun kv => negb (ban_key_eqb (fst kv) (KAddr k))) l) = ban_lookup (KIp ip) l.
Proof.
  induction l as [|(k' & v) l IH]; [reflexivity|]. cbn [filter fst]. destruct k' as [ip'|a']; cbn [ban_key_eqb negb].
  - cbn [ban_lookup]. now rewrite IH.
  - destruct (addr_eqb a' k); cbn [negb ban_lookup ban_key_eqb]; exact IH.
Qed.
Lemma keep_frame n i len c : keep_score n (take_frame sha256 cf i len c n).
Proof.
  unfold take_frame. eapply keep_trans; [apply (keep_upd i (set_c_recv (zdrop len (c_recv c)))); auto|]. apply keep_emit.
  unfold outcome. destruct (msg_parse _ _ _); [reflexivity|]. destruct (is_invalid e); reflexivity.
Qed.
Lemma keep_received n i chunk now : keep_score n (received i chunk now n).
Proof.
  unfold received. destruct (get_conn i n); [|apply keep_refl]. eapply keep_trans; [|apply keep_emit; reflexivity].
  eapply keep_trans; [|apply keep_fields; reflexivity]. now apply keep_upd.
Qed.
Hint Resolve keep_refl keep_queue keep_shut keep_register keep_pinged keep_ext keep_info keep_record keep_note keep_wrote keep_frame keep_received : keep.
Ltac ks := intros; first [now auto with keep | eapply keep_trans; eassumption | now apply keep_fields | assumption].

Lemma keep_accept a now e n : keep_score n (fst (handle_accept sha256 cf a now e n)).
Proof.
  unfold handle_accept. unfold bindM at 1, getM at 1. cbv beta iota zeta.
  match goal with |- context [if negb (cf_listen cf) then ?x else ?y] => set (admit := if negb (cf_listen cf) then x else y) end.
  assert (forall n, keep_score n (fst (admit n))) as Ha.
  { unfold admit. destruct (negb (cf_listen cf)); intro n'.
    - apply keep_emit. reflexivity.
    - apply (presR_try keep_score); [ks| |].
      + intro n''. apply new_connection_prims; try ks.
      + intro. apply presR_mod. intro. now apply keep_fields. }
  destruct (ban_lookup (KAddr a) (n_banned n)) as [t|]; [|apply Ha].
  destruct (now - t <? 3600 * SEC); [apply keep_emit; reflexivity|]. 
  unfold bindM, modM. cbv beta iota. eapply keep_trans; [|apply Ha]. 
  split; [intros i c G; exists c; auto|]. split; [intros i c G1 G2; change (get_conn i n = Some c) in G2; congruence|]. split; [reflexivity|]. intro ip. cbn [n_banned set_n_banned]. apply ban_lookup_filter.
Qed.
(** Neither a heartbeat nor a punishment. *)
Definition scoreless (e : event) : Prop := match e with EvLoop _ _ _ | EvPunish _ _ => False | _ => True end.
Lemma keep_run {A} (m : M A) n : presR keep_score m -> keep_score n (run m n).
Proof. intro H. apply H. Qed.
Lemma keep_step n e : wf_event e -> scoreless e -> keep_score n (step n e).
Proof.
  intros W S. destruct e; try contradiction; cbn [NodeModel.step]; try (destruct (is_open i n); [|apply keep_refl]).
  - apply keep_run, presR_readable; try ks.
  - destruct r as [[|x chunk]|]; unfold run; cbn [handle_read]; try apply keep_shut; try (apply (keep_trans n (shut i n)); apply keep_shut).
    unfold bindM at 1, modM at 1. cbv beta iota. unfold bindM, getM. cbv beta iota.
    eapply keep_trans; [apply keep_received|].
    destruct (get_conn i (received i (x :: chunk) now n)) as [c|]; [|apply keep_refl]. apply read_loop_R; ks.
  - apply keep_run, presR_write; ks.
  - apply keep_run, presR_close; ks.
  - destruct (n_listener n); [|apply keep_refl]. apply keep_accept.
  - apply keep_run, presR_add_peer; ks.
  - apply keep_run, presR_remove; ks.
  - apply keep_run, presR_send; ks.
Qed.

(** ** Punishing *)
Lemma punish_spec i now n c : get_conn i n = Some c ->
  step n (EvPunish i now) =
    if c_banscore c + 1 >? 5
    then shut i (ban (fst (c_address c)) now (upd i (set_c_banscore (c_banscore c + 1)) n))
    else upd i (set_c_banscore (c_banscore c + 1)) n.
Proof.
  intro G. cbn [NodeModel.step]. unfold run, punish_peer, bindM, modM, getM, add_banscore. cbv beta iota. rewrite G.
  rewrite get_upd, Nat.eqb_refl, G. cbn [option_map c_banscore set_c_banscore c_address].
  destruct (c_banscore c + 1 >? 5); reflexivity.
Qed.

(** ** Heartbeats *)
Definition getaddr_message : message := mk_message (mk_msg_type "GetAddress" "getaddr" "get_address" []) [].
Lemma getaddr_sends i n : exists m b, new_message (type_of "GetAddress") [] [] = Ok m /\
  send_message sha256 cf i m n = (queue i m b n, Ok tt).
Proof.
  assert (exists b, msg_binary sha256 getaddr_message (cf_magic cf) = Ok b) as (b & E).
  { eexists. unfold msg_binary. cbn. reflexivity. }
  exists getaddr_message, b. split; [vm_compute; reflexivity|]. unfold send_message, bindM, liftM, modM.
  rewrite E. reflexivity.
Qed.
Lemma reduce_all l : forall n, NoDup l -> forall i c, get_conn i n = Some c -> score_inv n ->
  exists c', get_conn i (fst (for_each l (fun i => modM (reduce_banscore i)) n)) = Some c' /\
    c_banscore c' = (if existsb (Nat.eqb i) l then Z.max 0 (c_banscore c - 1) else c_banscore c) /\
    c_open c' = c_open c.
Proof.
  induction l as [|k l IH]; intros n N i c G S; [exists c; auto|]. apply NoDup_cons_iff in N. destruct N as (Nk & N).
  cbn [for_each]. unfold bindM at 1, modM at 1. cbv beta iota.
  assert (score_inv (reduce_banscore k n)) as S1 by (eapply score_inv_prim; [apply p_prim0, p_reduce|exact S]).
  assert (exists c1, get_conn i (reduce_banscore k n) = Some c1 /\ c_open c1 = c_open c /\
    c_banscore c1 = if Nat.eqb i k then Z.max 0 (c_banscore c - 1) else c_banscore c) as (c1 & G1 & O1 & B1).
  { unfold reduce_banscore. destruct (get_conn k n) as [ck|] eqn:Gk.
    - rewrite get_upd, Nat.eqb_sym. destruct (Nat.eqb_spec i k) as [->|]; [|exists c; auto].
      rewrite Gk in *. assert (ck = c) as -> by congruence. cbn. eexists. split; [reflexivity|]. cbn. split; [reflexivity|].
      destruct (Z.ltb_spec (c_banscore c - 1) 0); lia.
    - exists c. split; [exact G|]. split; [reflexivity|]. destruct (Nat.eqb_spec i k) as [->|]; [congruence|reflexivity]. }
  destruct (IH _ N i c1 G1 S1) as (c' & G' & B' & O'). exists c'. split; [exact G'|]. split; [|congruence].
  rewrite B'. cbn [existsb]. destruct (Nat.eqb_spec i k) as [->|]; cbn [orb]; [|now rewrite B1].
  destruct (existsb (Nat.eqb k) l) eqn:E; [|exact B1]. apply existsb_exists in E. destruct E as (x & Hx & E). apply Nat.eqb_eq in E. subst x. contradiction.
Qed.
Lemma keep_score_inv n n' : keep_score n n' -> score_inv n -> score_inv n'.
Proof.
  intros (A & B & _) S i c G. destruct (get_conn i n) as [c0|] eqn:G0.
  - destruct (A i c0 G0) as (c' & G' & E & _). assert (c' = c) as -> by congruence. rewrite E. eauto.
  - rewrite (B i c G0 G). lia.
Qed.
Lemma reduce_keep_rest l : forall n, n_trace (fst (for_each l (fun i => modM (reduce_banscore i)) n)) = n_trace n /\
  n_banned (fst (for_each l (fun i => modM (reduce_banscore i)) n)) = n_banned n /\
  (forall i, get_conn i n = None -> get_conn i (fst (for_each l (fun i => modM (reduce_banscore i)) n)) = None).
Proof.
  induction l as [|k l IH]; intro n; [auto|].
  change (for_each (k :: l) (fun i => modM (reduce_banscore i)) n) with (for_each l (fun i => modM (reduce_banscore i)) (reduce_banscore k n)).
  destruct (IH (reduce_banscore k n)) as (A & B & C). rewrite A, B. unfold reduce_banscore at 1 2. destruct (get_conn k n) as [ck|] eqn:Gk.
  - split; [reflexivity|]. split; [reflexivity|]. intros i Gi. apply C. unfold reduce_banscore. rewrite Gk, get_upd, Gi. now destruct (Nat.eqb k i).
  - split; [reflexivity|]. split; [reflexivity|]. intros i Gi. apply C. unfold reduce_banscore. now rewrite Gk.
Qed.
(** The heartbeat after its connection attempts and its getaddr. *)
Lemma heartbeat_split envs pick n : exists n1, keep_score n n1 /\
  (snd (for_each (seq 0 (Z.to_nat (Z.min (cf_seek_peers cf - zlen (peers n)) 5))) (fun k => add_any_peer sha256 cf (envs k)) n) = Ok tt ->
   fst (heartbeat sha256 cf envs pick n) = fst (for_each (peers n) (fun i => modM (reduce_banscore i)) n1)).
Proof.
  unfold heartbeat. unfold bindM at 1, getM at 1. cbv beta iota zeta.
  set (att := for_each _ (fun k => add_any_peer sha256 cf (envs k))).
  assert (keep_score n (fst (att n))) as K. { apply presR_for; [ks|ks|]. intro. apply presR_add_any; ks. }
  unfold bindM at 1. destruct (att n) as (n1 & [[]|er]) eqn:Ea; cbn [fst snd] in *; [|exists n; split; [apply keep_refl|discriminate]].
  unfold bindM at 1, getM at 1. cbv beta iota. unfold bindM at 1.
  assert (exists n2, keep_score n1 n2 /\ (match peers n with
      | [] => retM tt
      | p :: _ => if zlen (n_book n1) <? 50 then
          do! m := liftM (new_message (type_of "GetAddress") [] []) in send_message sha256 cf (nth (Nat.modulo pick (List.length (peers n))) (peers n) p) m
        else retM tt end) n1 = (n2, Ok tt)) as (n2 & K2 & E2).
  { destruct (peers n) as [|p ps] eqn:Ep; [exists n1; split; [apply keep_refl|reflexivity]|].
    destruct (zlen (n_book n1) <? 50); [|exists n1; split; [apply keep_refl|reflexivity]].
    destruct (getaddr_sends (nth (Nat.modulo pick (List.length (p :: ps))) (p :: ps) p) n1) as (m & b & Em & Es).
    eexists. split; [|unfold bindM, liftM; rewrite Em; exact Es]. apply keep_queue. }
  exists n2. split; [eapply keep_trans; eassumption|]. intros _. rewrite E2. reflexivity.
Qed.
Lemma add_peer_ok a force e n : exists b, snd (add_peer sha256 cf a force e n) = Ok b.
Proof.
  unfold add_peer. unfold bindM at 1, getM at 1. cbv beta iota. destruct (_ && _); [eexists; reflexivity|].
  destruct (address_in_use _ _ _); [eexists; reflexivity|]. unfold tryM. destruct (bindM _ _ n) as (n' & [b|er]); eexists; reflexivity.
Qed.
Lemma add_any_ok e n : snd (add_any_peer sha256 cf e n) = Ok tt.
Proof.
  unfold add_any_peer. unfold bindM at 1, getM at 1. cbv beta iota. destruct (_ || _).
  - destruct (cf_bootstrap cf); [reflexivity|]. cbv zeta. unfold bindM. 
    match goal with |- context [add_peer sha256 cf ?a ?f ?e n] => destruct (add_peer_ok a f e n) as (b & E); destruct (add_peer sha256 cf a f e n) end.
    cbn in E. subst. reflexivity.
  - cbv zeta. destruct (find _ _) as [(a & v)|]; [|reflexivity]. unfold bindM.
    match goal with |- context [add_peer sha256 cf ?a ?f ?e n] => destruct (add_peer_ok a f e n) as (b & E); destruct (add_peer sha256 cf a f e n) end.
    cbn in E. subst. reflexivity.
Qed.
Lemma for_each_ok {A} (l : list A) f : (forall x n, snd (f x n) = Ok tt) -> forall n, snd (for_each l f n) = Ok tt.
Proof.
  intro H. induction l as [|x l IH]; intro n; [reflexivity|]. cbn [for_each]. unfold bindM. specialize (H x n). destruct (f x n). cbn in H. subst. apply IH.
Qed.
Lemma heartbeat_scores envs pick n : score_inv n ->
  (forall i c, get_conn i n = Some c -> exists c', get_conn i (fst (heartbeat sha256 cf envs pick n)) = Some c' /\
    c_banscore c' = (if c_open c then Z.max 0 (c_banscore c - 1) else c_banscore c) /\ (c_open c' = true -> c_open c = true)) /\
  (forall i c, get_conn i n = None -> get_conn i (fst (heartbeat sha256 cf envs pick n)) = Some c -> c_banscore c = 0) /\
  bans_of (n_trace (fst (heartbeat sha256 cf envs pick n))) = bans_of (n_trace n) /\
  (forall ip, ban_lookup (KIp ip) (n_banned (fst (heartbeat sha256 cf envs pick n))) = ban_lookup (KIp ip) (n_banned n)).
Proof.
  intro S. destruct (heartbeat_split envs pick n) as (n1 & K & E). rewrite E by (apply for_each_ok; intros; apply add_any_ok).
  pose proof (keep_score_inv _ _ K S) as S1. destruct K as (A & B & C & D).
  destruct (reduce_keep_rest (peers n) n1) as (T & Bn & Nn). rewrite T, Bn. split; [|split; [|split; assumption]].
  - intros i c G. destruct (A i c G) as (c1 & G1 & E1 & O1). destruct (reduce_all (peers n) n1 (peers_nodup n) i c1 G1 S1) as (c' & G' & B' & O').
    exists c'. split; [exact G'|]. split; [|rewrite O'; exact O1]. rewrite B', E1.
    assert (existsb (Nat.eqb i) (peers n) = c_open c) as ->; [|reflexivity].
    destruct (c_open c) eqn:O.
    + apply existsb_exists. exists i. split; [|apply Nat.eqb_refl]. apply peers_in, is_open_get. eauto.
    + destruct (existsb (Nat.eqb i) (peers n)) eqn:X; [|reflexivity]. apply existsb_exists in X. destruct X as (x & Hx & X). apply Nat.eqb_eq in X. subst x.
      apply peers_in, is_open_get in Hx. destruct Hx as (c2 & G2 & O2). congruence.
  - intros i c G G'. destruct (get_conn i n1) as [c1|] eqn:G1.
    + pose proof (B i c1 G G1) as B1. destruct (reduce_all (peers n) n1 (peers_nodup n) i c1 G1 S1) as (c' & G2 & B' & O').
      assert (c' = c) as -> by congruence. rewrite B', B1. now destruct (existsb _ _).
    + rewrite (Nn i G1) in G'. discriminate.
Qed.

(** Open connections have a score of at most five. *)
Definition low (n : node) : Prop := forall i c, get_conn i n = Some c -> c_open c = true -> 0 <= c_banscore c <= 5.
Lemma keep_low n n' : keep_score n n' -> low n -> low n'.
Proof.
  intros (A & B & _) S i c G O. destruct (get_conn i n) as [c0|] eqn:G0.
  - destruct (A i c0 G0) as (c' & G' & E & O'). assert (c' = c) as -> by congruence. rewrite E. eapply S; [eassumption|auto].
  - rewrite (B i c G0 G). lia.
Qed.
Lemma items_step now envs pick n : step n (EvLoop now envs pick) =
  if now - n_last_heartbeat n >? 10 * SEC then fst (heartbeat sha256 cf envs pick (beat now n)) else n.
Proof.
  cbn [NodeModel.step]. unfold run, items. unfold bindM at 1, getM at 1. cbv beta iota.
  destruct (now - n_last_heartbeat n >? 10 * SEC); reflexivity.
Qed.
Lemma items_scores now envs pick n : score_inv n ->
  let n' := step n (EvLoop now envs pick) in
  (forall i c, get_conn i n = Some c -> exists c', get_conn i n' = Some c' /\
    c_banscore c' = (if (now - n_last_heartbeat n >? 10 * SEC) && c_open c then Z.max 0 (c_banscore c - 1) else c_banscore c) /\ (c_open c' = true -> c_open c = true)) /\
  (forall i c, get_conn i n = None -> get_conn i n' = Some c -> c_banscore c = 0) /\
  bans_of (n_trace n') = bans_of (n_trace n) /\
  (forall ip, ban_lookup (KIp ip) (n_banned n') = ban_lookup (KIp ip) (n_banned n)).
Proof.
  intro S. cbn zeta. rewrite items_step.
  destruct (now - n_last_heartbeat n >? 10 * SEC); cbn [andb].
  - destruct (heartbeat_scores envs pick (beat now n) S) as (A & B & C & D).
    split; [exact A|]. split; [exact B|]. split; [|exact D]. rewrite C. unfold beat, emit. cbn [n_trace set_n_trace set_n_last_heartbeat].
    rewrite bans_app. apply app_nil_r.
  - split; [intros i c G; exists c; auto|]. split; [cbn; congruence|auto].
Qed.
Lemma step_low n e : wf_event e -> score_inv n -> low n -> low (step n e).
Proof.
  intros W S L. destruct e; try (eapply keep_low; [apply keep_step; [exact W|exact I]|exact L]).
  - destruct (items_scores now envs pick n S) as (A & B & _). intros i c G O. destruct (get_conn i n) as [c0|] eqn:G0.
    + destruct (A i c0 G0) as (c' & G' & E & O'). assert (c' = c) as -> by congruence. rewrite E. specialize (L i c0 G0 (O' O)). destruct (_ && _); lia.
    + rewrite (B i c G0 G). lia.
  - destruct (get_conn i n) as [c|] eqn:G.
    + rewrite (punish_spec i now n c G). pose proof (S i c G) as Sc. destruct (Z.gtb_spec (c_banscore c + 1) 5) as [H|H].
      * intros j cj Gj Oj. unfold shut in Gj. cbn in Gj.
        assert (get_conn i (ban (fst (c_address c)) now (upd i (set_c_banscore (c_banscore c + 1)) n)) = Some (set_c_banscore (c_banscore c + 1) c)) as Gi.
        { unfold ban. rewrite get_emit. change (get_conn i (set_n_banned ?v ?x)) with (get_conn i x). rewrite get_upd, Nat.eqb_refl, G. reflexivity. }
        rewrite Gi in Gj. unfold disconnected in Gj.
        match type of Gj with get_conn j (if ?b then set_n_book ?v ?x else ?y) = _ => assert (get_conn j y = Some cj) as Gj' by (destruct b; exact Gj) end.
        rewrite get_emit, get_upd in Gj'. destruct (Nat.eqb_spec i j) as [->|Nij].
        -- rewrite Gi in Gj'. cbn in Gj'. injection Gj' as <-. discriminate.
        -- unfold ban in Gj'. rewrite get_emit in Gj'. change (get_conn j (set_n_banned ?v ?x)) with (get_conn j x) in Gj'.
           rewrite get_upd in Gj'. destruct (Nat.eqb_spec i j); [contradiction|]. eauto.
      * intros j cj Gj Oj. rewrite get_upd in Gj. destruct (Nat.eqb_spec i j) as [->|]; [|eauto]. rewrite G in Gj. cbn in Gj. injection Gj as <-. cbn. lia.
    + cbn [NodeModel.step]. unfold run, punish_peer, bindM, modM, getM, add_banscore. cbv beta iota. rewrite G, G. exact L.
Qed.
Theorem low_history es : Forall wf_event es -> low (history es).
Proof.
  intro W. assert (forall n, score_inv n -> low n -> low (fold_left step es n)) as H.
  { induction es as [|e es IH]; intros n S L; cbn [fold_left]; [exact L|]. inversion W; subst. apply IH; [assumption| |now apply step_low].
    eapply star_inv; [apply score_inv_prim|apply step_prims; assumption|exact S]. }
  apply H; intros i c; unfold get_conn; cbn; destruct i; discriminate.
Qed.
End Invariants.
