(** C129: two nodes left alone fall silent.

    Nothing in the library bounds a conversation; a reply that were itself
    answered would keep two nodes talking for ever.  Here: the network events of
    a node - reading, writing, errors, closing, punishing - make it say replies
    only, at most one for each request it reads, and replies are no requests; so
    when the timers, the dialling and the applications of two connected nodes
    rest, what they still say is bounded by the requests that were under way.
    Modelled source: nbc/node/basenode.py, nbc/node/connection.py. *)
From Coq Require Import String ZArith List Lia Bool.
From Verif Require Import PyBase PyVal FormatModel MessagesModel FormatSpec FormatProofs FormatProofs2 MessagesProofs
  NodeModel NodeProofs NodeProofs2 NodeProofs3 NodeProofs4 NodeProofs5 NodeProofs6 NodeProofs7 NodeProofs8 NodeProofs9 NodeProofs10 NodeProofs12
  PropsNode PropsHello PropsTalk PropsMeet.
Import ListNotations.
Open Scope string_scope.
Open Scope list_scope.
Open Scope Z_scope.

(** ** Specification *)

(** What happens to a node while it is left alone: its sockets become readable
    or writable or fail, peers are removed or punished. *)
Definition network_event (e : event) : bool :=
  match e with EvRead _ _ _ _ | EvWrite _ _ _ | EvError _ | EvRemovePeer _ | EvPunish _ _ => true | _ => false end.
(** Messages that ask for an answer, and messages that are one. *)
Definition request (m : message) : bool := existsb (fun s => is_cmd s m) ["version"; "ping"; "getaddr"].
Definition reply (m : message) : bool := existsb (fun s => is_cmd s m) ["verack"; "pong"; "addr"].
Definition requests (l : list message) : Z := zlen (filter request l).

Inductive replying (py2 : bool) : list item -> Prop :=
| r_start : replying py2 []
| r_heard l m r : replying py2 l -> answered py2 m r -> replying py2 (l ++ Heard m :: map Said r).

Lemma replying_app py2 a b : replying py2 a -> replying py2 b -> replying py2 (a ++ b).
Proof. intros Ha Hb. induction Hb as [|l m r Hl IH Hr]; [now rewrite app_nil_r|]; rewrite app_assoc; now constructor. Qed.

Lemma requests_app a b : requests (a ++ b) = requests a + requests b.
Proof. unfold requests. now rewrite filter_app, zlen_app'. Qed.
Lemma requests_nonneg l : 0 <= requests l. Proof. unfold requests, zlen. lia. Qed.
Lemma reply_no_request m : reply m = true -> request m = false.
Proof.
  unfold reply, request, is_cmd. cbn [existsb]. destruct (String.eqb_spec (cmd m) "verack") as [->|_]; [reflexivity|].
  destruct (String.eqb_spec (cmd m) "pong") as [->|_]; [reflexivity|]. destruct (String.eqb_spec (cmd m) "addr") as [->|_]; [reflexivity|discriminate].
Qed.
Lemma answered_bound py2 m r : answered py2 m r -> Forall (fun a => reply a = true) r /\ zlen r <= requests [m].
Proof.
  intro A. split.
  - destruct (answer_kinds py2 m r A) as (_ & _ & _ & _ & F). eapply Forall_impl; [|exact F]. intros a [E|[E|[E|[]]]]; unfold reply, is_cmd; rewrite <- E; reflexivity.
  - unfold answered in A. unfold requests, request, is_cmd. cbn [filter existsb].
    destruct (String.eqb (cmd m) "version"); [subst r; cbn; lia|]. destruct (String.eqb (cmd m) "ping").
    { destruct A as (nonce & _ & ->). destruct (zlen nonce =? 8); cbn; lia. }
    destruct (String.eqb (cmd m) "getaddr"); [destruct A as [->|(_ & a & -> & _)]; cbn; lia|]. subst r. cbn. lia.
Qed.
Lemma replying_bound py2 l : replying py2 l -> Forall (fun a => reply a = true) (said l) /\ zlen (said l) <= requests (heard l).
Proof.
  induction 1 as [|l m r Hl (I1 & I2) Hr]; [split; [constructor|cbn; lia]|].
  rewrite said_app, heard_app', said_answers, heard_answers, zlen_app', requests_app. destruct (answered_bound py2 m r Hr) as (A & B).
  split; [apply Forall_app; now split|lia].
Qed.

(** ** Network events only make a node reply *)

Section Replies.
Variable sha256 : bytes -> bytes.
Variable py2 : bool.
Variable cf : config.
Definition Rp : node -> node -> Prop := grows (fun l => forall i, replying py2 (talk i l)).
Lemma Rp_refl n : Rp n n. Proof. apply grows_refl. constructor. Qed.
Lemma Rp_trans a b c : Rp a b -> Rp b c -> Rp a c.
Proof. apply grows_trans. intros x y Hx Hy i. rewrite talk_app. now apply replying_app. Qed.
Lemma Rp_same n n' : n_trace n' = n_trace n -> Rp n n'. Proof. apply grows_same. constructor. Qed.
Lemma Rp_emit a n : mute a -> Rp n (emit a n).
Proof. intro M. apply grows_emit. intro i. rewrite talk_mute; constructor; auto. Qed.
Lemma Rp_emitted a n n' : mute a -> n_trace n' = n_trace n ++ [a] -> Rp n n'.
Proof. intros M E. exists [a]. split; [exact E|]. intro i. rewrite talk_mute; constructor; auto. Qed.
Lemma Rp_shut n i : Rp n (shut i n).
Proof.
  unfold shut. destruct (get_conn i n) as [c|]; [|apply Rp_refl]. apply (Rp_emitted (AClose i)); [exact I|].
  unfold disconnected. destruct (book_mem _ _); reflexivity.
Qed.
Lemma Rp_add n i : Rp n (add_banscore i n).
Proof. unfold add_banscore. destruct (get_conn i n); apply Rp_same; reflexivity. Qed.
Notation pres := (presR Rp).
Lemma pR_ret {A} (a : A) : pres (retM a). Proof. apply presR_ret. exact Rp_refl. Qed.
Lemma pR_bind {A B} (m : M A) (k : A -> M B) : pres m -> (forall a, pres (k a)) -> pres (bindM m k). Proof. apply presR_bind. exact Rp_trans. Qed.
Lemma pR_frame i payload now n c : get_conn i n = Some c -> Rp n (fst (handle_frame sha256 py2 cf i payload now n)).
Proof.
  intro G. unfold handle_frame. destruct (msg_parse sha256 payload (cf_magic cf)) as [m|e] eqn:P.
  - unfold bindM at 1, modM at 1. cbv beta iota.
    destruct (handle_answer sha256 py2 cf payload i m now (emit (AMsg i m) n) c P G) as (l & r & E & A & T1 & T2).
    assert (X : Rp n (fst (handle_message sha256 py2 cf i m now (emit (AMsg i m) n)))).
    { exists ([AMsg i m] ++ l). split; [rewrite E; unfold emit; cbn [n_trace set_n_trace]; now rewrite <- app_assoc|].
      intro j. rewrite talk_app. cbn [talk flat_map app]. destruct (Nat.eqb_spec i j) as [Ej|Hne].
      - subst j. rewrite T1. apply (r_heard _ []); [constructor|exact A].
      - rewrite T2 by congruence. constructor. }
    unfold tryM. destruct (handle_message sha256 py2 cf i m now (emit (AMsg i m) n)) as (n' & [u|x]); [exact X|]. cbn [fst] in *.
    eapply Rp_trans; [exact X|]. unfold modM. cbn [fst]. apply Rp_emit. destruct (is_invalid x); exact I.
  - apply Rp_emit. destruct (is_invalid e); exact I.
Qed.
Lemma pR_read_loop fuel : forall i clock, pres (read_loop sha256 py2 cf fuel i clock).
Proof.
  induction fuel as [|k IH]; intros i clock; cbn [read_loop]; [apply pR_ret|]. apply presR_get. intro n.
  destruct (get_conn i n) as [c|] eqn:E; [|apply Rp_refl]. destruct (first_msg_len (c_recv c)) as [len|]; [|apply Rp_refl]. destruct (_ >? _); [apply Rp_refl|]. cbv zeta.
  unfold bindM at 1, modM at 1. cbv beta iota.
  apply (Rp_trans n (upd i (set_c_recv (zdrop len (c_recv c))) n)); [apply Rp_same; reflexivity|]. unfold bindM.
  assert (Gc : exists c', get_conn i (upd i (set_c_recv (zdrop len (c_recv c))) n) = Some c') by (rewrite get_upd, Nat.eqb_refl, E; eexists; reflexivity).
  destruct Gc as (c' & Gc). pose proof (pR_frame i (ztake len (c_recv c)) (clock k) _ c' Gc) as X.
  destruct (handle_frame sha256 py2 cf i (ztake len (c_recv c)) (clock k) (upd i (set_c_recv (zdrop len (c_recv c))) n)) as (n' & [u|x]); cbn [fst] in *; [|exact X].
  eapply Rp_trans; [exact X|apply IH].
Qed.
Lemma pR_read i r now clock : pres (handle_read sha256 py2 cf i r now clock).
Proof.
  destruct r as [[|x ch]|]; cbn [handle_read]; try (apply presR_close; exact Rp_shut); try (apply pR_bind; [|intros _]; apply presR_close; exact Rp_shut).
  apply pR_bind; [|intros _; apply presR_get; intro n; destruct (get_conn i n); [apply pR_read_loop|apply Rp_refl]].
  apply presR_mod. intro n. unfold received. destruct (get_conn i n) as [c|] eqn:E; [|apply Rp_refl]. apply (Rp_emitted (ARecv i (x :: ch))); [exact I|reflexivity].
Qed.
Lemma Rp_wrote i k now n : Rp n (wrote i k now n).
Proof.
  unfold wrote. destruct (get_conn i n) as [c|] eqn:E; [|apply Rp_refl]. cbv zeta. eapply Rp_emitted; [|reflexivity]. exact I.
Qed.
Lemma Rp_step n e : network_event e = true -> Rp n (step sha256 py2 cf n e).
Proof.
  intros S. destruct e; try discriminate S; cbn [step]; try (destruct (is_open i n); [|apply Rp_refl]); unfold run.
  - apply pR_read.
  - apply (presR_write Rp Rp_trans Rp_shut). intros. apply Rp_wrote.
  - apply Rp_shut.
  - apply (presR_remove Rp Rp_refl Rp_shut).
  - apply (presR_punish Rp Rp_refl Rp_trans Rp_shut Rp_add). intros. apply (Rp_emitted (ABan (fst (c_address c)) now0)); [exact I|reflexivity].
Qed.
Lemma Rp_steps l : forallb network_event l = true -> forall n, Rp n (fold_left (step sha256 py2 cf) l n).
Proof.
  induction l as [|e l IH]; intros H n; cbn [fold_left]; [apply Rp_refl|]. cbn [forallb] in H. apply andb_prop in H. destruct H as (H1 & H2).
  exact (Rp_trans _ _ _ (Rp_step n e H1) (IH H2 _)).
Qed.
End Replies.

(** One node, any peers: while the node is left alone, all that it says on a
    connection is replies, no more of them than it reads requests there. *)
Theorem C129_only_replies : forall sha256 py2 cf before after i,
  forallb network_event after = true ->
  let tr := n_trace (history sha256 py2 cf before) in
  exists l, n_trace (history sha256 py2 cf (before ++ after)) = tr ++ l /\
    Forall (fun m => reply m = true) (said (talk i l)) /\
    zlen (said (talk i l)) <= requests (heard (talk i l)).
Proof.
  intros sha py2 cf es fs i H tr. unfold tr, history. rewrite fold_left_app.
  destruct (Rp_steps sha py2 cf fs H (fold_left (step sha py2 cf) es (init_node cf))) as (l & E & R).
  exists l. split; [exact E|]. apply (replying_bound py2). apply R.
Qed.

(** ** Two nodes *)

Lemma requests_arrived l : requests (map arrived l) = requests l.
Proof. unfold requests. induction l as [|m l IH]; [reflexivity|]. cbn [map filter]. change (request (arrived m)) with (request m). destruct (request m); cbn [zlen List.length] in *; unfold zlen in *; cbn [List.length]; lia. Qed.
Lemma requests_firstn k l : requests (firstn k l) <= requests l.
Proof. rewrite <- (firstn_skipn k l) at 2. rewrite requests_app. pose proof (requests_nonneg (skipn k l)). lia. Qed.
Lemma requests_replies l : Forall (fun m => reply m = true) l -> requests l = 0.
Proof. induction 1 as [|m l H Hl IH]; [reflexivity|]. change (m :: l) with ([m] ++ l). rewrite requests_app, IH. unfold requests. cbn [filter]. rewrite (reply_no_request m H). reflexivity. Qed.

(** Two nodes of the same coin, [i] and [j] the two ends of one TCP connection.
    They have lived through [esA] and [esB]; then both are left alone, whatever
    the network makes of it and for however long ([fsA], [fsB]).  What the first
    says from then on is at most one message for every request that the second
    had said and the first had not read yet - and the same the other way round,
    so that together they say at most as many messages as requests were under
    way when they were left alone. *)
Theorem C129_silence : forall sha256 pyA pyB cfA cfB esA fsA esB fsB i j,
  (forall x, 4 <= zlen (sha256 x)) -> cf_magic cfA = cf_magic cfB -> zlen (cf_magic cfA) = 4 ->
  Forall (fun c => 0 <= c) (cf_user_agent cfB) -> Forall wf_event (esA ++ fsA) -> Forall ordinary_event (esB ++ fsB) ->
  forallb network_event fsA = true -> forallb network_event fsB = true ->
  let A0 := talk i (n_trace (history sha256 pyA cfA esA)) in
  let A1 := talk i (n_trace (history sha256 pyA cfA (esA ++ fsA))) in
  let B0 := talk j (n_trace (history sha256 pyB cfB esB)) in
  (exists rest, wire_of j (n_trace (history sha256 pyB cfB (esB ++ fsB))) = recv_of i (n_trace (history sha256 pyA cfA (esA ++ fsA))) ++ rest) ->
  zlen (said A1) - zlen (said A0) <= requests (said B0) - requests (heard A0).
Proof.
  intros sha pyA pyB cfA cfB esA fsA esB fsB i j Hs Em Lm Hu WA OB NA NB A0 A1 B0 Hw.
  destruct (C126_understood sha pyB pyA cfB cfA (esB ++ fsB) (esA ++ fsA) j i Hs (eq_sym Em)) as (k & _ & H & _); [now rewrite <- Em|exact Hu|exact OB|exact WA|exact Hw|].
  fold A1 in H. destruct (C129_only_replies sha pyA cfA esA fsA i NA) as (la & Ea & Fa & La). destruct (C129_only_replies sha pyB cfB esB fsB j NB) as (lb & Eb & Fb & _).
  cbv zeta in Ea, Eb. rewrite Eb, talk_app, said_app in H. fold B0 in H.
  assert (E1 : A1 = A0 ++ talk i la) by (unfold A1, A0; now rewrite Ea, talk_app).
  rewrite E1, said_app, zlen_app'. apply (f_equal requests) in H. rewrite E1, heard_app', requests_app, requests_arrived in H.
  pose proof (requests_firstn k (said B0 ++ said (talk j lb))) as K. rewrite requests_app, (requests_replies _ Fb) in K. lia.
Qed.

(** When the first has read all that the second had said, it never says
    anything again. *)
Theorem C129_quiet : forall sha256 pyA pyB cfA cfB esA fsA esB fsB i j,
  (forall x, 4 <= zlen (sha256 x)) -> cf_magic cfA = cf_magic cfB -> zlen (cf_magic cfA) = 4 ->
  Forall (fun c => 0 <= c) (cf_user_agent cfB) -> Forall wf_event (esA ++ fsA) -> Forall ordinary_event (esB ++ fsB) ->
  forallb network_event fsA = true -> forallb network_event fsB = true ->
  let trA := n_trace (history sha256 pyA cfA esA) in
  let trB := n_trace (history sha256 pyB cfB esB) in
  recv_of i trA = queued_of j trB -> recv_of i trA = wire_of j trB ->
  (exists rest, wire_of j (n_trace (history sha256 pyB cfB (esB ++ fsB))) = recv_of i (n_trace (history sha256 pyA cfA (esA ++ fsA))) ++ rest) ->
  said (talk i (n_trace (history sha256 pyA cfA (esA ++ fsA)))) = said (talk i trA).
Proof.
  intros sha pyA pyB cfA cfB esA fsA esB fsB i j Hs Em Lm Hu WA OB NA NB trA trB Eq Ew Hw.
  pose proof (C129_silence sha pyA pyB cfA cfB esA fsA esB fsB i j Hs Em Lm Hu WA OB NA NB Hw) as S. cbv zeta in S. fold trA trB in S.
  destruct (proj1 (Forall_app _ _ _) WA) as (WA0 & _). destruct (proj1 (Forall_app _ _ _) OB) as (OB0 & _).
  destruct (C126_understood sha pyB pyA cfB cfA esB esA j i Hs (eq_sym Em)) as (k & _ & _ & H); [now rewrite <- Em|exact Hu|exact OB0|exact WA0|exists []; fold trA trB; now rewrite app_nil_r|].
  fold trA trB in H. rewrite (H Eq), requests_arrived in S.
  destruct (C129_only_replies sha pyA cfA esA fsA i NA) as (la & Ea & _ & _). cbv zeta in Ea. fold trA in Ea. rewrite Ea, talk_app, said_app in *.
  rewrite zlen_app' in S. destruct (said (talk i la)) as [|m l]; [apply app_nil_r|]. unfold zlen in S. cbn [List.length] in S. lia.
Qed.

(** Over their whole lives: the replies that the first says never outnumber the
    requests that the second has said, unless its application sends replies. *)
Lemma dialogue_replies py2 (asked : message -> Prop) l : (forall m, asked m -> reply m = false) -> dialogue py2 asked l ->
  zlen (filter reply (said l)) <= requests (heard l).
Proof.
  intros Ha. induction 1 as [|l m Hl IH Hm|l m r Hl IH Hr]; [cbn; lia| |].
  - rewrite said_app, heard_app'. cbn [said heard flat_map app]. rewrite app_nil_r, filter_app. cbn [filter].
    assert (reply m = false) as ->. { destruct Hm as [[E|[E|[E|[]]]]|Hm]; [| | |now apply Ha]; unfold reply, is_cmd; rewrite <- E; reflexivity. }
    now rewrite app_nil_r.
  - rewrite said_app, heard_app', said_answers, heard_answers, filter_app, zlen_app', requests_app. destruct (answered_bound py2 m r Hr) as (_ & B).
    assert (zlen (filter reply r) <= zlen r); [|lia]. clear. unfold zlen. induction r as [|a r IH]; [cbn; lia|]. cbn [filter]. destruct (reply a); cbn [List.length] in *; lia.
Qed.
Theorem C129_balance : forall sha256 pyA pyB cfA cfB esA esB i j,
  (forall x, 4 <= zlen (sha256 x)) -> cf_magic cfA = cf_magic cfB -> zlen (cf_magic cfA) = 4 ->
  Forall (fun c => 0 <= c) (cf_user_agent cfB) -> Forall wf_event esA -> Forall ordinary_event esB ->
  (forall m, In (EvSend i m) esA -> reply m = false) ->
  let trA := n_trace (history sha256 pyA cfA esA) in
  let trB := n_trace (history sha256 pyB cfB esB) in
  (exists rest, wire_of j trB = recv_of i trA ++ rest) ->
  zlen (filter reply (said (talk i trA))) <= requests (said (talk j trB)).
Proof.
  intros sha pyA pyB cfA cfB esA esB i j Hs Em Lm Hu WA OB Ha trA trB Hw.
  destruct (C126_understood sha pyB pyA cfB cfA esB esA j i Hs (eq_sym Em)) as (k & _ & H & _); [now rewrite <- Em|exact Hu|exact OB|exact WA|exact Hw|].
  fold trA trB in H. pose proof (dialogue_replies pyA _ _ Ha (history_dialogue sha pyA cfA esA i)) as K. fold trA in K. rewrite H, requests_arrived in K.
  pose proof (requests_firstn k (said (talk j trB))). lia.
Qed.

(** The nodes of C126: left alone when each has said its version and nothing has
    been read, the first says its verack and no more. *)
Definition nyA : list event := [EvRead 0 (RData (wire_of 0 (n_trace (history nx_sha false nx_cfB nxB1)))) (1005 * SEC) nx_clock; EvWrite 0 (STaken 1000) (1006 * SEC)].
Definition nyB0 : list event := firstn 1 nxB2.
Definition nyB : list event := skipn 1 nxB2.
Example C129_applies :
  nxA1 ++ nyA = nxA2 /\ nyB0 ++ nyB = nxB2 /\ forallb network_event nyA = true /\ forallb network_event nyB = true /\
  Forall wf_event (nxA1 ++ nyA) /\ Forall ordinary_event (nyB0 ++ nyB) /\
  wire_of 0 (n_trace nxB) = recv_of 0 (n_trace nxA) /\
  map item_name (talk 0 (n_trace (history nx_sha true nx_ship nxA1))) = [("said", "version")] /\
  map item_name (talk 0 (n_trace (history nx_sha false nx_cfB nyB0))) = [("said", "version")] /\
  map item_name (talk 0 (n_trace nxA)) = [("said", "version"); ("heard", "version"); ("said", "verack"); ("heard", "verack")].
Proof.
  assert (E : nxA1 ++ nyA = nxA2) by reflexivity. assert (F : nyB0 ++ nyB = nxB2) by reflexivity.
  split; [exact E|]. split; [exact F|]. split; [reflexivity|]. split; [reflexivity|].
  split. { rewrite E. eapply Forall_impl; [|exact (proj2 nx_eventsA)]. intros e He. exact (proj1 He). }
  split; [rewrite F; exact (proj2 nx_eventsB)|].
  repeat (split; [vm_compute; reflexivity|]). vm_compute. reflexivity.
Qed.

(** ** Assumptions *)

Print Assumptions C129_only_replies.
Print Assumptions C129_silence.
Print Assumptions C129_quiet.
Print Assumptions C129_balance.
