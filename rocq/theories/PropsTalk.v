(** Properties C111 and C112: conversations, and what is known of a peer. *)
From Coq Require Import String ZArith List Lia Bool.
From Verif Require Import PyBase PyVal FormatModel MessagesModel FormatSpec FormatProofs MessagesProofs
  NodeModel NodeProofs NodeProofs2 NodeProofs3 NodeProofs7 NodeProofs8 NodeProofs9 NodeProofs10 PropsNode.
Import ListNotations.
Open Scope string_scope.
Open Scope list_scope.
Open Scope Z_scope.

(** ** C111: every reply has its request *)

(** On each connection of every history the messages queued and the messages
    handled make a [dialogue] (NodeProofs10.v): each message is followed at once
    by its answer, and nothing else is said but version, ping and getaddr
    messages and those the application sends. *)
Theorem C111_dialogue : forall sha256 py2 cf es i,
  dialogue py2 (fun m => In (EvSend i m) es) (talk i (n_trace (history sha256 py2 cf es))).
Proof. exact history_dialogue. Qed.

(** In numbers: the pongs are those of the pings with 8-byte nonces, in order. *)
Definition said (l : list item) : list message := flat_map (fun x => match x with Said m => [m] | _ => [] end) l.
Definition heard (l : list item) : list message := flat_map (fun x => match x with Heard m => [m] | _ => [] end) l.
Definition ping_nonce (m : message) : list bytes :=
  if is_cmd "ping" m then match assoc "nonce" (m_fields m) with Some (VBytes s) => if zlen s =? 8 then [s] else [] | _ => [] end else [].
Lemma said_app a b : said (a ++ b) = said a ++ said b. Proof. apply flat_map_app. Qed.
Lemma heard_app' a b : heard (a ++ b) = heard a ++ heard b. Proof. apply flat_map_app. Qed.
Lemma said_answers m r : said (Heard m :: map Said r) = r.
Proof. change (said (Heard m :: map Said r)) with (said (map Said r)). induction r as [|x r IH]; [reflexivity|]. cbn. now rewrite <- IH at 2. Qed.
Lemma heard_answers m r : heard (Heard m :: map Said r) = [m].
Proof. change (heard (Heard m :: map Said r)) with (m :: heard (map Said r)). f_equal. induction r as [|x r IH]; [reflexivity|]. exact IH. Qed.
Lemma answer_kinds py2 m r : answered py2 m r ->
  filter (is_cmd "pong") r = map pong_message (ping_nonce m) /\
  filter (is_cmd "verack") r = (if is_cmd "version" m then [verack_message] else []) /\
  zlen (filter (is_cmd "addr") r) <= (if is_cmd "getaddr" m then 1 else 0) /\
  (py2 = false -> filter (is_cmd "addr") r = []) /\
  Forall (fun a => In (cmd a) ["verack"; "pong"; "addr"]) r.
Proof.
  unfold answered, ping_nonce, is_cmd. destruct (String.eqb_spec (cmd m) "version") as [->|H1].
  - intros ->. cbn. repeat split; [discriminate|]. constructor; [cbn; tauto|constructor].
  - destruct (String.eqb_spec (cmd m) "ping") as [->|H2].
    + intros (nonce & -> & ->). destruct (zlen nonce =? 8); cbn; (repeat split; [discriminate|]); [constructor; [cbn; tauto|constructor]|constructor].
    + destruct (String.eqb_spec (cmd m) "getaddr") as [H3|H3]; [intros [->|(-> & a & -> & E)]|intros ->].
      * cbn. repeat split; [discriminate|constructor].
      * cbn [filter]. rewrite E. cbn. repeat split; [discriminate|discriminate|]. constructor; [rewrite E; cbn; tauto|constructor].
      * cbn. repeat split; [discriminate|constructor].
Qed.
Lemma zlen_app' {A} (a b : list A) : zlen (a ++ b) = zlen a + zlen b.
Proof. unfold zlen. rewrite app_length. lia. Qed.
Lemma dialogue_counts py2 (asked : message -> Prop) l :
  (forall m, asked m -> ~ In (cmd m) ["pong"; "verack"; "addr"]) -> dialogue py2 asked l ->
  filter (is_cmd "pong") (said l) = map pong_message (flat_map ping_nonce (heard l)) /\
  filter (is_cmd "verack") (said l) = map (fun _ => verack_message) (filter (is_cmd "version") (heard l)) /\
  zlen (filter (is_cmd "addr") (said l)) <= zlen (filter (is_cmd "getaddr") (heard l)) /\
  (py2 = false -> filter (is_cmd "addr") (said l) = []).
Proof.
  intros Ha. induction 1 as [|l m Hl (I1 & I2 & I3 & I4) Hm|l m r Hl (I1 & I2 & I3 & I4) Hr].
  - cbn. repeat split. discriminate.
  - rewrite said_app, heard_app'. cbn [said heard flat_map app]. rewrite app_nil_r, !filter_app. cbn [filter].
    assert (F : forall s, In s ["pong"; "verack"; "addr"] -> is_cmd s m = false).
    { intros s Hs. apply String.eqb_neq. intro E. destruct Hm as [Hm|Hm].
      - rewrite E in Hm. destruct Hs as [<-|[<-|[<-|[]]]]; destruct Hm as [Hm|[Hm|[Hm|[]]]]; discriminate Hm.
      - apply (Ha m Hm). now rewrite E. }
    rewrite !F by (cbn; tauto). rewrite !app_nil_r. auto.
  - rewrite said_app, heard_app', said_answers, heard_answers. destruct (answer_kinds py2 m r Hr) as (A1 & A2 & A3 & A4 & _).
    rewrite !filter_app, flat_map_app, !map_app, I1, I2, A1, A2. cbn [flat_map]. rewrite app_nil_r. split; [reflexivity|]. split.
    + f_equal. cbn [filter]. destruct (is_cmd "version" m); reflexivity.
    + split.
      * rewrite !zlen_app'. cbn [filter]. destruct (is_cmd "getaddr" m); change (zlen [m]) with 1; change (zlen (@nil message)) with 0; lia.
      * intro E. now rewrite (I4 E), (A4 E).
Qed.
Theorem C111_counts : forall sha256 py2 cf es i,
  (forall m, In (EvSend i m) es -> ~ In (cmd m) ["pong"; "verack"; "addr"]) ->
  let l := talk i (n_trace (history sha256 py2 cf es)) in
  filter (is_cmd "pong") (said l) = map pong_message (flat_map ping_nonce (heard l)) /\
  filter (is_cmd "verack") (said l) = map (fun _ => verack_message) (filter (is_cmd "version") (heard l)) /\
  zlen (filter (is_cmd "addr") (said l)) <= zlen (filter (is_cmd "getaddr") (heard l)) /\
  (py2 = false -> filter (is_cmd "addr") (said l) = []).
Proof. intros sha py2 cf es i H l. exact (dialogue_counts py2 _ l H (history_dialogue sha py2 cf es i)). Qed.
(** A node left to itself never sends a message of any other type: it relays
    neither transactions nor blocks. *)
Theorem C111_kinds : forall sha256 py2 cf es i m,
  In (Said m) (talk i (n_trace (history sha256 py2 cf es))) ->
  In (EvSend i m) es \/ In (cmd m) ["version"; "verack"; "ping"; "pong"; "getaddr"; "addr"].
Proof.
  intros sha py2 cf es i m. pose proof (history_dialogue sha py2 cf es i) as H. set (l := talk i _) in *. clearbody l.
  induction H as [|l m0 Hl IH Hm|l m0 r Hl IH Hr]; intro H; [destruct H| |].
  - apply in_app_or in H. destruct H as [H|[H|[]]]; [now apply IH|]. assert (m0 = m) as -> by congruence. destruct Hm as [Hm|Hm]; [right; cbn in *; tauto|now left].
  - apply in_app_or in H. destruct H as [H|[H|H]]; [now apply IH|discriminate|]. right. apply in_map_iff in H. destruct H as (x & E & H). assert (x = m) as -> by congruence.
    destruct (answer_kinds py2 m0 r Hr) as (_ & _ & _ & _ & F). rewrite Forall_forall in F. specialize (F m H). cbn in *. tauto.
Qed.

(** ** C112: what a connection reports of its peer *)

(** In every history the properties [version], [services], [user_agent],
    [start_height], [relay] and [external_ip] of a connection are those of the
    last version message handled on it ([None] before the first), and [verack]
    says whether a verack has been handled. *)
Lemma heard_talk i tr : heard (talk i tr) = heard_on i tr.
Proof.
  induction tr as [|a tr IH]; [reflexivity|]. change (a :: tr) with ([a] ++ tr). rewrite talk_app, heard_app', heard_app, IH. f_equal.
  destruct a; try reflexivity; cbn; destruct (Nat.eqb i0 i); reflexivity.
Qed.
Theorem C112_details : forall sha256 py2 cf es i c, Forall wf_event es ->
  get_conn i (history sha256 py2 cf es) = Some c ->
  let h := heard (talk i (n_trace (history sha256 py2 cf es))) in
  c_verack c = existsb (is_cmd "verack") h /\
  match find (is_cmd "version") (rev h) with
  | None => c_version c = None /\ c_services c = None /\ c_user_agent c = None /\ c_start_height c = None /\ c_relay c = None /\ c_external_ip c = None
  | Some m => c_version c = assoc "version" (m_fields m) /\ c_services c = assoc "services" (m_fields m) /\
      c_user_agent c = assoc "user_agent" (m_fields m) /\ c_start_height c = assoc "start_height" (m_fields m) /\
      c_relay c = assoc "relay" (m_fields m) /\
      option_map VStr (c_external_ip c) = match assoc "addr_recv" (m_fields m) with Some (VObj _ fs) => assoc "address" fs | _ => None end
  end.
Proof.
  intros sha py2 cf es i c W G h. pose proof (history_reported sha py2 cf es W i) as H. rewrite G in H.
  assert (E : heard_on i (n_trace (history sha py2 cf es)) = h).
  { symmetry. apply heard_talk. }
  rewrite E in H. unfold report, details in H.
  split; [congruence|]. destruct (find (is_cmd "version") (rev h)) as [m|] eqn:F.
  - cbn [map app] in H. injection H as H1 H2 H3 H4 H5 H6 _. repeat (split; [assumption|]). exact H6.
  - injection H as H1 H2 H3 H4 H5 H6 _. repeat (split; [assumption|]). destruct (c_external_ip c); [discriminate|reflexivity].
Qed.
(** A peer says hello twice, acknowledges and pings; between the two the
    application sends a ping of its own. *)
Definition nx_own : message := mk_message (type_of "Ping") [("nonce", VBytes [1;1;1;1;1;1;1;1])].
Definition nx_verack : bytes := nx_frame "VersionAck" [].
Definition nx_chat : list event :=
  [EvAccept nx_a (1000 * SEC) nx_env; EvRead 0 (RData (nx_version (bs "9.9.9.9") ++ nx_ping)) (2000 * SEC) nx_clock; EvSend 0 nx_own;
   EvRead 0 (RData (nx_verack ++ nx_version (bs "8.8.8.8"))) (2001 * SEC) nx_clock].
Definition item_name (x : item) : string * string := match x with Heard m => ("heard", cmd m) | Said m => ("said", cmd m) end.
Example C111_example :
  (forall m, In (EvSend 0 m) nx_chat -> ~ In (cmd m) ["pong"; "verack"; "addr"]) /\
  map item_name (talk 0 (n_trace (nx_hist nx_chat))) =
    [("said", "version"); ("heard", "version"); ("said", "verack"); ("heard", "ping"); ("said", "pong"); ("said", "ping");
     ("heard", "verack"); ("heard", "version"); ("said", "verack")] /\
  filter (is_cmd "pong") (said (talk 0 (n_trace (nx_hist nx_chat)))) = [pong_message [8;7;6;5;4;3;2;1]].
Proof.
  split; [|split; vm_compute; reflexivity]. intros m H. unfold nx_chat in H. cbn [In] in H. repeat (destruct H as [H|H]; [try discriminate H|]); [|destruct H].
  assert (m = nx_own) as -> by congruence. change (cmd nx_own) with "ping". cbn. intuition discriminate.
Qed.
Example C112_example : Forall wf_event nx_chat /\
  option_map (fun c => (c_version c, c_user_agent c, c_external_ip c, c_verack c)) (get_conn 0 (nx_hist nx_chat)) =
    Some (Some (VInt 70001), Some (VBytes (bs "x")), Some (bs "8.8.8.8"), true) /\
  option_map (fun c => (c_version c, c_external_ip c, c_verack c)) (get_conn 0 nx_one) = Some (None, None, false).
Proof.
  split; [|split; vm_compute; reflexivity].
  assert (wf_bytes (nx_version (bs "9.9.9.9") ++ nx_ping)) by (apply all_bytes_wf; vm_compute; reflexivity).
  assert (wf_bytes (nx_verack ++ nx_version (bs "8.8.8.8"))) by (apply all_bytes_wf; vm_compute; reflexivity).
  repeat (apply Forall_cons; [first [exact I|assumption]|]). apply Forall_nil.
Qed.

(** ** Assumptions *)

Print Assumptions C111_dialogue.
Print Assumptions C111_counts.
Print Assumptions C111_kinds.
Print Assumptions C112_details.
