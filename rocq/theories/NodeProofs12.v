(** What one node says to another: every message that a node queues can be read
    back by a node of the same coin, and so can every prefix of the stream. *)
From Coq Require Import String ZArith List Lia Bool.
From Verif Require Import PyBase PyVal FormatModel MessagesModel FormatSpec FormatProofs FormatProofs2 MessagesProofs AlertProofs
  NodeModel NodeProofs NodeProofs2 NodeProofs3 NodeProofs4 NodeProofs5 NodeProofs6 NodeProofs7 NodeProofs8 NodeProofs9 NodeProofs10.
Import ListNotations.
Open Scope string_scope.
Open Scope list_scope.
Open Scope Z_scope.

(** ** Messages that survive the wire *)

Definition speakable (m : message) : Prop :=
  In (m_type m) registry /\ mt_command (m_type m) <> "headers" /\ wt_fields (mt_props (m_type m)) (m_fields m).
(** What the receiver sees of a message. *)
Definition arrived (m : message) : message := mk_message (m_type m) (canon_fields (mt_props (m_type m)) (m_fields m)).

Lemma no_varints t fs : In t registry -> mt_command t <> "headers" -> ok_varints_fields 0xffffffff (mt_props t) fs.
Proof.
  intros Ht Hh. apply no_varint_fields.
  assert (Forall (fun t => mt_command t = "headers" \/ Forall (fun e => has_varint (snd e) = false) (mt_props t)) registry) as G.
  { rewrite registry_all. repeat (constructor; [first [left; reflexivity | right; repeat constructor]|]). constructor. }
  rewrite Forall_forall in G. destruct (G t Ht); [contradiction|assumption].
Qed.
Lemma speakable_new t args kw m : In t registry -> mt_command t <> "headers" -> Forall vgood args -> Forall vgood (map snd kw) ->
  new_message t args kw = Ok m -> speakable m.
Proof.
  intros Ht Hh Ga Gk H. pose proof (new_message_type _ _ _ _ H) as E. unfold new_message in H. bind_inv H.
  pose proof all_types_wf as W. rewrite <- registry_all in W. rewrite Forall_forall in W.
  destruct (W t Ht) as (W1 & W2 & W3).
  destruct (construct_wt _ _ _ _ _ W1 W3 Ga Gk H0) as (fs & -> & Hw & _).
  injection H as <-. cbn [m_type m_fields] in *. split; [exact Ht|]. split; [exact Hh|exact Hw].
Qed.
Section Hash.
Variable sha256 : bytes -> bytes.
Hypothesis sha_len : forall x, 4 <= zlen (sha256 x).
Lemma speakable_parse m magic b : speakable m -> zlen magic = 4 -> msg_binary sha256 m magic = Ok b ->
  forall rest, msg_parse sha256 (b ++ rest) magic = Ok (arrived m).
Proof.
  intros (Ht & Hh & Hw) Hm Hb rest.
  destruct (msg_binary_frame sha256 _ _ _ Ht Hm Hb) as (p & len & Hp & Hl & ->).
  rewrite <- !app_assoc. rewrite (msg_parse_frame sha256 sha_len (m_type m) magic p len rest Ht Hm Hl).
  pose proof all_types_wf as W. rewrite <- registry_all in W. rewrite Forall_forall in W.
  destruct (W _ Ht) as (W1 & W2 & _).
  pose proof (fields_roundtrip _ _ _ W1 W2 Hw Hp) as R.
  apply struct_pack_ok in Hl. cbn in Hl.
  specialize (R ltac:(lia) (no_varints _ _ Ht Hh) []). rewrite app_nil_r in R. rewrite R. reflexivity.
Qed.
End Hash.

(** A network address that could be constructed. *)
Lemma address_wt ts sv ip port v : construct "NetworkAddress" NetworkAddress_props [ts; sv; VStr ip; VInt port] [] = Ok v -> vgood v.
Proof.
  intro H. apply vdeep_vgood.
  assert (exists fs, v = VObj "NetworkAddress" fs /\ wt_fields NetworkAddress_props fs /\ bounds_ok_fields NetworkAddress_props fs) as (fs & -> & W & B).
  { unfold construct in H. cbn [map fst NetworkAddress_props zip existsb app] in H. cbn [negb] in H.
    match type of H with (if ?c then _ else _) = _ => change c with false in H end. cbv iota in H. bind_inv H. injection H as <-. rename x into fs. exists fs. split; [reflexivity|].
    assert (forall ps params fs, validate_props ps params = Ok fs -> Forall (fun e => match assoc (fst e) params with Some x => forall y, validate (snd e) x = Ok (Some y) -> wt (snd e) y /\ bounds_ok (snd e) y | None => True end) ps ->
      wt_fields ps fs /\ bounds_ok_fields ps fs) as X.
    { clear. induction ps as [|(k, t) ps IH]; intros params fs H F; cbn [validate_props] in H; [injection H as <-; now split|].
      destruct (assoc k params) as [x|] eqn:E; [|discriminate]. bind_inv H. destruct x0 as [y|]; [|discriminate]. bind_inv H. injection H as <-.
      apply Forall_cons_iff in F. destruct F as (F1 & F2). cbn [fst snd] in F1. rewrite E in F1. destruct (F1 y H0) as (A & C). destruct (IH _ _ H1 F2) as (A' & C'). cbn. tauto. }
    eapply X; [exact H0|]. clear. repeat apply Forall_cons; try apply Forall_nil; cbn; intros y Hy; (split; [|exact I]).
    - injection Hy as Hy. exact (num_validate_wt FI false true _ _ Hy).
    - injection Hy as Hy. exact (num_validate_wt FQ false false _ _ Hy).
    - assert (y = VStr ip) as ->. { destruct (ipv4_groups ip); [now injection Hy as <-|]. bind_inv Hy. destruct x; [now injection Hy as <-|discriminate]. } exact Hy.
    - injection Hy as Hy. exact (num_validate_wt FH true false (VInt port) _ Hy). }
  cbn. intros ps Hin. assert (In ("NetworkAddress", NetworkAddress_props) format_classes) as K by (cbn; tauto). rewrite (format_classes_fun _ _ _ Hin K). now split.
Qed.
Lemma collected_vgood l : forall acc r, Forall vgood acc -> collect_addresses l acc = Ok r -> Forall vgood r.
Proof.
  induction l as [|((ip & port) & (ts & [sv|])) l IH]; intros acc r A H; cbn [collect_addresses] in H.
  - injection H as <-. exact A.
  - bind_inv H. cbv zeta in H. assert (Forall vgood (acc ++ [x])) as A' by (apply Forall_app; split; [exact A|constructor; [exact (address_wt _ _ _ _ _ H0)|constructor]]).
    destruct (_ >=? _); [injection H as <-; exact A'|exact (IH _ _ A' H)].
  - exact (IH _ _ A H).
Qed.

(** ** Every queued message does *)

Definition real_event (e : event) : Prop := wf_event e /\
  match e with
  | EvLoop _ envs _ => forall k, wf_bytes (ce_nonce (ae_conn (envs k)))
  | EvReadable _ _ _ nonce => wf_bytes nonce
  | EvAccept _ _ e | EvAddPeer _ _ e => wf_bytes (ce_nonce e)
  | EvSend _ m => speakable m
  | _ => True
  end.

Section Speak.
Variable sha256 : bytes -> bytes.
Variable py2 : bool.
Variable cf : config.
Hypothesis Hagent : Forall (fun c => 0 <= c) (cf_user_agent cf).

Definition said_ok (a : action) : Prop := match a with AQueue _ m _ => speakable m | _ => True end.
Definition wfrecv (n : node) : Prop := forall i c, get_conn i n = Some c -> wf_bytes (c_recv c).
Definition Q (n n' : node) : Prop := wfrecv n -> wfrecv n' /\ grows (Forall said_ok) n n'.
Lemma Q_refl n : Q n n. Proof. intro W. split; [exact W|]. apply grows_refl. constructor. Qed.
Lemma Q_trans a b c : Q a b -> Q b c -> Q a c.
Proof. intros H1 H2 W. destruct (H1 W) as (W1 & G1). destruct (H2 W1) as (W2 & G2). split; [exact W2|]. eapply grows_trans; [|exact G1|exact G2]. intros. now apply Forall_app. Qed.
Lemma Q_same n n' : n_conns n' = n_conns n -> n_trace n' = n_trace n -> Q n n'.
Proof. intros E1 E2 W. split; [intros i c; unfold get_conn; rewrite E1; apply W|]. apply grows_same; [constructor|exact E2]. Qed.
Lemma Q_emit a n : said_ok a -> Q n (emit a n).
Proof. intros S W. split; [exact W|]. apply grows_emit. now constructor. Qed.
Lemma Q_upd i f n : (forall c, wf_bytes (c_recv c) -> wf_bytes (c_recv (f c))) -> Q n (upd i f n).
Proof.
  intros H W. split; [|apply grows_same; [constructor|reflexivity]]. intros j c. rewrite get_upd. destruct (Nat.eqb i j); [|apply W].
  destruct (get_conn j n) as [c0|] eqn:E; [|discriminate]. cbn. intro K. injection K as <-. apply H. exact (W _ _ E).
Qed.
Lemma Q_queue n i m b : speakable m -> Q n (queue i m b n).
Proof. intro S. unfold queue. destruct (get_conn i n) as [c|]; [|apply Q_refl]. eapply Q_trans; [apply (Q_upd i (set_c_send (c_send c ++ b))); auto|apply Q_emit; exact S]. Qed.
Lemma Q_shut n i : Q n (shut i n).
Proof.
  unfold shut. destruct (get_conn i n) as [c|]; [|apply Q_refl]. eapply Q_trans; [eapply Q_trans; [apply (Q_upd i (set_c_open false)); auto|apply (Q_emit (AClose i)); exact I]|].
  unfold disconnected. destruct (book_mem _ _); [|apply Q_refl]. apply Q_same; reflexivity.
Qed.
Lemma Q_add n i : Q n (add_banscore i n). Proof. unfold add_banscore. destruct (get_conn i n); [|apply Q_refl]. apply Q_upd. auto. Qed.
Lemma Q_reduce n i : Q n (reduce_banscore i n). Proof. unfold reduce_banscore. destruct (get_conn i n); [|apply Q_refl]. apply Q_upd. auto. Qed.
Lemma Q_ext n : Q n (check_external_ip n). Proof. unfold check_external_ip. destruct (count_votes _ _ _); [apply Q_refl|]. apply Q_same; reflexivity. Qed.
Lemma Q_record n i now : Q n (record_peer i now n). Proof. unfold record_peer. destruct (get_conn i n); [|apply Q_refl]. destruct (_ <? _); [|apply Q_refl]. apply Q_same; reflexivity. Qed.
Lemma Q_register n a inc : Q n (register a inc n).
Proof.
  intro W. split; [|exists [AConnect (List.length (n_conns n)) a inc]; split; [reflexivity|]; constructor; [exact I|constructor]].
  intros j c. rewrite get_register. destruct (Nat.eqb j _); [intro K; injection K as <-; constructor|apply W].
Qed.
Notation pres := (presR Q).
Lemma pQ_ret {A} (a : A) : pres (retM a). Proof. apply presR_ret. exact Q_refl. Qed.
Lemma pQ_raise {A} e : pres (@raiseM A e). Proof. apply presR_raise. exact Q_refl. Qed.
Lemma pQ_bind {A B} (m : M A) (k : A -> M B) : pres m -> (forall a, pres (k a)) -> pres (bindM m k). Proof. apply presR_bind. exact Q_trans. Qed.
Lemma pQ_try {A} (m : M A) h : pres m -> (forall e, pres (h e)) -> pres (tryM m h). Proof. apply presR_try. exact Q_trans. Qed.
Lemma pQ_for {A} (l : list A) f : (forall x, pres (f x)) -> pres (for_each l f). Proof. apply presR_for; [exact Q_refl|exact Q_trans]. Qed.
Lemma pQ_bindlift {A B} (r : res A) (k : A -> M B) : (forall a, r = Ok a -> pres (k a)) -> pres (bindM (liftM r) k).
Proof. intros H n. unfold bindM, liftM. destruct r as [a|e]; [exact (H a eq_refl n)|apply Q_refl]. Qed.
Lemma pQ_send i m : speakable m -> pres (send_message sha256 cf i m).
Proof. intro S. unfold send_message. apply pQ_bindlift. intros b _. apply presR_mod. intro n. now apply Q_queue. Qed.
Lemma pQ_new i name args kw : In (type_of name) registry -> mt_command (type_of name) <> "headers" -> Forall vgood args -> Forall vgood (map snd kw) ->
  pres (do! p := liftM (new_message (type_of name) args kw) in send_message sha256 cf i p).
Proof. intros T H A K. apply pQ_bindlift. intros p E. apply pQ_send. exact (speakable_new _ _ _ _ T H A K E). Qed.

Lemma pQ_got_version i m : pres (got_version i m).
Proof.
  unfold got_version. cbv zeta. do 8 (apply pQ_bindlift; intros ? _). apply pQ_bind; [|intros _; apply presR_mod; exact Q_ext].
  apply presR_mod. intro n. apply Q_upd. auto.
Qed.
Lemma pQ_learn l : pres (learn_addresses l).
Proof.
  induction l as [|v l IH]; cbn [learn_addresses]; [apply pQ_ret|]. apply presR_get. intro n. destruct (_ >? _); [apply Q_refl|].
  match goal with |- Q n (fst (?m n)) => assert (pres m) as K; [|apply K] end.
  do 6 (apply pQ_bindlift; intros ? _). apply pQ_bind; [|intros _; exact IH]. apply presR_mod. intro n'. apply Q_same; reflexivity.
Qed.
(** The nonce of a parsed ping is made of bytes. *)
Definition nonce_ok (m : message) : Prop := mt_name (m_type m) = "ping" -> forall v, field "nonce" (m_fields m) = Ok v -> vgood v.
Lemma parsed_nonce data magic m : wf_bytes data -> msg_parse sha256 data magic = Ok m -> nonce_ok m.
Proof.
  intros W H Hn v Hv. pose proof (parsed_type _ _ _ _ H) as T. apply msg_parse_inv in H. cbv zeta in H. destruct H as (_ & _ & _ & _ & _ & n & F).
  assert (wf_bytes (slice 24 (24 + le_val (slice 16 20 data)) data)) as W' by (unfold slice at 1; now apply wf_take, wf_drop).
  destruct (registry_names _ T) as (N1 & _ & _ & _ & P). rewrite (P (proj1 N1 Hn)) in F.
  destruct (fields_parse_wf sha256 _ _ _ _ _ W' F "nonce" (FBytes 8) eq_refl) as (d & l & x & Wd & Px & E). unfold field in Hv. rewrite E in Hv. injection Hv as <-.
  cbn [parse] in Px. injection Px as <- <-. apply vdeep_vgood. cbn. now apply wf_take.
Qed.
Lemma pQ_command i m now f : nonce_ok m -> command sha256 py2 cf (mt_name (m_type m)) i m now = Some f -> pres f.
Proof.
  intros N. unfold command. cbv zeta.
  destruct (String.eqb_spec (mt_name (m_type m)) "ping") as [Hn|_].
  { intro H; injection H as <-. apply pQ_bindlift. intros nonce En. apply pQ_new; [vm_compute; tauto|vm_compute; discriminate|constructor; [exact (N Hn _ En)|constructor]|constructor]. }
  destruct (String.eqb _ "pong"). { intro H; injection H as <-. apply pQ_ret. }
  destruct (String.eqb _ "version"). { intro H; injection H as <-. apply pQ_new; [vm_compute; tauto|vm_compute; discriminate|constructor|constructor]. }
  destruct (String.eqb _ "version_ack"). { intro H; injection H as <-. apply presR_mod. intro n. apply Q_record. }
  destruct (String.eqb _ "get_address").
  { intro H; injection H as <-. apply presR_get. intro n. match goal with |- Q n (fst (?m n)) => assert (pres m) as K; [|apply K] end. apply pQ_bindlift. intros p E. apply pQ_send.
    unfold get_address_reply in E. destruct (negb py2); [discriminate|]. bind_inv E.
    assert (Forall vgood x) as V by (eapply collected_vgood; [|eassumption]; constructor).
    eapply speakable_new; [| | | |exact E]; [vm_compute; tauto|vm_compute; discriminate| |constructor]. constructor; [|constructor]. apply vdeep_vgood. exact V. }
  destruct (String.eqb _ "address"); [|discriminate].
  intro H; injection H as <-. apply pQ_bindlift. intros v _. destruct v; try apply pQ_raise; apply pQ_learn.
Qed.
Lemma pQ_message i m now : nonce_ok m -> pres (handle_message sha256 py2 cf i m now).
Proof.
  intro N. unfold handle_message. cbv zeta. apply pQ_bind.
  - destruct (String.eqb _ "version"); [apply pQ_got_version|]. destruct (String.eqb _ "verack"); [|apply pQ_ret]. apply presR_mod. intro n. apply Q_upd. auto.
  - intros []. destruct (command _ _ _ _ i m now) as [f|] eqn:E; [exact (pQ_command i m now f N E)|]. apply presR_mod. intro n. apply Q_emit. exact I.
Qed.
Lemma pQ_frame i payload now : wf_bytes payload -> pres (handle_frame sha256 py2 cf i payload now).
Proof.
  intro W. unfold handle_frame. destruct (msg_parse sha256 payload (cf_magic cf)) as [m|e] eqn:E.
  - apply pQ_bind; [apply presR_mod; intro n; apply Q_emit; exact I|]. intros _. apply pQ_try; [apply pQ_message; exact (parsed_nonce _ _ _ W E)|]. intro e. apply presR_mod. intro n. apply Q_emit. destruct (is_invalid e); exact I.
  - apply presR_mod. intro n. apply Q_emit. destruct (is_invalid e); exact I.
Qed.
Lemma pQ_read_loop fuel : forall i clock, pres (read_loop sha256 py2 cf fuel i clock).
Proof.
  induction fuel as [|k IH]; intros i clock; cbn [read_loop]; [apply pQ_ret|]. apply presR_get. intro n.
  destruct (get_conn i n) as [c|] eqn:E; [|apply Q_refl]. destruct (first_msg_len (c_recv c)) as [len|]; [|apply Q_refl]. destruct (_ >? _); [apply Q_refl|]. cbv zeta.
  intro H. pose proof (H i c E) as W. revert H.
  match goal with |- _ -> wfrecv (fst (?m n)) /\ _ => assert (pres m) as K; [|exact (K n)] end.
  apply pQ_bind; [|intros _; apply pQ_bind; [apply pQ_frame; now apply wf_take|intros _; apply IH]].
  apply presR_mod. intro n0. apply Q_upd. intros c0 _. cbn. now apply wf_drop.
Qed.
Lemma pQ_read i r now clock : (match r with RData ch => wf_bytes ch | RError => True end) -> pres (handle_read sha256 py2 cf i r now clock).
Proof.
  intro W. destruct r as [[|x ch]|]; cbn [handle_read]; try (apply presR_close; exact Q_shut); try (apply pQ_bind; [|intros _]; apply presR_close; exact Q_shut).
  apply pQ_bind; [|intros _; apply presR_get; intro n; destruct (get_conn i n); [apply pQ_read_loop|apply Q_refl]].
  apply presR_mod. intro n. unfold received. destruct (get_conn i n) as [c|] eqn:E; [|apply Q_refl]. eapply Q_trans; [|apply Q_emit; exact I].
  match goal with |- Q n (set_n_rx ?x (upd i ?g n)) => apply (Q_trans n (upd i g n)); [|apply Q_same; reflexivity] end.
  apply Q_upd. intros c0 W0. cbn. apply wf_bytes_app. now split.
Qed.
Lemma pQ_readable i now now2 nonce : wf_bytes nonce -> pres (readable sha256 cf i now now2 nonce).
Proof.
  intro W. unfold readable. apply presR_get. intro n. destruct (get_conn i n) as [c|]; [|apply Q_refl]. cbv zeta. match goal with |- Q n (fst (?m n)) => assert (pres m) as K; [|apply K] end.
  apply pQ_bind.
  - destruct (_ && _); [|apply pQ_ret]. apply pQ_bindlift. intros m E. apply pQ_bind.
    + apply pQ_send. eapply speakable_new; [| | | |exact E]; [vm_compute; tauto|vm_compute; discriminate| |constructor]. constructor; [|constructor]. apply vdeep_vgood. exact W.
    + intros _. apply presR_mod. intro n0. unfold pinged. destruct (get_conn i n0); [|apply Q_refl]. eapply Q_trans; [apply (Q_upd i (set_c_last_ping now2)); auto|apply Q_emit; exact I].
  - intros _. destruct (_ && _); [|apply pQ_ret]. apply pQ_bind; [apply presR_close; exact Q_shut|intros _; apply pQ_ret].
Qed.
Lemma pQ_connect a inc e : wf_bytes (ce_nonce e) -> pres (new_connection sha256 cf a inc e).
Proof.
  intro W. unfold new_connection. apply presR_get. intro n. cbv zeta. match goal with |- Q n (fst (?m n)) => assert (pres m) as K; [|apply K] end.
  apply pQ_bind; [apply presR_mod; intro n0; apply Q_register|]. intros _.
  destruct (_ && _).
  - apply pQ_bind; [apply presR_close; exact Q_shut|intros _; apply pQ_raise].
  - apply presR_get. intro n1. match goal with |- Q n1 (fst (?m n1)) => assert (pres m) as K; [|apply K] end.
    apply pQ_bindlift. intros m E. apply pQ_send. unfold version_message in E. bind_inv E. bind_inv E.
    eapply speakable_new; [| | | |exact E]; [vm_compute; tauto|vm_compute; discriminate|constructor|]. cbn [map snd].
    repeat (apply Forall_cons; [first [exact (address_wt _ _ _ _ _ H)|exact (address_wt _ _ _ _ _ H0)|apply vdeep_vgood; first [exact I|exact W|exact Hagent]]|]). constructor.
Qed.
Lemma pQ_add_peer a force e : wf_bytes (ce_nonce e) -> pres (add_peer sha256 cf a force e).
Proof.
  intro W. unfold add_peer. apply presR_get. intro n. destruct (_ && _); [apply Q_refl|]. destruct (address_in_use cf a n); [apply Q_refl|].
  match goal with |- Q n (fst (?m n)) => assert (pres m) as K; [|apply K] end. apply pQ_try; [|intro; apply pQ_ret]. apply pQ_bind; [now apply pQ_connect|intros; apply pQ_ret].
Qed.
Lemma pQ_add_any e : wf_bytes (ce_nonce (ae_conn e)) -> pres (add_any_peer sha256 cf e).
Proof.
  intro W. unfold add_any_peer. apply presR_get. intro n. destruct (_ || _).
  - destruct (cf_bootstrap cf) as [|s l]; [apply Q_refl|]. cbv zeta. match goal with |- Q n (fst (?m n)) => assert (pres m) as K; [|apply K] end.
    apply pQ_bind; [now apply pQ_add_peer|intros; apply pQ_ret].
  - cbv zeta. destruct (find _ (n_book n)) as [(a & v)|]; [|apply Q_refl]. match goal with |- Q n (fst (?m n)) => assert (pres m) as K; [|apply K] end.
    apply pQ_bind; [now apply pQ_add_peer|intros; apply pQ_ret].
Qed.
Lemma pQ_items now envs pick : (forall k, wf_bytes (ce_nonce (ae_conn (envs k)))) -> pres (items sha256 cf now envs pick).
Proof.
  intro W. unfold items. apply presR_get. intro n. destruct (_ >? _); [|apply Q_refl]. match goal with |- Q n (fst (?m n)) => assert (pres m) as K; [|apply K] end.
  apply pQ_bind; [apply presR_mod; intro n0; unfold beat; eapply Q_trans; [apply (Q_same n0 (set_n_last_heartbeat now n0)); reflexivity|apply Q_emit; exact I]|].
  intros _. unfold heartbeat. apply presR_get. intro n1. cbv zeta.
  match goal with |- Q n1 (fst (?m n1)) => assert (pres m) as K; [|apply K] end.
  apply pQ_bind; [apply pQ_for; intro; now apply pQ_add_any|]. intros _. apply presR_get. intro n2. match goal with |- Q n2 (fst (?m n2)) => assert (pres m) as K; [|apply K] end.
  apply pQ_bind.
  - destruct (peers n1); [apply pQ_ret|]. destruct (_ <? _); [|apply pQ_ret]. apply pQ_new; [vm_compute; tauto|vm_compute; discriminate|constructor|constructor].
  - intros _. apply pQ_for. intro. apply presR_mod. intro. apply Q_reduce.
Qed.
Lemma pQ_accept a now e : wf_bytes (ce_nonce e) -> pres (handle_accept sha256 cf a now e).
Proof.
  intro W. unfold handle_accept. apply presR_get. intro n. cbv zeta.
  match goal with |- context [if negb (cf_listen cf) then ?x else ?y] => set (admit := if negb (cf_listen cf) then x else y) end.
  assert (pres admit) as Ha.
  { unfold admit. destruct (negb (cf_listen cf)); [apply presR_mod; intro; apply Q_emit; exact I|]. apply pQ_try; [now apply pQ_connect|]. intro. apply presR_mod. intro. apply Q_same; reflexivity. }
  destruct (ban_lookup (KAddr a) (n_banned n)) as [t|]; [|apply Ha]. destruct (_ <? _); [apply Q_emit; exact I|].
  match goal with |- Q n (fst (?m n)) => assert (pres m) as K; [|apply K] end. apply pQ_bind; [|intros _; exact Ha]. apply presR_mod. intro. apply Q_same; reflexivity.
Qed.
Lemma Q_wrote i k now n : Q n (wrote i k now n).
Proof.
  unfold wrote. destruct (get_conn i n) as [c|] eqn:E; [|apply Q_refl]. cbv zeta. eapply Q_trans; [|apply Q_emit; exact I].
  match goal with |- Q n (set_n_tx ?t (upd i ?g n)) => apply (Q_trans n (upd i g n)); [|apply Q_same; reflexivity] end. apply Q_upd. auto.
Qed.
Lemma Q_step n e : real_event e -> Q n (step sha256 py2 cf n e).
Proof.
  intros (Gw & G). destruct e; cbn [step wf_event] in *; try (destruct (is_open i n); [|apply Q_refl]); unfold run.
  - now apply pQ_items.
  - now apply pQ_readable.
  - apply pQ_read. destruct r; exact Gw.
  - apply (presR_write Q Q_trans Q_shut). intros. apply Q_wrote.
  - apply Q_shut.
  - destruct (n_listener n); [|apply Q_refl]. now apply pQ_accept.
  - now apply pQ_add_peer.
  - apply (presR_remove Q Q_refl Q_shut).
  - apply (presR_punish Q Q_refl Q_trans Q_shut Q_add). intros. unfold ban. eapply Q_trans; [|apply Q_emit; exact I]. apply Q_same; reflexivity.
  - now apply pQ_send.
Qed.
Theorem history_speakable es i m : Forall real_event es -> In m (msgs_of i (n_trace (history sha256 py2 cf es))) -> speakable m.
Proof.
  intros G Hm.
  assert (H : Q (init_node cf) (history sha256 py2 cf es)).
  { clear Hm. unfold history. generalize (init_node cf). induction G as [|e es Ge _ IH]; intro n; cbn [fold_left]; [apply Q_refl|]. eapply Q_trans; [exact (Q_step n e Ge)|apply IH]. }
  destruct H as (_ & l & E & F).
  { intros j c. unfold get_conn. cbn. destruct j; discriminate. }
  rewrite E in Hm. cbn [init_node n_trace app] in Hm. unfold msgs_of in Hm. apply in_flat_map in Hm. destruct Hm as (a & Ha & Hm).
  rewrite Forall_forall in F. specialize (F a Ha). destruct a; try destruct Hm. destruct (Nat.eqb i0 i); [|destruct Hm]. destruct Hm as [<-|[]]. exact F.
Qed.
End Speak.

(** ** Streams *)

(** A prefix of a stream of frames is some of the frames and an incomplete rest. *)
Lemma prefix_framed bs : Forall is_frame bs -> forall p q, concat bs = p ++ q ->
  exists k r, framed p (firstn k bs) r /\ (q = [] -> firstn k bs = bs).
Proof.
  induction 1 as [|b bs Hb F IH]; intros p q E.
  - cbn in E. symmetry in E. apply app_eq_nil in E. destruct E as (-> & ->). exists O, []. split; [|reflexivity]. split; [reflexivity|]. split; [constructor|left; cbn; reflexivity].
  - cbn [concat] in E. destruct (app_eq_app _ _ _ _ E) as (s & [(Eb & Eq)|(Ep & Es)]).
    + destruct s as [|x s].
      * rewrite app_nil_r in Eb. subst b. cbn in Eq. subst q. destruct (IH [] (concat bs) eq_refl) as (k & r & (A & B & C) & D).
        exists (S k), r. cbn [firstn]. split; [|intro N; now rewrite D]. split; [cbn [concat]; now rewrite <- app_assoc, <- A, app_nil_r|]. split; [now constructor|exact C].
      * exists O, p. split; [|intros ->; destruct (concat bs); discriminate Eq]. split; [reflexivity|]. split; [constructor|]. destruct Hb as (L & Fb). subst b.
        destruct (Z.lt_ge_cases (zlen p) 20) as [|G]; [now left|right]. rewrite field_app in Fb by exact G. rewrite zlen_app in Fb. rewrite zlen_cons in Fb. pose proof (zlen_nonneg s). lia.
    + subst p. destruct (IH s q Es) as (k & r & (A & B & C) & D). exists (S k), r. cbn [firstn]. split; [|intro N; now rewrite D].
      split; [cbn [concat]; now rewrite <- app_assoc, <- A|]. split; [now constructor|exact C].
Qed.
Section Wire.
Variable sha256 : bytes -> bytes.
Hypothesis sha_len : forall x, 4 <= zlen (sha256 x).
Lemma binary_is_frame m magic b : In (m_type m) registry -> zlen magic = 4 -> msg_binary sha256 m magic = Ok b -> is_frame b.
Proof.
  intros T Hm H. pose proof (msg_binary_len sha256 sha_len _ _ _ T Hm H []) as L. rewrite app_nil_r in L. apply first_msg_len_some in L. split; [|tauto].
  destruct (msg_binary_frame sha256 _ _ _ T Hm H) as (p & len & _ & Hl & ->). pose proof (zlen_pack _ _ _ _ Hl) as Hll. cbn in Hll.
  pose proof command_padded as C. rewrite Forall_forall in C. destruct (C _ T) as (_ & Hc). rewrite !zlen_app. rewrite Hm, Hc, Hll, (zlen_chk sha256 sha_len). pose proof (zlen_nonneg p). lia.
Qed.
Lemma queued_concat cf i tr : Forall (honest_action sha256 cf) tr -> exists bs, queued_of i tr = concat bs /\ Forall2 (fun m b => msg_binary sha256 m (cf_magic cf) = Ok b) (msgs_of i tr) bs.
Proof.
  induction 1 as [|a tr Ha F (bs & E & IH)]; [exists []; split; [reflexivity|constructor]|].
  change (a :: tr) with ([a] ++ tr). rewrite queued_app, msgs_app, E. destruct a; try (exists bs; split; [reflexivity|exact IH]).
  cbn [queued_of msgs_of flat_map]. destruct (Nat.eqb i0 i); [|exists bs; split; [reflexivity|exact IH]].
  cbn [honest_action] in Ha. exists (b :: bs). split; [cbn [concat flat_map]; now rewrite app_nil_r|]. cbn [app flat_map]. constructor; [exact Ha|exact IH].
Qed.
Lemma Forall2_firstn' {A B} (P : A -> B -> Prop) l1 l2 : Forall2 P l1 l2 -> forall k, Forall2 P (firstn k l1) (firstn k l2).
Proof. induction 1; intros [|k]; cbn; constructor; auto. Qed.
(** All that arrives of what one node sends is understood by the other. *)
Lemma understood cfA cfB pyB esB i j trA : cf_magic cfA = cf_magic cfB -> zlen (cf_magic cfA) = 4 ->
  Forall (honest_action sha256 cfA) trA -> Forall speakable (msgs_of i trA) -> Forall wf_event esB ->
  let trB := n_trace (history sha256 pyB cfB esB) in
  forall rest, queued_of i trA = recv_of j trB ++ rest ->
  exists k, frames_of j trB = map (fun m => AMsg j (arrived m)) (firstn k (msgs_of i trA)) /\ (rest = [] -> firstn k (msgs_of i trA) = msgs_of i trA).
Proof.
  intros Em Lm HA SA WB trB rest E. destruct (queued_concat cfA i trA HA) as (bs & Eb & F2). rewrite Eb in E.
  assert (Fb : Forall is_frame bs).
  { clear E Eb. revert SA. induction F2 as [|m b l bs H _ IH]; intro SA; [constructor|]. apply Forall_cons_iff in SA. destruct SA as ((T & _) & SA). constructor; [exact (binary_is_frame _ _ _ T Lm H)|exact (IH SA)]. }
  destruct (prefix_framed bs Fb _ _ E) as (k & r & Fr & All).
  assert (exists fs r', framed (recv_of j trB) fs r' /\ frames_of j trB = map (outcome sha256 cfB j) fs) as (fs & r' & Fr' & Hf).
  { destruct (get_conn j (history sha256 pyB cfB esB)) as [c|] eqn:G.
    - destruct (handled_by_received sha256 cfB j _ c (good_history sha256 pyB cfB esB WB) G) as (fs & H1 & H2). exists fs, (c_recv c). now split.
    - pose proof (stream_inv_history sha256 pyB cfB esB WB) as (I1 & _). specialize (I1 j). rewrite G in I1. destruct I1 as (R & _ & _ & F). exists [], []. fold trB in R, F. rewrite R, F. split; [|reflexivity]. split; [reflexivity|]. split; [constructor|left; reflexivity]. }
  destruct (framed_unique _ _ _ _ _ Fr Fr') as (<- & _). exists k. split.
  - rewrite Hf. clear - F2 SA Em Lm sha_len. pose proof (Forall2_firstn' _ _ _ F2 k) as G.
    assert (Forall speakable (firstn k (msgs_of i trA))) as S. { rewrite <- (firstn_skipn k (msgs_of i trA)) in SA. apply Forall_app in SA. tauto. }
    revert S. induction G as [|m b l bs0 H _ IH]; intro S; [reflexivity|]. apply Forall_cons_iff in S. destruct S as (S1 & S). cbn [map]. rewrite (IH S). f_equal.
    unfold outcome. rewrite <- Em. pose proof (speakable_parse sha256 sha_len m _ b S1 Lm H []) as P. rewrite app_nil_r in P. now rewrite P.
  - intro N. specialize (All N). assert (List.length (firstn k (msgs_of i trA)) = List.length (msgs_of i trA)) as L.
    { rewrite (Forall2_length _ _ _ F2). rewrite (Forall2_length _ _ _ (Forall2_firstn' _ _ _ F2 k)). now rewrite All. }
    apply firstn_all2. rewrite firstn_length in L. lia.
Qed.
End Wire.
