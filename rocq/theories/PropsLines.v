(** C151: what the log of a node shows (nbc/node/basenode.py:118-125, 144-145,
    nbc/node/connection.py:138-154, 170-177, 203-211). *)
From Coq Require Import String ZArith List Lia Bool.
From Verif Require Import PyBase PyVal FormatModel MessagesModel NodeModel NodeProofs NodeProofs2 NodeProofs3 LogModel LineModel PropsNode.
Import ListNotations.
Open Scope string_scope.
Open Scope list_scope.
Open Scope Z_scope.

(** Effects that write no line. *)
Definition mute (a : action) : Prop := forall log limit ip, action_lines log limit ip a = [].
Definition mutely (n n' : node) : Prop := exists acts, n_trace n' = n_trace n ++ acts /\ Forall mute acts.
Lemma mutely_refl n : mutely n n. Proof. exists []. now rewrite app_nil_r. Qed.
Lemma mutely_trans a b c : mutely a b -> mutely b c -> mutely a c.
Proof. intros (x & E & F) (y & E' & F'). exists (x ++ y). rewrite E', E, app_assoc. split; [reflexivity|]. apply Forall_app. now split. Qed.
Lemma mutely_same n n' : n_trace n' = n_trace n -> mutely n n'.
Proof. intro E. exists []. now rewrite E, app_nil_r. Qed.
Lemma mutely_one n n' a : n_trace n' = n_trace n ++ [a] -> mute a -> mutely n n'.
Proof. intros E H. exists [a]. split; [exact E|]. now constructor. Qed.
Ltac quiet := intros; first [apply mutely_refl | eapply mutely_trans; eassumption | (apply mutely_same; reflexivity) | (eapply mutely_one; [reflexivity|intros ? ? ?; reflexivity])].
Lemma q_add n i : mutely n (add_banscore i n). Proof. unfold add_banscore. destruct (get_conn i n); quiet. Qed.
Lemma q_reduce n i : mutely n (reduce_banscore i n). Proof. unfold reduce_banscore. destruct (get_conn i n); quiet. Qed.
Lemma q_ext n : mutely n (check_external_ip n).
Proof. apply mutely_same. unfold check_external_ip. repeat match goal with |- context [match ?x with _ => _ end] => destruct x end; reflexivity. Qed.
Lemma q_record n i now : mutely n (record_peer i now n).
Proof. apply mutely_same. unfold record_peer. destruct (get_conn i n); [|reflexivity]. now destruct (zlen (n_book n) <? MAX_ADDRESSES). Qed.
Lemma q_shut n i : mutely n (shut i n).
Proof. unfold shut. destruct (get_conn i n) as [c|]; [|quiet]. eapply mutely_one with (a := AClose i); [|intros ? ? ?; reflexivity]. unfold disconnected. repeat match goal with |- context [if ?x then _ else _] => destruct x end; reflexivity. Qed.
Lemma q_ping n i now now2 : mutely n (pinged i now now2 n). Proof. unfold pinged. destruct (get_conn i n); quiet. Qed.
Lemma q_wrote n i k now : mutely n (wrote i k now n). Proof. unfold wrote. destruct (get_conn i n); quiet. Qed.
Lemma q_queue n i m b : mutely n (queue i m b n). Proof. unfold queue. repeat match goal with |- context [match ?x with _ => _ end] => destruct x end; quiet. Qed.

Ltac qt := intros; first [apply q_ext | apply q_record | apply q_shut | apply q_queue | apply q_add | apply q_reduce | apply q_ping | apply q_wrote | quiet | now left].

(** ** One frame *)

(** The names of the messages that a BaseNode handles. *)
Definition handled_names : list string := ["ping"; "pong"; "version"; "version_ack"; "get_address"; "address"].
Definition at_level (log : bool) (limit level : Z) (l : line) : list line := if log then (if limit <=? level then [l] else []) else [].
Lemma at_level_spec log limit level l : log_line log limit level l = at_level log limit level l.
Proof. unfold log_line, at_level. destruct log; [|reflexivity]. cbn [negb orb]. destruct (Z.ltb_spec level limit), (Z.leb_spec limit level); try reflexivity; lia. Qed.
Lemma mute_lines log limit ip acts : Forall mute acts -> flat_map (action_lines log limit ip) acts = [].
Proof. induction 1 as [|a l H _ IH]; [reflexivity|]. cbn [flat_map]. now rewrite H, IH. Qed.
Section Frames.
Variable sha256 : bytes -> bytes.
Variable py2 : bool.
Variable cf : config.
Lemma command_names name i m now : command sha256 py2 cf name i m now = None <-> ~ In name handled_names.
Proof.
  unfold command, handled_names. cbn [In]. repeat match goal with |- context [String.eqb ?a ?b] => destruct (String.eqb_spec a b); [split; [discriminate|intro H; exfalso; apply H; subst; tauto]|] end.
  split; [intros _ H; intuition congruence|reflexivity].
Qed.
Lemma handle_lines i m now n : exists acts, n_trace (fst (handle_message sha256 py2 cf i m now n)) = n_trace n ++ acts /\
  forall log limit ip, flat_map (action_lines log limit ip) acts =
    match snd (handle_message sha256 py2 cf i m now n) with
    | Ok _ => if existsb (String.eqb (mt_name (m_type m))) handled_names then [] else if log then [mk_line (Some (ip i)) (Undefined (mt_name (m_type m)))] else []
    | Raise _ => []
    end.
Proof.
  unfold handle_message. cbv zeta. set (pre := if String.eqb (mt_command (m_type m)) "version" then _ else _).
  assert (presR mutely pre) as Hp.
  { unfold pre. destruct (String.eqb _ "version"); [apply presR_got_version; qt|]. destruct (String.eqb _ "verack"); [|intro; apply mutely_refl]. intro k. cbn. quiet. }
  specialize (Hp n). unfold bindM. destruct (pre n) as (n1 & [[]|e]); cbn [fst] in Hp; destruct Hp as (a1 & E1 & M1).
  2:{ cbn [fst snd]. exists a1. split; [exact E1|]. intros. now apply mute_lines. }
  destruct (command sha256 py2 cf (mt_name (m_type m)) i m now) as [f|] eqn:C.
  - assert (existsb (String.eqb (mt_name (m_type m))) handled_names = true) as ->.
    { apply existsb_exists. exists (mt_name (m_type m)). split; [|apply String.eqb_refl]. destruct (in_dec String.string_dec (mt_name (m_type m)) handled_names) as [H|H]; [exact H|]. apply (command_names _ i m now) in H. congruence. }
    assert (presR mutely f) as Hf by (eapply presR_command; [| | | | |exact C]; qt).
    specialize (Hf n1). destruct (f n1) as (n2 & r). cbn [fst snd] in *. destruct Hf as (a2 & E2 & M2). exists (a1 ++ a2). split; [now rewrite E2, E1, app_assoc|].
    intros. rewrite flat_map_app, !mute_lines by assumption. now destruct r.
  - unfold modM, no_handler. cbn [fst snd]. exists (a1 ++ [ANoHandler i (mt_name (m_type m))]). split; [cbn [emit set_n_trace n_trace]; now rewrite E1, app_assoc|].
    intros log limit ip. rewrite flat_map_app, mute_lines by assumption. cbn [flat_map app action_lines]. rewrite app_nil_r, at_level_spec. unfold at_level. rewrite Z.leb_refl.
    assert (existsb (String.eqb (mt_name (m_type m))) handled_names = false) as ->; [|reflexivity].
    apply (command_names _ i m now) in C. destruct (existsb _ _) eqn:X; [|reflexivity]. apply existsb_exists in X. destruct X as (x & Hx & E). apply String.eqb_eq in E. subst x. contradiction.
Qed.
(** What the log shows of one frame: one line if it cannot be parsed, if its
    handling fails or if its message has no method, and none otherwise. *)
Theorem C151_frame i payload now n : exists acts, n_trace (fst (handle_frame sha256 py2 cf i payload now n)) = n_trace n ++ acts /\
  forall log limit ip, flat_map (action_lines log limit ip) acts =
    let failed e := if is_invalid e then at_level log limit 2 (mk_line None (Malformed payload e)) else at_level log limit 3 (mk_line (Some (ip i)) (Traceback e)) in
    match msg_parse sha256 payload (cf_magic cf) with
    | Raise e => failed e
    | Ok m => match snd (handle_message sha256 py2 cf i m now (emit (AMsg i m) n)) with
              | Raise e => failed e
              | Ok _ => if existsb (String.eqb (mt_name (m_type m))) handled_names then []
                        else if log then [mk_line (Some (ip i)) (Undefined (mt_name (m_type m)))] else []
              end
    end.
Proof.
  unfold handle_frame. cbv zeta. destruct (msg_parse sha256 payload (cf_magic cf)) as [m|e].
  - unfold bindM, modM. cbv beta iota. unfold tryM. destruct (handle_lines i m now (emit (AMsg i m) n)) as (acts & E & H).
    destruct (handle_message sha256 py2 cf i m now (emit (AMsg i m) n)) as (n' & [r|e]); cbn [fst snd] in *.
    + exists (AMsg i m :: acts). split; [rewrite E; cbn [emit set_n_trace n_trace]; now rewrite <- app_assoc|]. intros log limit ip. cbn [flat_map action_lines app]. apply H.
    + exists (AMsg i m :: acts ++ [if is_invalid e then AHandlerInvalid i payload e else AHandlerError i e]).
      split; [cbn [emit set_n_trace n_trace] in *; rewrite E, <- !app_assoc; reflexivity|]. intros log limit ip. cbn [flat_map action_lines app]. rewrite flat_map_app, H. cbn [app flat_map]. rewrite app_nil_r.
      destruct (is_invalid e); cbn [action_lines]; apply at_level_spec.
  - unfold modM. cbn [fst]. exists [if is_invalid e then AInvalid i payload e else AParseError i payload e]. split; [reflexivity|]. intros log limit ip. cbn [flat_map]. rewrite app_nil_r.
    destruct (is_invalid e); cbn [action_lines]; apply at_level_spec.
Qed.
(** Everything but reading writes nothing. *)
Theorem C151_quiet e n : (forall i r now clock, e <> EvRead i r now clock) -> (forall i now now2 nonce, e = EvReadable i now now2 nonce -> now <= now2) ->
  exists acts, n_trace (step sha256 py2 cf n e) = n_trace n ++ acts /\ forall log limit ip, flat_map (action_lines log limit ip) acts = [].
Proof.
  intros Nr Ck. assert (mutely n (step sha256 py2 cf n e)) as (acts & E & M); [|exists acts; split; [exact E|intros; now apply mute_lines]].
  destruct e; cbn [step]; unfold run.
  - apply presR_items; try solve [qt].
  - destruct (is_open i n); [|apply mutely_refl]. apply presR_readable; try solve [qt]. exact (Ck _ _ _ _ eq_refl).
  - exfalso. exact (Nr _ _ _ _ eq_refl).
  - destruct (is_open i n); [|apply mutely_refl]. apply presR_write; try solve [qt].
  - destruct (is_open i n); [|apply mutely_refl]. apply q_shut.
  - destruct (n_listener n); [|apply mutely_refl]. unfold handle_accept, bindM at 1, getM at 1. cbv beta iota zeta.
    assert (presR mutely (if negb (cf_listen cf) then modM (refuse a) else tryM (new_connection sha256 cf a true e) (fun _ => modM (set_n_listener false)))) as A.
    { destruct (negb (cf_listen cf)); [intro k; cbn; unfold refuse; quiet|]. apply presR_try; [qt| |intros _ k; cbn; quiet]. intro k. apply new_connection_prims; try solve [qt]. }
    destruct (ban_lookup (KAddr a) (n_banned n)) as [t|]; [|apply A]. destruct (now - t <? 3600 * SEC); [cbn; unfold refuse; quiet|].
    unfold bindM, modM. cbv beta iota. eapply mutely_trans; [|apply A]. quiet.
  - apply presR_add_peer; try solve [qt].
  - apply presR_remove; qt.
  - apply presR_punish; try solve [qt].
  - apply presR_send; qt.
Qed.
End Frames.

(** ** The levels *)

(** Whether a line is still written at a limit: those about malformed messages
    have level INFO (2), tracebacks ERROR (3); those about messages without
    method are written at every limit. *)
Definition shown (limit : Z) (l : line) : bool :=
  match ln_text l with Malformed _ _ | Refused => limit <=? 2 | Traceback _ | OSTraceback _ => limit <=? 3 | Undefined _ => true end.
Lemma filter_flat {A B} (f : B -> bool) (g h : A -> list B) l : (forall a, h a = filter f (g a)) -> flat_map h l = filter f (flat_map g l).
Proof. intro H. induction l as [|a l IH]; [reflexivity|]. cbn [flat_map]. now rewrite filter_app, H, IH. Qed.
(** Raising the limit takes lines away and adds none: what is left are the lines
    shown at the new limit, in the same order. *)
Theorem C151_levels log limit limit' n : limit <= limit' -> log_of log limit' n = filter (shown limit') (log_of log limit n).
Proof.
  intro H. unfold log_of. apply filter_flat. intro a.
  destruct a; cbn [action_lines]; try reflexivity; rewrite !at_level_spec; unfold at_level; destruct log; try reflexivity;
    unfold LOG_LEVEL_INFO, LOG_LEVEL_ERROR; repeat match goal with |- context [?x <=? ?y] => destruct (Z.leb_spec x y) end; cbn [filter shown ln_text]; unfold shown; cbn [ln_text];
    repeat match goal with |- context [?x <=? ?y] => destruct (Z.leb_spec x y) end; try reflexivity; try lia.
Qed.
(** At the level of a new node, ERROR, nothing is written about malformed
    messages; without a log, nothing at all. *)
Theorem C151_default log n p e l : In l (log_of log LOG_LEVEL_ERROR n) -> ln_text l <> Malformed p e.
Proof.
  rewrite (C151_levels log 3 LOG_LEVEL_ERROR n) by (unfold LOG_LEVEL_ERROR; lia). intros H E. apply filter_In in H. destruct H as (_ & H). unfold shown in H. rewrite E in H. discriminate H.
Qed.
Theorem C151_none limit n : log_of false limit n = [].
Proof. unfold log_of. induction (n_trace n) as [|a l IH]; [reflexivity|]. cbn [flat_map]. rewrite IH. now destruct a. Qed.
(** A peer can write to the log at every level, FATAL and above included. *)
Definition nx_pool : bytes := nx_frame "MemoryPool" [].
Definition nx_asks : list event := [EvAccept nx_a (1000 * SEC) nx_env; EvRead 0 (RData (nx_pool ++ nx_bad ++ nx_ping)) 0 nx_clock].
Notation nx_asked := (history nx_sha false nx_cf nx_asks).
Lemma low_limits log limit n : limit <= 2 -> log_of log limit n = log_of log 2 n.
Proof.
  intro L. unfold log_of. apply flat_map_ext. intro a. destruct a; cbn [action_lines]; try reflexivity; rewrite !at_level_spec; unfold at_level, LOG_LEVEL_INFO, LOG_LEVEL_ERROR;
    repeat match goal with |- context [?x <=? ?y] => destruct (Z.leb_spec x y) end; try reflexivity; lia.
Qed.
Lemma all_limits log limit n x : log_of log 2 n = x -> log_of log limit n = filter (shown limit) x \/ (limit <= 2 /\ log_of log limit n = x).
Proof. intros <-. destruct (Z.le_gt_cases limit 2) as [L|L]; [right; split; [exact L|now apply low_limits]|left; apply C151_levels; lia]. Qed.
Lemma asked_two : log_of true 2 nx_asked = [mk_line (Some (bs "10.0.0.1")) (Undefined "memory_pool"); mk_line None (Malformed nx_bad MsgFormatError)].
Proof. vm_compute. reflexivity. Qed.
Lemma asked_lines limit : log_of true limit nx_asked =
  mk_line (Some (bs "10.0.0.1")) (Undefined "memory_pool") :: (if limit <=? 2 then [mk_line None (Malformed nx_bad MsgFormatError)] else []).
Proof.
  generalize (all_limits true limit nx_asked _ asked_two). generalize (log_of true limit nx_asked). generalize nx_bad. intros bad lines [E|(L & E)]; rewrite E; unfold shown; cbn [filter ln_text]; destruct (Z.leb_spec limit 2); try reflexivity; lia.
Qed.
Theorem C151_levels_refuted : ~ (forall sha256 py2 cf es limit, LOG_LEVEL_FATAL < limit -> log_of true limit (history sha256 py2 cf es) = []).
Proof.
  intro H. pose proof (asked_lines 5) as E. rewrite (H nx_sha false nx_cf nx_asks 5 eq_refl) in E. discriminate E.
Qed.
(** Three frames, two lines: the ping is handled. *)
Example C151_applies : log_of true LOG_LEVEL_INFO nx_asked = [mk_line (Some (bs "10.0.0.1")) (Undefined "memory_pool"); mk_line None (Malformed nx_bad MsgFormatError)] /\
  log_of true LOG_LEVEL_ERROR nx_asked = [mk_line (Some (bs "10.0.0.1")) (Undefined "memory_pool")].
Proof. split; [exact (asked_lines 2)|exact (asked_lines 3)]. Qed.

(** ** Connections that could not be made *)

(** On Python 2 every failed dialling is reported as refused, at INFO. *)
Theorem C151_refused_partial log limit ip errno : error_lines true log limit ip errno = at_level log limit 2 (mk_line (Some ip) Refused).
Proof. unfold error_lines. cbn [orb]. apply at_level_spec. Qed.
(** On Python 3 a refused one (ECONNREFUSED, 111) writes a traceback that the
    level of a new node shows; one to an unreachable host (113) is reported as
    refused. *)
Theorem C151_refused_refuted ip : error_lines false true LOG_LEVEL_ERROR ip 111 = [mk_line (Some ip) (OSTraceback 111)] /\
  error_lines false true LOG_LEVEL_INFO ip 113 = [mk_line (Some ip) Refused].
Proof. split; reflexivity. Qed.

(** ** Assumptions *)

Print Assumptions C151_frame.
Print Assumptions C151_quiet.
Print Assumptions C151_levels.
Print Assumptions C151_default.
Print Assumptions C151_none.
Print Assumptions C151_levels_refuted.
Print Assumptions C151_refused_partial.
Print Assumptions C151_refused_refuted.
