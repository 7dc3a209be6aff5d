(** Properties C13-C26: connections and the node. *)
From Coq Require Import String ZArith List Lia Bool.
From Verif Require Import PyBase PyVal FormatModel MessagesModel FormatSpec FormatProofs MessagesProofs
  NodeModel NodeProofs NodeProofs2 NodeProofs3 NodeProofs4 NodeProofs5 NodeProofs6 NodeProofs7 NodeProofs8.
Import ListNotations.
Open Scope string_scope.
Open Scope list_scope.
Open Scope Z_scope.

(** ** Example world *)
Definition nx_sha (x : bytes) : bytes := ztake 32 ([fold_left (fun a b => (a * 31 + b) mod 256) x 7; zlen x mod 256; 1; 2] ++ repeat 0 28).
Definition nx_magic : bytes := [0xf9; 0xbe; 0xb4; 0xd9].
Definition nx_cf : config := mk_config nx_magic 70001 (bs "/x/") (bs "127.0.0.1", 8333) true 3 8 [] 0.
Definition nx_env : conn_env := mk_conn_env true (1000 * SEC) [1;2;3;4;5;6;7;8].
Definition nx_clock (k : nat) : Z := 2000 * SEC.
Definition nx_a : addr := (bs "10.0.0.1", 4000).
Definition nx_b : addr := (bs "10.0.0.2", 4000).
Definition nx_hist := history nx_sha false nx_cf.
Definition nx_frame (t : string) (args : list pyval) : bytes :=
  match (let! m := new_message (type_of t) args [] in msg_binary nx_sha m nx_magic) with Ok b => b | Raise _ => [] end.
Definition nx_ping : bytes := nx_frame "Ping" [VBytes [8;7;6;5;4;3;2;1]].
Definition nx_one : node := nx_hist [EvAccept nx_a (1000 * SEC) nx_env].

(** ** C13: chunking *)

(** On a connection of any reachable node, two ways of cutting one stream into
    (non-empty) reads have the same outcomes - messages handled and errors, in
    order - and leave the same unread bytes, whatever the clock says. *)
Theorem C13_chunking : forall sha256 py2 cf es i reads1 reads2,
  Forall wf_event es -> is_open i (history sha256 py2 cf es) = true ->
  good_chunks reads1 -> good_chunks reads2 -> concat (chunks reads1) = concat (chunks reads2) ->
  let n1 := feed sha256 py2 cf i reads1 (history sha256 py2 cf es) in
  let n2 := feed sha256 py2 cf i reads2 (history sha256 py2 cf es) in
  frames_of i (n_trace n1) = frames_of i (n_trace n2) /\
  option_map c_recv (get_conn i n1) = option_map c_recv (get_conn i n2).
Proof.
  intros sha py2 cf es i r1 r2 W O G1 G2 E n1 n2. pose proof (good_history sha py2 cf es W) as G.
  destruct (feed_spec sha py2 cf i r1 _ G1 G O) as (A1 & B1 & C1). destruct (feed_spec sha py2 cf i r2 _ G2 G O) as (A2 & B2 & C2).
  fold n1 in A1, B1, C1. fold n2 in A2, B2, C2.
  apply is_open_get in B1. apply is_open_get in B2. destruct B1 as (c1 & K1 & _), B2 as (c2 & K2 & _).
  destruct (handled_by_received sha cf i n1 c1 A1 K1) as (f1 & F1 & M1). destruct (handled_by_received sha cf i n2 c2 A2 K2) as (f2 & F2 & M2).
  rewrite C1, E, <- C2 in F1. destruct (framed_unique _ _ _ _ _ F1 F2) as (-> & Er). rewrite M1, M2, K1, K2. cbn. now rewrite Er.
Qed.
(** Even across unrelated histories: what a connection has handled depends only
    on the bytes it has received. *)
Theorem C13_function_of_stream : forall sha256 py2 cf es1 es2 i c1 c2,
  Forall wf_event es1 -> Forall wf_event es2 ->
  get_conn i (history sha256 py2 cf es1) = Some c1 -> get_conn i (history sha256 py2 cf es2) = Some c2 ->
  recv_of i (n_trace (history sha256 py2 cf es1)) = recv_of i (n_trace (history sha256 py2 cf es2)) ->
  frames_of i (n_trace (history sha256 py2 cf es1)) = frames_of i (n_trace (history sha256 py2 cf es2)) /\ c_recv c1 = c_recv c2.
Proof.
  intros sha py2 cf es1 es2 i c1 c2 W1 W2 G1 G2 E.
  destruct (handled_by_received sha cf i _ c1 (good_history sha py2 cf es1 W1) G1) as (f1 & F1 & M1).
  destruct (handled_by_received sha cf i _ c2 (good_history sha py2 cf es2 W2) G2) as (f2 & F2 & M2).
  rewrite E in F1. destruct (framed_unique _ _ _ _ _ F1 F2) as (-> & Er). now rewrite M1, M2.
Qed.
Example C13_nonvacuous :
  is_open 0 nx_one = true /\
  let r1 := [(nx_ping ++ [1; 2], 0, nx_clock)] in
  let r2 := [(firstn 5 nx_ping, 0, nx_clock); (skipn 5 nx_ping ++ [1], 1, nx_clock); ([2], 2, nx_clock)] in
  good_chunks r1 /\ good_chunks r2 /\ concat (chunks r1) = concat (chunks r2) /\
  List.length (frames_of 0 (n_trace (feed nx_sha false nx_cf 0 r2 nx_one))) = 1%nat.
Proof.
  split; [vm_compute; reflexivity|]. cbv zeta.
  assert (forall b, forallb (fun x => (0 <=? x) && (x <? 256)) b = true -> wf_bytes b) as W.
  { intros b H. apply Forall_forall. intros x Hx. rewrite forallb_forall in H. specialize (H x Hx). unfold is_byte. lia. }
  split; [repeat (constructor; [split; [vm_compute; discriminate|apply W; vm_compute; reflexivity]|]); constructor|].
  split; [repeat (constructor; [split; [vm_compute; discriminate|apply W; vm_compute; reflexivity]|]); constructor|].
  split; [vm_compute; reflexivity|vm_compute; reflexivity].
Qed.

(** ** C14: bad frames *)

(** A stream of well-delimited frames (valid or not) delivered to a connection
    with an empty buffer: every frame is processed once, in order, and its
    outcome depends on nothing but the frame itself. *)
Theorem C14_frames_in_order : forall sha256 py2 cf es i c reads fs,
  Forall wf_event es -> get_conn i (history sha256 py2 cf es) = Some c -> c_open c = true -> c_recv c = [] ->
  good_chunks reads -> Forall is_frame fs -> concat (chunks reads) = concat fs ->
  let n' := feed sha256 py2 cf i reads (history sha256 py2 cf es) in
  frames_of i (n_trace n') = frames_of i (n_trace (history sha256 py2 cf es)) ++ map (outcome sha256 cf i) fs /\
  option_map c_recv (get_conn i n') = Some [].
Proof.
  intros sha py2 cf es i c reads fs W G O R Gc F E n'. pose proof (good_history sha py2 cf es W) as Gh.
  assert (is_open i (history sha py2 cf es) = true) as Op by (apply is_open_get; eauto).
  destruct (feed_spec sha py2 cf i reads _ Gc Gh Op) as (A1 & B1 & C1). fold n' in A1, B1, C1.
  apply is_open_get in B1. destruct B1 as (c1 & K1 & _).
  destruct (handled_by_received sha cf i _ c Gh G) as (f0 & F0 & M0). destruct (handled_by_received sha cf i n' c1 A1 K1) as (f1 & F1 & M1).
  destruct F0 as (E0 & F0 & _). rewrite R, app_nil_r in E0. rewrite C1, E, E0 in F1.
  assert (framed (concat f0 ++ concat fs) (f0 ++ fs) []) as F2.
  { split; [now rewrite concat_app, app_nil_r|]. split; [apply Forall_app; split; assumption|]. left. cbn. lia. }
  destruct (framed_unique _ _ _ _ _ F1 F2) as (-> & Er). rewrite M1, M0, K1, map_app. cbn. now rewrite Er.
Qed.
(** The outcome of a frame: the message it encodes, or an error report. *)
Theorem C14_outcome : forall sha256 cf i f,
  (forall m, msg_parse sha256 f (cf_magic cf) = Ok m -> outcome sha256 cf i f = AMsg i m) /\
  (forall e, msg_parse sha256 f (cf_magic cf) = Raise e -> outcome sha256 cf i f = AInvalid i f e \/ outcome sha256 cf i f = AParseError i f e).
Proof.
  intros. unfold outcome. split; intros ? ->; [reflexivity|]. destruct (is_invalid e); auto.
Qed.
(** Serialised messages are frames; by C01 their outcome is the message. *)
Theorem C14_serialised_is_frame : forall sha256, (forall x, 4 <= zlen (sha256 x)) ->
  forall m magic b, In (m_type m) registry -> zlen magic = 4 -> msg_binary sha256 m magic = Ok b -> is_frame b.
Proof.
  intros sha Hs m magic b Hm Hg H. pose proof (msg_binary_len sha Hs m magic b Hm Hg H []) as L. rewrite app_nil_r in L.
  apply first_msg_len_some in L. destruct L as (L1 & L2). split; [|exact L2].
  destruct (msg_binary_frame sha m magic b Hm Hg H) as (payload & len & _ & Hl & E). rewrite E.
  pose proof command_padded as C. rewrite Forall_forall in C. destruct (C _ Hm) as (_ & Hc).
  pose proof (zlen_pack _ _ _ _ Hl) as Hll. cbn in Hll. rewrite !zlen_app, Hg, Hc, Hll, (zlen_chk sha Hs). pose proof (zlen_nonneg payload). lia.
Qed.
(** A frame with a wrong magic between two pings: both pings are answered. *)
Definition nx_bad : bytes := 0 :: skipn 1 nx_ping.
Example C14_nonvacuous :
  is_frame nx_ping /\ is_frame nx_bad /\
  outcome nx_sha nx_cf 0 nx_bad = AInvalid 0 nx_bad MsgFormatError /\
  (exists m, outcome nx_sha nx_cf 0 nx_ping = AMsg 0 m) /\
  List.length (sends_of (n_trace (feed nx_sha false nx_cf 0 [(nx_ping ++ nx_bad ++ nx_ping, 0, nx_clock)] nx_one))) = 3%nat.
Proof.
  split; [split; [vm_compute; discriminate|vm_compute; reflexivity]|]. split; [split; [vm_compute; discriminate|vm_compute; reflexivity]|].
  split; [vm_compute; reflexivity|]. split; [eexists; vm_compute; reflexivity|vm_compute; reflexivity].
Qed.

(** ** C15: outgoing stream *)

(** At every point of every history, the bytes handed to the socket of a
    connection followed by its send buffer are the serialised messages queued
    on it, in order. *)
Theorem C15_outgoing_fifo : forall sha256 py2 cf es i c,
  Forall wf_event es -> get_conn i (history sha256 py2 cf es) = Some c ->
  queued_of i (n_trace (history sha256 py2 cf es)) = wire_of i (n_trace (history sha256 py2 cf es)) ++ c_send c.
Proof.
  intros sha py2 cf es i c W G. pose proof (stream_inv_history sha py2 cf es W) as (I1 & _). specialize (I1 i). rewrite G in I1.
  destruct I1 as (_ & _ & H & _). exact H.
Qed.
Theorem C15_queued_are_messages : forall sha256 py2 cf es i m b,
  Forall wf_event es -> In (AQueue i m b) (n_trace (history sha256 py2 cf es)) -> msg_binary sha256 m (cf_magic cf) = Ok b.
Proof.
  intros sha py2 cf es i m b W H. pose proof (queue_ok_history sha py2 cf es W) as Q. unfold queue_ok in Q. rewrite Forall_forall in Q.
  exact (Q _ H).
Qed.
(** [EvSend] (the API call send_message) queues exactly the message. *)
Theorem C15_send : forall sha256 py2 cf n i m b c, get_conn i n = Some c -> msg_binary sha256 m (cf_magic cf) = Ok b ->
  let n' := step sha256 py2 cf n (EvSend i m) in
  queued_of i (n_trace n') = queued_of i (n_trace n) ++ b /\ wire_of i (n_trace n') = wire_of i (n_trace n) /\
  forall j, j <> i -> queued_of j (n_trace n') = queued_of j (n_trace n).
Proof.
  intros sha py2 cf n i m b c G E. cbn [step]. unfold run, send_message, bindM, liftM, modM. rewrite E. cbn [fst]. unfold queue. rewrite G.
  unfold emit. cbn [n_trace set_n_trace upd set_n_conns]. split; [|split].
  - rewrite queued_app. cbn. now rewrite Nat.eqb_refl, app_nil_r.
  - rewrite wire_app. cbn. apply app_nil_r.
  - intros j Nj. rewrite queued_app. cbn. destruct (Nat.eqb_spec i j); [congruence|]. apply app_nil_r.
Qed.
Example C15_nonvacuous : exists n c, n = nx_hist [EvAccept nx_a (1000 * SEC) nx_env; EvRead 0 (RData nx_ping) 0 nx_clock; EvWrite 0 (STaken 100) 5] /\
  get_conn 0 n = Some c /\ zlen (wire_of 0 (n_trace n)) = 100 /\ zlen (c_send c) = 45 /\ zlen (queued_of 0 (n_trace n)) = 145.
Proof. do 2 eexists. split; [reflexivity|]. split; [vm_compute; reflexivity|]. split; [vm_compute; reflexivity|]. split; [vm_compute; reflexivity|vm_compute; reflexivity]. Qed.

(** ** C16: counters *)
Theorem C16_counters : forall sha256 py2 cf es, Forall wf_event es ->
  let n := history sha256 py2 cf es in
  (forall i c, get_conn i n = Some c -> c_rx c = zlen (recv_of i (n_trace n)) /\ c_tx c = zlen (wire_of i (n_trace n))) /\
  n_rx n = sum_conns c_rx n /\ n_tx n = sum_conns c_tx n /\
  n_rx n = total_recv (n_trace n) /\ n_tx n = total_wire (n_trace n).
Proof.
  intros sha py2 cf es W n. pose proof (stream_inv_history sha py2 cf es W) as (I1 & I2 & I3). pose proof (counters_history sha py2 cf es W) as (C1 & C2).
  split; [|auto]. intros i c G. specialize (I1 i). unfold n in G. rewrite G in I1. destruct I1 as (_ & _ & _ & A & B). auto.
Qed.
Example C16_nonvacuous : let n := nx_hist [EvAccept nx_a 0 nx_env; EvAccept nx_b 0 nx_env; EvRead 0 (RData nx_ping) 0 nx_clock; EvRead 1 (RData [1;2;3]) 0 nx_clock; EvError 0; EvWrite 1 (STaken 7) 5] in
  n_rx n = 35 /\ n_tx n = 7.
Proof. cbv zeta. split; [vm_compute; reflexivity|vm_compute; reflexivity]. Qed.

(** ** C17: receive buffer *)
Theorem C17_buffer_bound : forall sha256 py2 cf es i c, Forall wf_event es ->
  get_conn i (history sha256 py2 cf es) = Some c -> zlen (c_recv c) <= 2 ^ 32 + 22.
Proof.
  intros sha py2 cf es i c W G. pose proof (drained_history sha py2 cf es W i c G) as D.
  pose proof (wf_buffer sha cf _ i c (stream_inv_history sha py2 cf es W) G) as Wb.
  assert (le_val (firstn 4 (skipn 16 (c_recv c))) < 2 ^ 32) as L.
  { pose proof (le_val_bound _ (wf_field _ Wb)) as L. assert (0 <= zlen (firstn 4 (skipn 16 (c_recv c))) <= 4) by (unfold zlen; rewrite firstn_length; lia).
    assert (256 ^ zlen (firstn 4 (skipn 16 (c_recv c))) <= 256 ^ 4) by (apply Z.pow_le_mono_r; lia). change (256 ^ 4) with (2 ^ 32) in *. lia. }
  destruct D; lia.
Qed.
(** The bound is tight: a peer that announces a payload of 2^32-1 bytes can make
    the buffer as long as it likes up to the bound, with no message delivered. *)
Definition nx_giant (k : nat) : bytes := nx_magic ++ repeat 0 12 ++ [255; 255; 255; 255] ++ repeat 0 k.
Theorem C17_buffer_bound_tight : forall k, 20 + Z.of_nat k <= 2 ^ 32 + 22 ->
  let es := [EvAccept nx_a (1000 * SEC) nx_env; EvRead 0 (RData (nx_giant k)) 0 nx_clock] in
  Forall wf_event es /\ frames_of 0 (n_trace (nx_hist es)) = [] /\
  exists c, get_conn 0 (nx_hist es) = Some c /\ zlen (c_recv c) = 20 + Z.of_nat k.
Proof.
  intros k Hk es.
  assert (wf_bytes (nx_giant k)) as Wg.
  { unfold nx_giant. repeat (apply wf_bytes_app; split); try (repeat constructor; unfold is_byte; lia).
    apply Forall_forall. intros x Hx. apply repeat_spec in Hx. subst. unfold is_byte. lia. }
  assert (Forall wf_event es) as W by (constructor; [exact I|constructor; [exact Wg|constructor]]).
  assert (zlen (nx_giant k) = 20 + Z.of_nat k) as Lg by (unfold nx_giant, zlen; rewrite !app_length, !repeat_length; cbn [List.length nx_magic]; lia).
  split; [exact W|].
  assert (good nx_sha nx_cf nx_one) as G1 by (apply (good_history nx_sha false nx_cf [EvAccept nx_a (1000 * SEC) nx_env]); repeat constructor).
  assert (is_open 0 nx_one = true) as O1 by (vm_compute; reflexivity).
  destruct (feed_spec nx_sha false nx_cf 0 [(nx_giant k, 0, nx_clock)] nx_one) as (G2 & O2 & R2); [|exact G1|exact O1|].
  { unfold good_chunks. cbn. constructor; [|constructor]. split; [discriminate|exact Wg]. }
  assert (feed nx_sha false nx_cf 0 [(nx_giant k, 0, nx_clock)] nx_one = nx_hist es) as E.
  { unfold feed, nx_one, nx_hist, history, es. cbn [fold_left]. reflexivity. }
  rewrite E in G2, O2, R2. clear E.
  apply is_open_get in O2. destruct O2 as (c & K & _).
  destruct (handled_by_received _ _ 0 _ c G2 K) as (fs & F & M).
  assert (recv_of 0 (n_trace (nx_hist es)) = nx_giant k) as R.
  { rewrite R2. replace (recv_of 0 (n_trace nx_one)) with (@nil Z) by (vm_compute; reflexivity). cbn [chunks map concat fst app]. apply app_nil_r. }
  rewrite R in F.
  assert (framed (nx_giant k) [] (nx_giant k)) as F'.
  { split; [reflexivity|split; [constructor|]]. right. replace (firstn 4 (skipn 16 (nx_giant k))) with [255;255;255;255] by reflexivity. rewrite Lg.
    change (le_val [255;255;255;255]) with (2 ^ 32 - 1). lia. }
  destruct (framed_unique _ _ _ _ _ F F') as (Ef & Er). rewrite M, Ef. split; [reflexivity|]. exists c. rewrite Er. auto.
Qed.
Example C17_nonvacuous : 20 + Z.of_nat 1000 <= 2 ^ 32 + 22. Proof. lia. Qed.

(** ** C18: idle timers *)

(** Pings queued by the timer are more than 300 s apart; at each poll of an open
    connection a ping is queued exactly when nothing has been sent for 1800 s
    (and something has been sent before) and the last ping is more than 300 s
    old; the connection is closed exactly when it has received something and
    nothing for 10800 s. *)
Theorem C18_ping_spacing : forall sha256 py2 cf es i, Forall wf_event es ->
  spaced (300 * SEC) (ping_times i (n_trace (history sha256 py2 cf es))).
Proof.
  intros sha py2 cf es i W. pose proof (ping_inv_history sha py2 cf es W i) as H. destruct (get_conn i _) eqn:G; [apply H|].
  rewrite H. exact I.
Qed.
Theorem C18_poll : forall sha256 py2 cf n i now now2 nonce c, get_conn i n = Some c -> c_open c = true -> zlen nonce = 8 ->
  let n' := step sha256 py2 cf n (EvReadable i now now2 nonce) in
  let due := c_last_tx c <> 0 /\ now - c_last_tx c > 1800 * SEC /\ now - c_last_ping c > 300 * SEC in
  let stale := c_last_rx c <> 0 /\ now - c_last_rx c > 10800 * SEC in
  (due -> sends_of (n_trace n') = sends_of (n_trace n) ++ [(i, ping_message nonce)]) /\
  (~ due -> sends_of (n_trace n') = sends_of (n_trace n)) /\
  (stale <-> is_open i n' = false).
Proof.
  intros sha py2 cf n i now now2 nonce c G O L n' due stale. destruct (readable_effects sha py2 cf i now now2 nonce n c G O L) as (A & B).
  fold n' in A, B. unfold ping_due, close_due in A, B. split; [|split].
  - intros (D1 & D2 & D3). rewrite A. replace (c_last_tx c =? 0) with false by (symmetry; apply Z.eqb_neq; exact D1).
    replace (_ >? 1800 * SEC) with true by (symmetry; apply Z.gtb_lt; lia). replace (_ >? 300 * SEC) with true by (symmetry; apply Z.gtb_lt; lia). reflexivity.
  - intro D. rewrite A. destruct (_ && _) eqn:E; [|apply app_nil_r]. exfalso. apply D. apply andb_true_iff in E. destruct E as (E & E3).
    apply andb_true_iff in E. destruct E as (E1 & E2). apply negb_true_iff, Z.eqb_neq in E1. apply Z.gtb_lt in E2. apply Z.gtb_lt in E3. unfold due. lia.
  - rewrite B. rewrite negb_false_iff, andb_true_iff, negb_true_iff, Z.eqb_neq, Z.gtb_lt. unfold stale. split; intros (X & Y); split; try assumption; lia.
Qed.
(** "A connection that has received nothing for 3 hours is closed" is false: if
    nothing was ever received, no poll at any time closes it. *)
Theorem C18_close_refuted : exists c, get_conn 0 nx_one = Some c /\ c_rx c = 0 /\
  forall now now2 nonce, zlen nonce = 8 -> is_open 0 (step nx_sha false nx_cf nx_one (EvReadable 0 now now2 nonce)) = true.
Proof.
  eexists. split; [vm_compute; reflexivity|]. split; [reflexivity|]. intros now now2 nonce L.
  assert (exists c, get_conn 0 nx_one = Some c /\ c_open c = true /\ c_last_rx c = 0) as (c & G & O & Z0).
  { eexists. split; [vm_compute; reflexivity|]. split; reflexivity. }
  destruct (readable_effects nx_sha false nx_cf 0 now now2 nonce nx_one c G O L) as (_ & B). rewrite B. unfold close_due. rewrite Z0. reflexivity.
Qed.
Example C18_nonvacuous : let n := nx_hist [EvAccept nx_a (1000 * SEC) nx_env; EvWrite 0 (STaken 10) (1000 * SEC);
     EvReadable 0 (2801 * SEC) (2801 * SEC) (repeat 1 8); EvReadable 0 (2900 * SEC) (2900 * SEC) (repeat 1 8); EvReadable 0 (3102 * SEC) (3102 * SEC) (repeat 1 8)] in
  ping_times 0 (n_trace n) = [2801 * SEC; 3102 * SEC] /\
  is_open 0 (step nx_sha false nx_cf (step nx_sha false nx_cf n (EvRead 0 (RData [1]) (4000 * SEC) nx_clock)) (EvReadable 0 (14801 * SEC) 0 (repeat 1 8))) = false.
Proof. cbv zeta. split; [vm_compute; reflexivity|vm_compute; reflexivity]. Qed.

(** ** C19: misbehaviour score *)
Lemma get_shut i m d : get_conn i m = Some d -> get_conn i (shut i m) = Some (set_c_open false d).
Proof.
  intro Gm. unfold shut. rewrite Gm. assert (get_conn i (upd i (set_c_open false) m) = Some (set_c_open false d)) as H by now rewrite get_upd, Nat.eqb_refl, Gm.
  unfold disconnected. match goal with |- context [if ?b then _ else _] => destruct b end; exact H.
Qed.
Theorem C19_score_range : forall sha256 py2 cf es i c, Forall wf_event es ->
  get_conn i (history sha256 py2 cf es) = Some c -> 0 <= c_banscore c /\ (c_open c = true -> c_banscore c <= 5).
Proof.
  intros sha py2 cf es i c W G. split; [exact (score_inv_history sha py2 cf es W i c G)|]. intro O. exact (proj2 (low_history sha py2 cf es W i c G O)).
Qed.
(** One punishment: the score grows by one; if it exceeds 5 the peer's ip is
    banned now and the peer disconnected, otherwise nothing else changes. *)
Theorem C19_punish : forall sha256 py2 cf n i now c, get_conn i n = Some c ->
  let n' := step sha256 py2 cf n (EvPunish i now) in
  (exists c', get_conn i n' = Some c' /\ c_banscore c' = c_banscore c + 1) /\
  (c_banscore c + 1 > 5 -> bans_of (n_trace n') = bans_of (n_trace n) ++ [(fst (c_address c), now)] /\
     ban_lookup (KIp (fst (c_address c))) (n_banned n') = Some now /\ is_open i n' = false) /\
  (c_banscore c + 1 <= 5 -> n' = upd i (set_c_banscore (c_banscore c + 1)) n).
Proof.
  intros sha py2 cf n i now c G n'. unfold n'. rewrite (punish_spec sha py2 cf i now n c G). destruct (Z.gtb_spec (c_banscore c + 1) 5) as [H|H].
  - split; [|split; [|lia]].
    + set (m := ban _ _ _). assert (get_conn i m = Some (set_c_banscore (c_banscore c + 1) c)) as Gm.
      { unfold m, ban, emit. change (get_conn i (upd i (set_c_banscore (c_banscore c + 1)) n) = Some (set_c_banscore (c_banscore c + 1) c)). rewrite get_upd, Nat.eqb_refl, G. reflexivity. }
      assert (exists c', get_conn i (shut i m) = Some c' /\ c_banscore c' = c_banscore c + 1) as X; [|exact X].
      exists (set_c_open false (set_c_banscore (c_banscore c + 1) c)). split; [now apply get_shut|reflexivity].
    + intros _. split; [|split; [|apply shut_closes]].
      * assert (forall m, bans_of (n_trace (shut i m)) = bans_of (n_trace m)) as S.
        { intro m. unfold shut. destruct (get_conn i m); [|reflexivity]. unfold disconnected. match goal with |- context [if ?b then _ else _] => destruct b end;
          unfold emit; cbn [n_trace set_n_trace set_n_book upd set_n_conns]; unfold bans_of; rewrite flat_map_app; cbn; apply app_nil_r. }
        rewrite S. unfold ban, emit. cbn [n_trace set_n_trace set_n_banned upd set_n_conns]. unfold bans_of. now rewrite flat_map_app.
      * assert (forall m, n_banned (shut i m) = n_banned m) as S.
        { intro m. unfold shut. destruct (get_conn i m); [|reflexivity]. unfold disconnected. match goal with |- context [if ?b then _ else _] => destruct b end; reflexivity. }
        rewrite S. unfold ban, emit. cbn [n_banned set_n_trace set_n_banned ban_lookup ban_key_eqb]. now rewrite bytes_eqb_refl.
  - split; [|split; [lia|reflexivity]]. exists (set_c_banscore (c_banscore c + 1) c). split; [|reflexivity]. now rewrite get_upd, Nat.eqb_refl, G.
Qed.
(** A loop iteration lowers the score of every connected peer by at most one,
    never below zero, and bans nobody; all other events leave scores and bans
    alone.  New connections start with score 0. *)
Theorem C19_heartbeat : forall sha256 py2 cf es now envs pick, Forall wf_event es ->
  let n := history sha256 py2 cf es in let n' := step sha256 py2 cf n (EvLoop now envs pick) in
  (forall i c, get_conn i n = Some c -> exists c', get_conn i n' = Some c' /\
     c_banscore c' = (if (now - n_last_heartbeat n >? 10 * SEC) && c_open c then Z.max 0 (c_banscore c - 1) else c_banscore c)) /\
  bans_of (n_trace n') = bans_of (n_trace n).
Proof.
  intros sha py2 cf es now envs pick W n n'. destruct (items_scores sha py2 cf now envs pick n (score_inv_history sha py2 cf es W)) as (A & _ & B & _).
  split; [|exact B]. intros i c G. destruct (A i c G) as (c' & G' & S & _). eauto.
Qed.
Theorem C19_other_events : forall sha256 py2 cf n e, wf_event e ->
  match e with EvLoop _ _ _ | EvPunish _ _ => False | _ => True end ->
  let n' := step sha256 py2 cf n e in
  (forall i c, get_conn i n = Some c -> exists c', get_conn i n' = Some c' /\ c_banscore c' = c_banscore c) /\
  (forall i c, get_conn i n = None -> get_conn i n' = Some c -> c_banscore c = 0) /\
  bans_of (n_trace n') = bans_of (n_trace n).
Proof.
  intros sha py2 cf n e W S n'. destruct (keep_step sha py2 cf n e W S) as (A & B & C & _). split; [|split; [exact B|exact C]].
  intros i c G. destruct (A i c G) as (c' & G' & X & _). eauto.
Qed.
Definition nx_punished : list event := EvAccept nx_a (1000 * SEC) nx_env :: repeat (EvPunish 0 (1001 * SEC)) 5.
Example C19_nonvacuous :
  is_open 0 (nx_hist nx_punished) = true /\ option_map c_banscore (get_conn 0 (nx_hist nx_punished)) = Some 5 /\
  is_open 0 (nx_hist (nx_punished ++ [EvPunish 0 (1002 * SEC)])) = false /\
  bans_of (n_trace (nx_hist (nx_punished ++ [EvPunish 0 (1002 * SEC)]))) = [(fst nx_a, 1002 * SEC)].
Proof. split; [vm_compute; reflexivity|split; [vm_compute; reflexivity|split; [vm_compute; reflexivity|vm_compute; reflexivity]]]. Qed.

(** ** C20: reconnection of banned peers *)

(** The intended property. *)
Definition bans_hold (sha256 : bytes -> bytes) (py2 : bool) (cf : config) : Prop := forall es a now e t,
  Forall wf_event es -> In (fst a, t) (bans_of (n_trace (history sha256 py2 cf es))) -> t <= now -> now - t < 3600 * SEC ->
  List.length (n_conns (step sha256 py2 cf (history sha256 py2 cf es) (EvAccept a now e))) = List.length (n_conns (history sha256 py2 cf es)).
Theorem C20_banned_refused_refuted : ~ bans_hold nx_sha false nx_cf.
Proof.
  intro H. specialize (H (nx_punished ++ [EvPunish 0 (1002 * SEC)]) nx_a (1003 * SEC) nx_env (1002 * SEC)).
  assert (Forall wf_event (nx_punished ++ [EvPunish 0 (1002 * SEC)])) as W by (repeat constructor). specialize (H W).
  assert (2%nat = 1%nat); [|discriminate]. apply H; [vm_compute; left; reflexivity|vm_compute; discriminate|vm_compute; reflexivity].
Qed.
(** In fact no history ever makes the ban list refuse anybody: a listening node
    registers every incoming connection (bans are stored under the ip, looked
    up under the pair of ip and port). *)
Theorem C20_never_refused_refuted : forall sha256 py2 cf es a now e, Forall wf_event es ->
  cf_listen cf = true -> n_listener (history sha256 py2 cf es) = true ->
  exists c, get_conn (List.length (n_conns (history sha256 py2 cf es))) (step sha256 py2 cf (history sha256 py2 cf es) (EvAccept a now e)) = Some c /\
    c_address c = a /\ c_open c = true.
Proof.
  intros sha py2 cf es a now e W Li Ls. set (n := history sha py2 cf es) in *. cbn [step]. rewrite Ls. unfold run, handle_accept.
  unfold bindM at 1. cbn [getM fst]. pose proof (no_addr_ban _ a (ip_keys_history sha py2 cf es W)) as NB. fold n in NB. rewrite NB. rewrite Li. cbn [negb].
  assert (get_conn (List.length (n_conns n)) (register a true n) = Some (fresh_conn a true)) as G.
  { unfold register, get_conn, emit. cbn [n_conns set_n_conns set_n_trace]. rewrite nth_error_app2, Nat.sub_diag by lia. reflexivity. }
  unfold tryM, new_connection. unfold bindM at 1. cbn [getM fst]. unfold bindM at 1, modM at 1. cbn [negb andb]. unfold bindM at 1. cbn [getM].
  unfold bindM at 1, liftM. destruct (version_message _ _ _ _ _) as [m|x] eqn:V.
  - unfold send_message, bindM, liftM. destruct (msg_binary _ _ _) as [b|x] eqn:B; unfold modM; cbn [fst].
    + unfold queue. rewrite G. exists (set_c_send ([] ++ b) (fresh_conn a true)). unfold emit. split; [|split; reflexivity].
      change (get_conn (List.length (n_conns n)) (upd (List.length (n_conns n)) (set_c_send ([] ++ b)) (register a true n)) = Some (set_c_send ([] ++ b) (fresh_conn a true))).
      now rewrite get_upd, Nat.eqb_refl, G.
    + exists (fresh_conn a true). split; [exact G|split; reflexivity].
  - unfold modM. cbn [fst]. exists (fresh_conn a true). split; [exact G|split; reflexivity].
Qed.
(** What remains true: within the hour the ban is remembered (the entry of the
    ip is never removed) - C19_punish, C19_other_events. *)

(** ** C21: address book *)
Theorem C21_book_bound_partial : forall sha256 py2 cf es, Forall wf_event es ->
  zlen (n_book (history sha256 py2 cf es)) <= 2501 /\ NoDup (map fst (n_book (history sha256 py2 cf es))).
Proof. intros sha py2 cf es W. exact (book_ok_history sha py2 cf es W). Qed.
(** 2500 is exceeded by one: addr messages with 2501 addresses suffice. *)
Definition nx_entry (k : Z) : pyval :=
  match construct "NetworkAddress" NetworkAddress_props [VInt 1; VInt 1; VStr ((49 + k mod 9) :: bs ".0.0.1"); VInt k] [] with Ok v => v | Raise _ => VNone end.
Definition nx_addrs (from : Z) (k : nat) : bytes := nx_frame "Address" [VList (map (fun i => nx_entry (from + Z.of_nat i)) (seq 0 k))].
Definition nx_full : list event :=
  EvAccept nx_a (1000 * SEC) nx_env ::
  map (fun k => EvRead 0 (RData (nx_addrs (1 + 41 * Z.of_nat k) 41)) 0 nx_clock) (seq 0 61).
Fixpoint all_bytes (b : bytes) : bool := match b with [] => true | x :: r => (0 <=? x) && (x <? 256) && all_bytes r end.
Lemma all_bytes_wf b : all_bytes b = true -> wf_bytes b.
Proof.
  induction b as [|x b IH]; cbn; [intro; constructor|]. rewrite !andb_true_iff, Z.leb_le, Z.ltb_lt. intros ((? & ?) & ?). constructor; [unfold is_byte; lia|now apply IH].
Qed.
Lemma nx_addrs_wf : forallb (fun k => all_bytes (nx_addrs (1 + 41 * Z.of_nat k) 41)) (seq 0 61) = true.
Proof. vm_compute. reflexivity. Qed.
Lemma nx_full_wf : Forall wf_event nx_full.
Proof.
  constructor; [exact I|]. apply Forall_forall. intros e He. apply in_map_iff in He. destruct He as (k & <- & Hk).
  pose proof nx_addrs_wf as F. rewrite forallb_forall in F. exact (all_bytes_wf _ (F k Hk)).
Qed.
Lemma nx_full_size : zlen (n_book (nx_hist nx_full)) = 2501. Proof. vm_compute. reflexivity. Qed.
Theorem C21_book_bound_refuted : Forall wf_event nx_full /\ zlen (n_book (nx_hist nx_full)) = 2501.
Proof. exact (conj nx_full_wf nx_full_size). Qed.

(** ** C22: getaddr *)

(** Python 2: the reply consists of the newest entries with known services (all
    of them if there are at most 1000), newest first, each as a NetworkAddress. *)
Theorem C22_reply_partial : forall n m, get_address_reply true n = Ok m ->
  exists es objs, newest (n_book n) es /\ Forall2 (fun e o => entry_obj e = Ok o) es objs /\
    zlen objs <= 1000 /\ m_fields m = [("addr_list", VTuple objs)] /\ mt_command (m_type m) = "addr".
Proof.
  intros n m H. destruct (reply_spec n m H) as (es & objs & A & B & ->). exists es, objs. split; [exact A|split; [exact B|]].
  split; [|split; reflexivity]. destruct A as (A & _). apply Forall2_length in B. unfold zlen in *. lia.
Qed.
Theorem C22_reply_exists_partial : forall n,
  Forall (fun e => known e = true -> exists o, entry_obj e = Ok o) (n_book n) -> exists m, get_address_reply true n = Ok m.
Proof. exact reply_total. Qed.
(** Python 3: whatever the node knows, getaddr is never answered. *)
Theorem C22_python3_refuted : forall sha256 cf n i now m, mt_name (m_type m) = "get_address" -> mt_command (m_type m) = "getaddr" ->
  snd (handle_message sha256 false cf i m now n) = Raise TypeError /\
  sends_of (n_trace (fst (handle_message sha256 false cf i m now n))) = sends_of (n_trace n).
Proof. intros sha cf n i now m E1 E2. unfold handle_message. rewrite E1, E2. split; reflexivity. Qed.
(** Python 2: one peer added by host name and acknowledged blocks every reply. *)
Definition nx_host : addr := (bs "example.org", 8333).
Definition nx_hosted : node := set_n_book [(nx_host, (py_time 0, Some (VInt 1)))] nx_one.
Theorem C22_hostname_refuted : get_address_reply true nx_hosted = Raise ParameterError.
Proof. vm_compute. reflexivity. Qed.
Definition nx_small : list event := [EvAccept nx_a (1000 * SEC) nx_env; EvRead 0 (RData (nx_addrs 1 5)) 0 nx_clock].
Example C22_nonvacuous : exists m, get_address_reply true (history nx_sha true nx_cf nx_small) = Ok m /\
  zlen (n_book (history nx_sha true nx_cf nx_small)) = 5.
Proof. eexists. split; [vm_compute; reflexivity|vm_compute; reflexivity]. Qed.

(** ** C23: external ip *)

(** [votes n a] peers of [n] report the address [a]. *)
Theorem C23_plurality : forall sha256 py2 cf n i c m now, get_conn i n = Some c -> c_open c = true ->
  (exists data, msg_parse sha256 data (cf_magic cf) = Ok m) -> mt_command (m_type m) = "version" ->
  let n' := fst (handle_message sha256 py2 cf i m now n) in
  0 < votes n' (n_guessed_ip n') /\
  (forall a, votes n' a <= votes n' (n_guessed_ip n')) /\
  (forall a, votes n' a = votes n' (n_guessed_ip n') -> text_leb a (n_guessed_ip n') = true) /\
  (forall a, zlen (peers n') < 2 * votes n' a -> n_guessed_ip n' = a).
Proof.
  intros sha py2 cf n i c m now G O (data & P) E n'. destruct (parsed_version sha data (cf_magic cf) m P E) as (HV & EN).
  pose proof (version_votes sha py2 cf i m now n c G O E EN HV) as V. fold n' in V. destruct V as (V1 & V2).
  split; [exact V1|split; [intro a; apply V2|split; [intro a; apply V2|]]].
  intros a Ha. exact (majority_wins n' a _ (conj V1 V2) Ha).
Qed.
(** Three peers; two of them agree. *)
Definition nx_version (ip : text) : bytes :=
  match (let! r := network_address 0 (ip, 8333) in
         let! f := network_address 0 (bs "1.1.1.1", 8333) in
         let! m := new_message (type_of "Version") [] [("version", VInt 70001); ("services", VInt 1); ("timestamp", VInt 5); ("addr_recv", r); ("addr_from", f);
            ("nonce", VBytes (repeat 0 8)); ("user_agent", VStr (bs "x")); ("start_height", VInt 1); ("relay", VBool false)] in
         msg_binary nx_sha m nx_magic) with Ok b => b | Raise _ => [] end.
Definition nx_votes : list event :=
  [EvAccept nx_a 0 nx_env; EvAccept nx_b 0 nx_env; EvAccept nx_a 0 nx_env; EvRead 0 (RData (nx_version (bs "9.9.9.9"))) 0 nx_clock;
   EvRead 1 (RData (nx_version (bs "8.8.8.8"))) 0 nx_clock; EvRead 2 (RData (nx_version (bs "8.8.8.8"))) 0 nx_clock].
Example C23_nonvacuous : n_guessed_ip (nx_hist nx_votes) = bs "8.8.8.8" /\ votes (nx_hist nx_votes) (bs "8.8.8.8") = 2 /\
  votes (nx_hist nx_votes) (bs "9.9.9.9") = 1 /\
  (exists m, msg_parse nx_sha (nx_version (bs "8.8.8.8")) nx_magic = Ok m /\ mt_command (m_type m) = "version").
Proof.
  split; [vm_compute; reflexivity|split; [vm_compute; reflexivity|split; [vm_compute; reflexivity|]]]. eexists. split; [vm_compute; reflexivity|reflexivity].
Qed.

(** ** C24: connection budget *)
Theorem C24_heartbeat_budget : forall sha256 py2 cf n now envs pick,
  let n' := step sha256 py2 cf n (EvLoop now envs pick) in
  zlen (connects_of (n_trace n')) <= zlen (connects_of (n_trace n)) + 5 /\
  zlen (peers n') <= Z.max (zlen (peers n)) (cf_seek_peers cf).
Proof.
  intros sha py2 cf n now envs pick n'. unfold n'. rewrite items_step. destruct (_ >? _); [|lia].
  destruct (heartbeat_within sha cf envs pick (beat now n)) as (A & B & _).
  assert (peers (beat now n) = peers n) as Ep by reflexivity. rewrite Ep in A, B.
  assert (connects_of (n_trace (beat now n)) = connects_of (n_trace n)) as Ec.
  { unfold beat, emit. cbn [n_trace set_n_trace set_n_last_heartbeat]. rewrite connects_app. cbn. apply app_nil_r. }
  rewrite Ec in A. lia.
Qed.
Theorem C24_add_peer_budget : forall sha256 py2 cf n a force e,
  let n' := step sha256 py2 cf n (EvAddPeer a force e) in
  zlen (connects_of (n_trace n')) <= zlen (connects_of (n_trace n)) + 1 /\
  (force = false -> map_len n' <= Z.max (map_len n) (cf_max_peers cf)).
Proof.
  intros sha py2 cf n a force e n'. unfold n'. cbn [step]. unfold run. destruct (add_peer_within sha cf a force e n) as ((A & B & C) & D).
  split; [exact A|]. intro F. destruct (Z_le_gt_dec (cf_max_peers cf) (map_len n)) as [H|H]; [rewrite D by assumption; lia|].
  unfold map_len in *. rewrite C. lia.
Qed.
(** An address is never dialled while a connection to it is open. *)
Theorem C24_no_duplicate_dial : forall sha256 py2 cf es i j ci cj, Forall wf_event es -> (i < j)%nat ->
  get_conn i (history sha256 py2 cf es) = Some ci -> get_conn j (history sha256 py2 cf es) = Some cj ->
  c_open ci = true -> c_open cj = true -> c_incoming cj = false -> c_address ci <> c_address cj.
Proof. intros sha py2 cf es i j ci cj W. exact (distinct_history sha py2 cf es W i j ci cj). Qed.
(** "No address is connected twice" fails for incoming connections: they are not
    compared with the open ones (nor counted against max_peers). *)
Theorem C24_no_duplicate_refuted : exists c0 c1, let n := nx_hist [EvAddPeer nx_a false nx_env; EvAccept nx_a 0 nx_env] in
  get_conn 0 n = Some c0 /\ get_conn 1 n = Some c1 /\ c_open c0 = true /\ c_open c1 = true /\ c_address c0 = c_address c1.
Proof. do 2 eexists. cbv zeta. split; [vm_compute; reflexivity|]. split; [vm_compute; reflexivity|]. split; [reflexivity|split; reflexivity]. Qed.
Definition nx_seed_cf : config := mk_config nx_magic 70001 (bs "/x/") (bs "127.0.0.1", 8333) true 3 8 [nx_a; nx_b; (bs "10.0.0.3", 1); (bs "10.0.0.4", 1)] 0.
Example C24_nonvacuous : let n := history nx_sha false nx_seed_cf [EvLoop (100 * SEC) (fun k => mk_attempt 0 k nx_env) 0] in zlen (peers n) = 3.
Proof. vm_compute. reflexivity. Qed.

(** ** C25: heartbeat rate *)
Theorem C25_heartbeat_rate : forall sha256 py2 cf es, Forall wf_event es ->
  spaced (10 * SEC) (beats_of (n_trace (history sha256 py2 cf es))).
Proof. intros sha py2 cf es W. exact (proj1 (beat_inv_history sha py2 cf es W)). Qed.
Example C25_nonvacuous : let e t := EvLoop (t * SEC) (fun k => mk_attempt 0 k nx_env) 0 in
  beats_of (n_trace (nx_hist [e 100; e 105; e 110; e 111; e 130])) = [100 * SEC; 111 * SEC; 130 * SEC].
Proof. vm_compute. reflexivity. Qed.

(** ** C26: replies *)

(** A received message of 8-byte nonce ping is answered by exactly one pong with
    that nonce on the same connection (for a connection whose buffer is empty;
    C13 reduces every other chunking to this case). *)
Theorem C26_ping : forall sha256 py2 cf n i c b now clock m nonce, get_conn i n = Some c -> c_open c = true -> c_recv c = [] ->
  is_frame b -> msg_parse sha256 b (cf_magic cf) = Ok m -> mt_command (m_type m) = "ping" -> mt_name (m_type m) = "ping" ->
  field "nonce" (m_fields m) = Ok (VBytes nonce) -> zlen nonce = 8 ->
  let n' := step sha256 py2 cf n (EvRead i (RData b) now clock) in
  sends_of (n_trace n') = sends_of (n_trace n) ++ [(i, mk_message t_pong [("nonce", VBytes nonce)])].
Proof.
  intros sha py2 cf n i c b now clock m nonce G O E F P EC EN Fn L n'. unfold n'. rewrite (read_one sha py2 cf i b now clock n c m G O E F P).
  destruct (handle_ping sha py2 cf i m (clock (List.length b - 1)%nat) (emit (AMsg i m) (delivered i b now n)) nonce EC EN Fn L) as (pb & _ & H).
  unfold tryM. rewrite H. cbn [fst]. erewrite sends_queue by (apply get_delivered; exact G). now rewrite sends_delivered.
Qed.
Theorem C26_version : forall sha256 py2 cf n i c b now clock m, get_conn i n = Some c -> c_open c = true -> c_recv c = [] ->
  is_frame b -> msg_parse sha256 b (cf_magic cf) = Ok m -> mt_command (m_type m) = "version" ->
  let n' := step sha256 py2 cf n (EvRead i (RData b) now clock) in
  sends_of (n_trace n') = sends_of (n_trace n) ++ [(i, mk_message t_verack [])].
Proof.
  intros sha py2 cf n i c b now clock m G O E F P EC n'. unfold n'. rewrite (read_one sha py2 cf i b now clock n c m G O E F P).
  destruct (parsed_version sha b (cf_magic cf) m P EC) as (HV & EN).
  destruct (handle_version sha py2 cf i m (clock (List.length b - 1)%nat) (emit (AMsg i m) (delivered i b now n)) EC EN HV) as (pb & _ & H).
  unfold tryM. rewrite H. cbn [fst].
  erewrite sends_queue by (rewrite get_ext, get_upd, Nat.eqb_refl, (get_delivered i b now n m c G); reflexivity).
  now rewrite sends_ext, sends_upd, sends_delivered.
Qed.
(** Nothing else is ever sent in response: one message causes at most one reply,
    on its connection, of the matching kind. *)
Theorem C26_only_replies : forall sha256 py2 cf n i c b now clock m, get_conn i n = Some c -> c_open c = true -> c_recv c = [] ->
  is_frame b -> msg_parse sha256 b (cf_magic cf) = Ok m ->
  let n' := step sha256 py2 cf n (EvRead i (RData b) now clock) in
  exists l, sends_of (n_trace n') = sends_of (n_trace n) ++ l /\
  (l = [] \/ exists p, l = [(i, p)] /\
     (mt_name (m_type m) = "ping" /\ (exists v, field "nonce" (m_fields m) = Ok v /\ new_message t_pong [v] [] = Ok p) \/
      mt_name (m_type m) = "version" /\ p = mk_message t_verack [] \/
      mt_name (m_type m) = "get_address" /\ exists n1, get_address_reply py2 n1 = Ok p /\ n_book n1 = n_book n)).
Proof.
  intros sha py2 cf n i c b now clock m G O E F P n'. unfold n'. rewrite (read_one sha py2 cf i b now clock n c m G O E F P).
  set (n0 := emit (AMsg i m) (delivered i b now n)). destruct (handle_replies sha py2 cf i m (clock (List.length b - 1)%nat) n0) as (l & H1 & H2).
  exists l. split.
  - unfold tryM. destruct (handle_message sha py2 cf i m (clock (List.length b - 1)%nat) n0) as (n1 & [u|x]); cbn [fst] in *.
    + rewrite H1. unfold n0. now rewrite sends_delivered.
    + unfold on_error, modM. cbn [fst]. unfold emit. cbn [n_trace set_n_trace]. rewrite sends_app. destruct (is_invalid x); cbn; rewrite app_nil_r, H1;
      unfold n0; now rewrite sends_delivered.
  - exact H2.
Qed.
(** Messages of a type without handler only cause a log line. *)
Theorem C26_no_handler : forall sha256 py2 cf n i now m,
  ~ In (mt_name (m_type m)) ["ping"; "pong"; "version"; "version_ack"; "get_address"; "address"] ->
  ~ In (mt_command (m_type m)) ["version"; "verack"] ->
  handle_message sha256 py2 cf i m now n = (emit (ANoHandler i (mt_name (m_type m))) n, Ok tt).
Proof.
  intros sha py2 cf n i now m H1 H2. unfold handle_message, command.
  repeat match goal with |- context [String.eqb ?a ?b] => destruct (String.eqb_spec a b) as [E|_]; [exfalso; first [apply H1; rewrite E; cbn; tauto | apply H2; rewrite E; cbn; tauto]|] end.
  reflexivity.
Qed.
(** A ping without the 8-byte nonce is not answered. *)
Example C26_short_ping : let b := nx_magic ++ pad_command (bs "ping") ++ [3;0;0;0] ++ ztake 4 (nx_sha (nx_sha [1;2;3])) ++ [1;2;3] in
  let n' := step nx_sha false nx_cf nx_one (EvRead 0 (RData b) 0 nx_clock) in
  sends_of (n_trace n') = sends_of (n_trace nx_one) /\ exists a, last (n_trace n') (AClose 0) = a /\ match a with AHandlerError 0 _ | AParseError 0 _ _ => True | _ => False end.
Proof. cbv zeta. split; [vm_compute; reflexivity|]. eexists. split; [vm_compute; reflexivity|exact I]. Qed.
Example C26_nonvacuous : exists c m, get_conn 0 nx_one = Some c /\ c_open c = true /\ c_recv c = [] /\ msg_parse nx_sha nx_ping nx_magic = Ok m /\
  mt_command (m_type m) = "ping" /\ mt_name (m_type m) = "ping" /\ field "nonce" (m_fields m) = Ok (VBytes [8;7;6;5;4;3;2;1]).
Proof.
  do 2 eexists. split; [vm_compute; reflexivity|]. split; [reflexivity|]. split; [reflexivity|]. split; [vm_compute; reflexivity|]. split; [reflexivity|split; reflexivity].
Qed.

(** ** Assumptions *)

Print Assumptions C13_chunking.
Print Assumptions C13_function_of_stream.
Print Assumptions C14_frames_in_order.
Print Assumptions C14_outcome.
Print Assumptions C14_serialised_is_frame.
Print Assumptions C15_outgoing_fifo.
Print Assumptions C15_queued_are_messages.
Print Assumptions C15_send.
Print Assumptions C16_counters.
Print Assumptions C17_buffer_bound.
Print Assumptions C17_buffer_bound_tight.
Print Assumptions C18_ping_spacing.
Print Assumptions C18_poll.
Print Assumptions C18_close_refuted.
Print Assumptions C19_score_range.
Print Assumptions C19_punish.
Print Assumptions C19_heartbeat.
Print Assumptions C19_other_events.
Print Assumptions C20_banned_refused_refuted.
Print Assumptions C20_never_refused_refuted.
Print Assumptions C21_book_bound_partial.
Print Assumptions C21_book_bound_refuted.
Print Assumptions C22_reply_partial.
Print Assumptions C22_reply_exists_partial.
Print Assumptions C22_python3_refuted.
Print Assumptions C22_hostname_refuted.
Print Assumptions C23_plurality.
Print Assumptions C24_heartbeat_budget.
Print Assumptions C24_add_peer_budget.
Print Assumptions C24_no_duplicate_dial.
Print Assumptions C24_no_duplicate_refuted.
Print Assumptions C25_heartbeat_rate.
Print Assumptions C26_ping.
Print Assumptions C26_version.
Print Assumptions C26_only_replies.
Print Assumptions C26_no_handler.
