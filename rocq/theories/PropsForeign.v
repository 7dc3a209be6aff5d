(** Property C144: nodes of different coins do not mix.

    A coin is told by the four bytes ([magic]) that open each of its messages
    (nbc/coins/newbitcoin.py:42, nbc/protocol/message.py).  Modelled source:
    nbc/node/basenode.py, nbc/node/connection.py, nbc/protocol/messages.py. *)
From Coq Require Import String ZArith List Lia Bool.
From Verif Require Import PyBase PyVal FormatModel MessagesModel FormatSpec FormatProofs FormatProofs2 MessagesProofs
  NodeModel NodeProofs NodeProofs2 NodeProofs3 NodeProofs7 NodeProofs8 NodeProofs9 NodeProofs10 NodeProofs12 PropsNode PropsHello PropsTalk PropsMeet PropsProtocol.
Import ListNotations.
Open Scope string_scope.
Open Scope list_scope.
Open Scope Z_scope.

(** A frame of another coin: the specification of what is refused. *)
Definition foreign (magic f : bytes) : Prop := is_frame f /\ firstn 4 f <> magic.

(** ** What one read of foreign frames does *)
Lemma foreign_parse sha256 magic f : foreign magic f -> msg_parse sha256 f magic = Raise MsgFormatError.
Proof. intros [_ H]. apply C05_bad_magic. unfold slice. rewrite ztake_firstn, zdrop_skipn. exact H. Qed.
Lemma frame_len f x : is_frame f -> first_msg_len (f ++ x) = Some (zlen f).
Proof.
  intros (A & L). destruct (first_msg_len (f ++ x)) as [len|] eqn:E.
  - apply first_msg_len_some in E. destruct E as (_ & ->). rewrite field_app by lia. f_equal. lia.
  - apply first_msg_len_none in E. rewrite zlen_app in E. pose proof (zlen_nonneg x). lia.
Qed.
Lemma incomplete_stops r : incomplete r -> match first_msg_len r with Some len => len >? zlen r = true | None => True end.
Proof.
  intro H. destruct (first_msg_len r) as [len|] eqn:E; [|exact I]. apply first_msg_len_some in E. destruct E as (L & ->). destruct H as [H|H]; [lia|]. apply Z.gtb_lt. lia.
Qed.
Definition noted (j : nat) (f : bytes) : action := AInvalid j f MsgFormatError.
Lemma loop_foreign sha256 py2 cf j clock : forall fs fuel n c r, get_conn j n = Some c -> c_recv c = concat fs ++ r -> incomplete r -> Forall (foreign (cf_magic cf)) fs -> (List.length fs < fuel)%nat ->
  read_loop sha256 py2 cf fuel j clock n = (set_n_trace (n_trace n ++ map (noted j) fs) (upd j (set_c_recv r) n), Ok tt).
Proof.
  induction fs as [|f fs IH]; intros fuel n c r G E I F L; (destruct fuel as [|fuel]; [cbn in L; lia|]); cbn [read_loop]; unfold getM, bindM, retM, modM; cbv beta iota; rewrite G.
  - cbn [concat app] in E. pose proof (incomplete_stops r I) as S. rewrite E.
    assert ((n, Ok tt) = (set_n_trace (n_trace n ++ map (noted j) []) (upd j (set_c_recv r) n), Ok tt)) as Q.
    { cbn [map]. rewrite app_nil_r. f_equal. rewrite (upd_ext j (set_c_recv r) (fun c => c)).
      - unfold upd. assert (upd_nth j (fun c => c) (n_conns n) = n_conns n) as -> by (generalize (n_conns n); clear; intro l; revert j; induction l as [|x l IHl]; intros [|k]; cbn; congruence). destruct n; reflexivity.
      - intros c' G'. assert (c' = c) as -> by congruence. rewrite <- E. destruct c; reflexivity. }
    destruct (first_msg_len r) as [len|]; [rewrite S|]; exact Q.
  - apply Forall_cons_iff in F. destruct F as (Ff & F). cbn [concat] in E. rewrite <- app_assoc in E. rewrite E, (frame_len f _ (proj1 Ff)).
    destruct (Z.gtb_spec (zlen f) (zlen (f ++ concat fs ++ r))) as [Q|_]; [rewrite zlen_app in Q; pose proof (zlen_nonneg (concat fs ++ r)); lia|].
    rewrite (ztake_app_exact f _ _ eq_refl), (zdrop_app_exact f _ _ eq_refl). unfold handle_frame. rewrite (foreign_parse sha256 _ f Ff). cbn [is_invalid]. unfold modM.
    set (n1 := emit (AInvalid j f MsgFormatError) (upd j (set_c_recv (concat fs ++ r)) n)).
    rewrite (IH fuel n1 (set_c_recv (concat fs ++ r) c) r); [|unfold n1; cbn; unfold get_conn in *; cbn; rewrite nth_upd_same, G; reflexivity|reflexivity|exact I|exact F|cbn in L; lia].
    f_equal. unfold n1, emit. cbn [n_trace set_n_trace upd set_n_conns n_conns map]. rewrite <- app_assoc. cbn [app].
    change (upd j (set_c_recv r) (set_n_trace (n_trace n ++ [AInvalid j f MsgFormatError]) (upd j (set_c_recv (concat fs ++ r)) n)))
      with (set_n_trace (n_trace n ++ [AInvalid j f MsgFormatError]) (upd j (set_c_recv r) (upd j (set_c_recv (concat fs ++ r)) n))).
    rewrite upd_upd. reflexivity.
Qed.
Lemma frames_length fs : Forall is_frame fs -> (24 * List.length fs <= List.length (concat fs))%nat.
Proof.
  induction 1 as [|f fs (A & _) _ IH]; [cbn; lia|]. cbn [concat List.length]. rewrite app_length. unfold zlen in A. unfold bytes in *. lia.
Qed.
(** Whatever the state of the node, reading frames of another coin changes
    nothing but the receive buffer, the counters and the time of the last
    reception of that connection; each frame is reported once, in order, and
    nothing is answered, recorded, scored or closed. *)
Theorem C144_read sha256 py2 cf n j c chunk fs r now clock :
  get_conn j n = Some c -> c_open c = true -> chunk <> [] -> framed (c_recv c ++ chunk) fs r -> Forall (foreign (cf_magic cf)) fs ->
  step sha256 py2 cf n (EvRead j (RData chunk) now clock) =
    set_n_trace (n_trace n ++ ARecv j chunk :: map (fun f => AInvalid j f MsgFormatError) fs)
      (set_n_rx (n_rx n + zlen chunk) (upd j (fun c => set_c_recv r (set_c_rx (c_rx c + zlen chunk) (set_c_last_rx now c))) n)).
Proof.
  intros G O N (E & Ff & I) F. cbn [step]. unfold is_open. rewrite G, O. unfold run, handle_read. destruct chunk as [|x chunk]; [congruence|]. set (ch := x :: chunk) in *.
  unfold bindM, modM, getM. cbv beta iota. unfold received. rewrite G.
  set (n1 := emit (ARecv j ch) (set_n_rx (n_rx n + zlen ch) (upd j (fun c => set_c_recv (c_recv c ++ ch) (set_c_rx (c_rx c + zlen ch) (set_c_last_rx now c))) n))).
  assert (get_conn j n1 = Some (set_c_recv (c_recv c ++ ch) (set_c_rx (c_rx c + zlen ch) (set_c_last_rx now c)))) as G1 by (unfold n1; cbn; unfold get_conn in *; cbn; rewrite nth_upd_same, G; reflexivity).
  rewrite G1. cbn [c_recv set_c_recv set_c_rx set_c_last_rx].
  rewrite (loop_foreign sha256 py2 cf j clock fs _ n1 _ r G1).
  - cbn [fst]. unfold n1, emit. cbn [n_trace set_n_trace set_n_rx upd set_n_conns]. rewrite <- app_assoc. cbn [app].
    match goal with |- set_n_trace ?t (upd j ?f (set_n_trace ?t0 (set_n_rx ?v (upd j ?g n)))) = _ =>
      change (set_n_trace t (upd j f (set_n_trace t0 (set_n_rx v (upd j g n))))) with (set_n_trace t (set_n_rx v (upd j f (upd j g n)))) end.
    rewrite upd_upd. reflexivity.
  - exact E.
  - exact I.
  - exact F.
  - pose proof (frames_length fs Ff) as L. apply (f_equal (@List.length Z)) in E. rewrite !app_length in E. assert (List.length ch = S (List.length chunk)) as Lc by reflexivity.
    rewrite app_length. unfold bytes in *. lia.
Qed.

(** ** Two nodes of different coins *)

Lemma outcomes sha cf j l : Forall (foreign (cf_magic cf)) l -> map (outcome sha cf j) l = map (fun f => AInvalid j f MsgFormatError) l.
Proof. induction 1 as [|f l H _ IH]; [reflexivity|]. cbn [map]. rewrite IH. f_equal. unfold outcome. rewrite (foreign_parse sha _ f H). reflexivity. Qed.
(** Two nodes with any histories, joined by a connection that delivers a
    prefix of what the first has written, as in C126; but the magics differ.
    Then the second handles no message there: each frame that has arrived, as
    the first made it, is reported as malformed, in order. *)
Theorem C144_apart : forall sha256 pyA pyB cfA cfB esA esB i j,
  (forall x, 4 <= zlen (sha256 x)) -> cf_magic cfA <> cf_magic cfB -> zlen (cf_magic cfA) = 4 ->
  Forall (fun c => 0 <= c) (cf_user_agent cfA) -> Forall ordinary_event esA -> Forall wf_event esB ->
  let trA := n_trace (history sha256 pyA cfA esA) in
  let trB := n_trace (history sha256 pyB cfB esB) in
  (exists rest, wire_of i trA = recv_of j trB ++ rest) ->
  heard (talk j trB) = [] /\
  exists frames k, Forall2 (fun m b => msg_binary sha256 m (cf_magic cfA) = Ok b) (said (talk i trA)) frames /\
    frames_of j trB = map (fun f => AInvalid j f MsgFormatError) (firstn k frames) /\
    (recv_of j trB = queued_of i trA -> frames_of j trB = map (fun f => AInvalid j f MsgFormatError) frames).
Proof.
  intros sha pyA pyB cfA cfB esA esB i j Hs Em Lm Hu OA WB trA trB (rest & E).
  assert (WA : Forall wf_event esA) by (eapply Forall_impl; [|exact OA]; intros e He; exact (proj1 He)).
  destruct (wire_prefix sha pyA cfA esA i WA) as (s & Q). fold trA in Q. rewrite E, <- app_assoc in Q.
  assert (SA : Forall speakable (msgs_of i trA)).
  { apply Forall_forall. intros m Hm. apply (history_speakable sha pyA cfA Hu esA i m); [|exact Hm]. eapply Forall_impl; [|exact OA]. exact ordinary_real. }
  destruct (queued_concat sha cfA i trA (traces_honest sha pyA cfA esA WA)) as (bs & Eb & F2). 
  assert (Fb : Forall (foreign (cf_magic cfB)) bs).
  { clear E Eb Q. revert SA. induction F2 as [|m b l bs H _ IH]; intro SA; [constructor|]. apply Forall_cons_iff in SA. destruct SA as ((T & _) & SA). constructor; [|exact (IH SA)].
    split; [exact (C14_serialised_is_frame sha Hs _ _ _ T Lm H)|]. destruct (msg_binary_frame sha m _ b T Lm H) as (payload & len & _ & _ & ->). intro X. apply Em. rewrite <- X.
    rewrite firstn_app. unfold zlen in Lm. rewrite firstn_all2 by lia. replace (4 - List.length (cf_magic cfA))%nat with 0%nat by lia. cbn [firstn]. now rewrite app_nil_r. }
  assert (Fr0 : Forall is_frame bs) by (eapply Forall_impl; [|exact Fb]; intros f [H _]; exact H).
  rewrite Eb in Q. destruct (prefix_framed bs Fr0 _ _ Q) as (k & r & Fr & All).
  assert (exists fs r', framed (recv_of j trB) fs r' /\ frames_of j trB = map (outcome sha cfB j) fs) as (fs & r' & Fr' & Hf).
  { destruct (get_conn j (history sha pyB cfB esB)) as [c|] eqn:G.
    - destruct (handled_by_received sha cfB j _ c (good_history sha pyB cfB esB WB) G) as (fs & H1 & H2). exists fs, (c_recv c). now split.
    - pose proof (stream_inv_history sha pyB cfB esB WB) as (I1 & _). specialize (I1 j). rewrite G in I1. destruct I1 as (R & _ & _ & F). exists [], []. fold trB in R, F. rewrite R, F. split; [|reflexivity]. split; [reflexivity|]. split; [constructor|left; reflexivity]. }
  destruct (framed_unique _ _ _ _ _ Fr Fr') as (<- & _).
  assert (Fk : frames_of j trB = map (fun f => AInvalid j f MsgFormatError) (firstn k bs)).
  { rewrite Hf. assert (Forall (foreign (cf_magic cfB)) (firstn k bs)) as Fk by (rewrite <- (firstn_skipn k bs) in Fb; now apply Forall_app in Fb).
    exact (outcomes sha cfB j _ Fk). }
  split.
  - rewrite heard_talk. clear - Fk. set (l := firstn k bs) in *. clearbody l. revert l Fk. induction trB as [|a tr IH]; intros l H; [reflexivity|].
    change (a :: tr) with ([a] ++ tr) in *. rewrite heard_app. unfold frames_of in H. rewrite filter_app in H. fold (frames_of j tr) in H.
    destruct a; cbn [filter app heard_on flat_map] in *; try (apply (IH l); exact H); destruct (Nat.eqb_spec i j); cbn [app] in *; try (apply (IH l); exact H);
      (destruct l as [|y l]; [discriminate H|]); cbn [map] in H; try discriminate H; apply (IH l); congruence.
  - exists bs, k. rewrite said_talk. split; [exact F2|]. split; [exact Fk|]. intro N. rewrite Fk. f_equal. apply All. rewrite <- Eb, <- N in Q. rewrite <- (app_nil_r (recv_of j trB)) in Q at 1. apply app_inv_head in Q. now symmetry.
Qed.
(** So the second never learns anything of the first and never answers it: it
    says nothing on that connection but its own version, ping and getaddr
    messages and what its application sends. *)
Theorem C144_strangers : forall sha256 pyA pyB cfA cfB esA esB i j c,
  (forall x, 4 <= zlen (sha256 x)) -> cf_magic cfA <> cf_magic cfB -> zlen (cf_magic cfA) = 4 ->
  Forall (fun c => 0 <= c) (cf_user_agent cfA) -> Forall ordinary_event esA -> Forall wf_event esB ->
  let trA := n_trace (history sha256 pyA cfA esA) in
  let B := history sha256 pyB cfB esB in
  (exists rest, wire_of i trA = recv_of j (n_trace B) ++ rest) -> get_conn j B = Some c ->
  c_verack c = false /\ c_version c = None /\ c_services c = None /\ c_user_agent c = None /\ c_start_height c = None /\ c_relay c = None /\ c_external_ip c = None /\
  forall m, In m (said (talk j (n_trace B))) -> In (cmd m) ["version"; "ping"; "getaddr"] \/ In (EvSend j m) esB.
Proof.
  intros sha pyA pyB cfA cfB esA esB i j c Hs Em Lm Hu OA WB trA B W G.
  destruct (C144_apart sha pyA pyB cfA cfB esA esB i j Hs Em Lm Hu OA WB W) as (H & _). fold B in H.
  pose proof (C112_details sha pyB cfB esB j c WB G) as D. cbv zeta in D. fold B in D. rewrite H in D. destruct D as (D0 & D1 & D2 & D3 & D4 & D5 & D6).
  repeat (split; [assumption|]). pose proof (history_dialogue sha pyB cfB esB j) as Dl. fold B in Dl. clear - H Dl. set (l := talk j (n_trace B)) in *. clearbody l.
  induction Dl as [|l m0 Hl IH Hm|l m0 r Hl IH Hr]; intros m Hi; [destruct Hi| |].
  - rewrite heard_app' in H. apply app_eq_nil in H. destruct H as (H & _). rewrite said_app in Hi. apply in_app_or in Hi. destruct Hi as [Hi|[<-|[]]]; [exact (IH H m Hi)|]. exact Hm.
  - rewrite heard_app', heard_answers in H. apply app_eq_nil in H. destruct H as (_ & H). discriminate H.
Qed.

(** The node as shipped dials a node of another coin, which reads its version
    message in two pieces. *)
Definition nx_other : config := mk_config [0x0b; 0x11; 0x09; 0x07] 70015 (bs "/other/") (bs "10.0.0.2", 4000) true 3 8 [] 77.
Lemma nx_foreign_events : Forall ordinary_event nxA1 /\ Forall wf_event nxB1.
Proof.
  assert (N : wf_bytes (ce_nonce nx_env)) by (apply all_bytes_wf; reflexivity). split.
  - unfold nxA1. apply Forall_cons; [split; [exact I|exact N]|]. apply Forall_cons; [split; exact I|constructor].
  - unfold nxB1. cbv zeta. set (w := wire_of 0 (n_trace (history nx_sha true nx_ship nxA1))). assert (W : wf_bytes w) by (apply all_bytes_wf; vm_compute; reflexivity). clearbody w.
    assert (W1 : wf_bytes (firstn nx_cut w) /\ wf_bytes (skipn nx_cut w)) by (apply wf_bytes_app; now rewrite firstn_skipn). destruct W1 as (W0 & W1).
    generalize dependent (firstn nx_cut w). intros x0 X0. generalize dependent (skipn nx_cut w). intros x1 X1.
    apply Forall_cons; [exact I|]. apply Forall_cons; [exact X0|]. apply Forall_cons; [exact X1|]. apply Forall_cons; [exact I|constructor].
Qed.
Example C144_applies :
  let trA := n_trace (history nx_sha true nx_ship nxA1) in
  let B := history nx_sha false nx_other nxB1 in
  cf_magic nx_ship <> cf_magic nx_other /\ zlen (cf_magic nx_ship) = 4 /\ Forall ordinary_event nxA1 /\ Forall wf_event nxB1 /\
  wire_of 0 trA = recv_of 0 (n_trace B) /\ zlen (frames_of 0 (n_trace B)) = 1 /\ is_open 0 B = true /\
  map item_name (talk 0 (n_trace B)) = [("said", "version")].
Proof.
  cbv zeta. split; [discriminate|]. split; [reflexivity|]. split; [exact (proj1 nx_foreign_events)|]. split; [exact (proj2 nx_foreign_events)|].
  repeat (split; [vm_compute; reflexivity|]). vm_compute. reflexivity.
Qed.

(** ** Assumptions *)

Print Assumptions C144_read.
Print Assumptions C144_apart.
Print Assumptions C144_strangers.
