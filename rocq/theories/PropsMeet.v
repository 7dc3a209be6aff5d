(** C126: two nodes of the same coin understand each other.

    The theorems of PropsNode, PropsHello and PropsTalk speak of one node and
    whatever its peers send.  Here both ends of a TCP connection are nodes of
    this library, each with its own history; all that is assumed of TCP is that
    what has been read at one end is a prefix of what has been written at the
    other.  Modelled source: nbc/node/basenode.py, nbc/node/connection.py,
    nbc/protocol/messages.py. *)
From Coq Require Import String ZArith List Lia Bool.
From Verif Require Import PyBase PyVal FormatModel MessagesModel FormatSpec FormatProofs FormatProofs2 MessagesProofs
  NodeModel NodeProofs NodeProofs2 NodeProofs3 NodeProofs4 NodeProofs5 NodeProofs6 NodeProofs7 NodeProofs8 NodeProofs9 NodeProofs10 NodeProofs12
  PropsNode PropsHello PropsTalk.
Import ListNotations.
Open Scope string_scope.
Open Scope list_scope.
Open Scope Z_scope.

(** Events whose bytes are bytes (random nonces included) and in which the
    application only sends messages made by the constructors, with values that
    the constructors accept.  A headers message may announce counts that do not
    come back (see C01) and is left out. *)
Definition ordinary_event (e : event) : Prop := wf_event e /\
  match e with
  | EvLoop _ envs _ => forall k, wf_bytes (ce_nonce (ae_conn (envs k)))
  | EvReadable _ _ _ nonce => wf_bytes nonce
  | EvAccept _ _ e | EvAddPeer _ _ e => wf_bytes (ce_nonce e)
  | EvSend _ m => exists t args kw, In t registry /\ mt_command t <> "headers" /\ Forall built args /\ Forall built (map snd kw) /\ new_message t args kw = Ok m
  | _ => True
  end.
Lemma ordinary_real e : ordinary_event e -> real_event e.
Proof.
  intros (W & H). split; [exact W|]. destruct e; try exact H. destruct H as (t & args & kw & T & N & A & K & E).
  apply (speakable_new t args kw m T N); [| |exact E]; eapply Forall_impl; [|exact A| |exact K]; apply built_vgood.
Qed.
Lemma said_talk i tr : said (talk i tr) = msgs_of i tr.
Proof.
  induction tr as [|a tr IH]; [reflexivity|]. change (a :: tr) with ([a] ++ tr). rewrite talk_app, said_app, msgs_app, IH. f_equal.
  destruct a; try reflexivity; cbn; destruct (Nat.eqb i0 i); reflexivity.
Qed.
Lemma heard_frames j tr l : frames_of j tr = map (AMsg j) l -> heard (talk j tr) = l.
Proof.
  rewrite heard_talk. revert l. induction tr as [|a tr IH]; intros l H.
  - destruct l; [reflexivity|discriminate].
  - change (a :: tr) with ([a] ++ tr) in *. rewrite heard_app. unfold frames_of in H. rewrite filter_app in H. fold (frames_of j tr) in H.
    destruct a; cbn [filter app heard_on flat_map] in *; try (apply IH; exact H); destruct (Nat.eqb_spec i j); cbn [app] in *; try (apply IH; exact H); destruct l; try discriminate.
    cbn [map] in H. subst i. assert (m = m0) as <- by congruence. f_equal. apply IH. congruence.
Qed.
Lemma traces_honest sha py2 cf es : Forall wf_event es -> Forall (honest_action sha cf) (n_trace (history sha py2 cf es)).
Proof. intro W. apply Forall_forall; intros [] Hx; try exact I; exact (C15_queued_are_messages sha py2 cf es _ _ _ W Hx). Qed.
Lemma wire_prefix sha py2 cf es i : Forall wf_event es -> exists s, queued_of i (n_trace (history sha py2 cf es)) = wire_of i (n_trace (history sha py2 cf es)) ++ s.
Proof.
  intro W. destruct (get_conn i (history sha py2 cf es)) as [c|] eqn:G; [exists (c_send c); exact (C15_outgoing_fifo sha py2 cf es i c W G)|].
  pose proof (stream_inv_history sha py2 cf es W) as (I1 & _). specialize (I1 i). rewrite G in I1. destruct I1 as (_ & -> & -> & _). now exists [].
Qed.

(** Two nodes with any histories, of any lengths and interleaved in any way.
    Connection [i] of the first and connection [j] of the second are the two
    ends of one TCP connection: what the second has read is a prefix of what the
    first has written.  Then the second has taken apart exactly the first [k]
    messages that the first has said, in order and each with the values that it
    was given ([arrived]: in the form in which the parser returns them); no
    frame was invalid or failed to parse.  When it has read all, it has heard
    all. *)
Theorem C126_understood : forall sha256 pyA pyB cfA cfB esA esB i j,
  (forall x, 4 <= zlen (sha256 x)) -> cf_magic cfA = cf_magic cfB -> zlen (cf_magic cfA) = 4 ->
  Forall (fun c => 0 <= c) (cf_user_agent cfA) -> Forall ordinary_event esA -> Forall wf_event esB ->
  let trA := n_trace (history sha256 pyA cfA esA) in
  let trB := n_trace (history sha256 pyB cfB esB) in
  (exists rest, wire_of i trA = recv_of j trB ++ rest) ->
  exists k,
    frames_of j trB = map (fun m => AMsg j (arrived m)) (firstn k (said (talk i trA))) /\
    heard (talk j trB) = map arrived (firstn k (said (talk i trA))) /\
    (recv_of j trB = queued_of i trA -> heard (talk j trB) = map arrived (said (talk i trA))).
Proof.
  intros sha pyA pyB cfA cfB esA esB i j Hs Em Lm Hu OA WB trA trB (rest & E).
  assert (WA : Forall wf_event esA) by (eapply Forall_impl; [|exact OA]; intros e He; exact (proj1 He)).
  destruct (wire_prefix sha pyA cfA esA i WA) as (s & Q). fold trA in Q. rewrite E, <- app_assoc in Q.
  assert (SA : Forall speakable (msgs_of i trA)).
  { apply Forall_forall. intros m Hm. apply (history_speakable sha pyA cfA Hu esA i m); [|exact Hm]. eapply Forall_impl; [|exact OA]. exact ordinary_real. }
  destruct (understood sha Hs cfA cfB pyB esB i j trA Em Lm (traces_honest sha pyA cfA esA WA) SA WB _ Q) as (k & F & All). fold trB in F.
  rewrite said_talk. exists k. split; [exact F|].
  assert (H : heard (talk j trB) = map arrived (firstn k (msgs_of i trA))). { apply heard_frames. now rewrite map_map. }
  split; [exact H|]. intro N. rewrite H. f_equal. apply All. rewrite Q in N. rewrite <- (app_nil_r (recv_of j trB)) in N at 1. apply app_inv_head in N. now symmetry.
Qed.

(** ** Introductions *)

Lemma firstn_incl {A} k (l : list A) x : In x (firstn k l) -> In x l.
Proof. intro H. rewrite <- (firstn_skipn k l). apply in_or_app. now left. Qed.
Lemma find_none_last {A} (f : A -> bool) l x : Forall (fun y => f y = false) l -> f x = true -> find f (rev l ++ [x]) = Some x.
Proof.
  intros F Hx. rewrite <- (rev_involutive l) in F. set (r := rev l) in *. clearbody r. induction r as [|y r IH]; cbn.
  - now rewrite Hx.
  - cbn [rev] in F. apply Forall_app in F. destruct F as (F1 & F2). apply Forall_cons_iff in F2. destruct F2 as (F2 & _). rewrite F2. now apply IH.
Qed.
(** What the second node reports of the first once it has heard anything from
    it: the protocol version, services, user agent (as a byte string) and height
    that the first was configured with, relay 0, and, as its own address seen
    from outside, the one at which the first believes to reach it.  The
    hypotheses on the first node are those of C103. *)
Definition introduced (cfA : config) (a c : conn) : Prop :=
  c_version c = Some (VInt (cf_protocol_version cfA)) /\ c_services c = Some (VInt 1) /\
  c_user_agent c = Some (VBytes (cf_user_agent cfA)) /\ c_start_height c = Some (VInt (cf_height cfA)) /\ c_relay c = Some (VInt 0) /\
  exists b, ip_binary (VStr (fst (c_address a))) = Ok b /\ c_external_ip c = Some (ip_text b).
Theorem C126_introduced : forall sha256 pyA pyB cfA cfB esA esB i j a c,
  (forall x, 4 <= zlen (sha256 x)) -> cf_magic cfA = cf_magic cfB -> zlen (cf_magic cfA) = 4 ->
  good_config cfA -> Forall (fun c => 0 <= c) (cf_user_agent cfA) -> Forall usable (cf_bootstrap cfA) ->
  Forall good_event esA -> Forall ordinary_event esA -> Forall wf_event esB ->
  let A := history sha256 pyA cfA esA in
  let B := history sha256 pyB cfB esB in
  get_conn i A = Some a -> get_conn j B = Some c ->
  (exists rest, wire_of i (n_trace A) = recv_of j (n_trace B) ++ rest) ->
  heard (talk j (n_trace B)) <> [] -> introduced cfA a c.
Proof.
  intros sha pyA pyB cfA cfB esA esB i j a c Hs Em Lm Hc Hu Hb GA OA WB A B Ga Gc Hw Hn.
  destruct (C126_understood sha pyA pyB cfA cfB esA esB i j Hs Em Lm Hu OA WB Hw) as (k & _ & H & _). fold A B in H. rewrite said_talk in H.
  destruct (f_conns _ _ (fine_history sha pyA cfA Hc Hb esA GA) i a Ga) as (Ua & _ & _ & K).
  destruct (C103_version_first_partial sha pyA cfA esA i a Hc Hb GA Ga) as [(now & nonce & ip & r & M & R)|(_ & W)].
  2:{ exfalso. fold A in W. destruct Hw as (rest & Hw). rewrite W in Hw. symmetry in Hw. apply app_eq_nil in Hw. destruct Hw as (N & _).
      assert (frames_of j (n_trace B) = []) as F.
      { destruct (handled_by_received sha cfB j _ c (good_history sha pyB cfB esB WB) Gc) as (fs & (E & Ff & _) & F). fold B in E, F. rewrite N in E. destruct fs as [|f fs]; [exact F|].
        exfalso. apply Forall_cons_iff in Ff. destruct Ff as ((L & _) & _). cbn [concat] in E. destruct f; [cbn in L; lia|discriminate]. }
      apply Hn. apply (heard_frames j _ []). exact F. }
  fold A in M. rewrite M in H. destruct k as [|k]; [cbn [firstn map] in H; contradiction|]. cbn [firstn map] in H.
  pose proof (C112_details sha pyB cfB esB j c WB Gc) as (_ & D). cbv zeta in D. fold B in D. rewrite H in D. cbn [rev] in D.
  match type of D with context [find ?f (rev ?l ++ [?x])] => rewrite (find_none_last f l x) in D end.
  2:{ apply Forall_forall. intros y Hy. apply in_map_iff in Hy. destruct Hy as (m & <- & Hm). rewrite Forall_forall in R. specialize (R m (firstn_incl _ _ _ Hm)).
      unfold is_cmd, cmd, arrived. cbn [m_type]. now apply String.eqb_neq. }
  2:{ reflexivity. }
  unfold arrived in D. cbn [m_type m_fields] in D. destruct D as (D1 & D2 & D3 & D4 & D5 & D6). destruct Ua as ((b & Eb) & _).
  split; [rewrite D1; reflexivity|]. split; [rewrite D2; reflexivity|]. split; [rewrite D3; reflexivity|]. split; [rewrite D4; reflexivity|]. split; [rewrite D5; reflexivity|].
  exists b. split; [exact Eb|]. clear - D6 Eb. set (x := fst (c_address a)) in *. clearbody x.
  assert (option_map VStr (c_external_ip c) = Some (canon FIP (VStr x))) as E by exact D6. cbn [canon] in E. rewrite Eb in E. destruct (c_external_ip c); cbn in E; congruence.
Qed.

(** ** The handshake *)

(** When each end of an open connection has read all that the other has said,
    both know the other's details and both have been acknowledged. *)
Theorem C126_handshake : forall sha256 pyA pyB cfA cfB esA esB i j a c,
  (forall x, 4 <= zlen (sha256 x)) -> cf_magic cfA = cf_magic cfB -> zlen (cf_magic cfA) = 4 ->
  (forall cf es, In (cf, es) [(cfA, esA); (cfB, esB)] ->
     good_config cf /\ Forall (fun c => 0 <= c) (cf_user_agent cf) /\ Forall usable (cf_bootstrap cf) /\
     Forall good_event es /\ Forall ordinary_event es /\ forall n m, In (EvSend n m) es -> ~ In (cmd m) ["pong"; "verack"; "addr"]) ->
  let A := history sha256 pyA cfA esA in
  let B := history sha256 pyB cfB esB in
  get_conn i A = Some a -> get_conn j B = Some c -> c_open a = true -> c_open c = true ->
  recv_of j (n_trace B) = queued_of i (n_trace A) -> recv_of i (n_trace A) = queued_of j (n_trace B) ->
  wire_of i (n_trace A) = queued_of i (n_trace A) -> wire_of j (n_trace B) = queued_of j (n_trace B) ->
  (c_verack a = true /\ introduced cfB c a) /\ (c_verack c = true /\ introduced cfA a c).
Proof.
  assert (Half : forall sha pyA pyB cfA cfB esA esB i j a c,
    (forall x, 4 <= zlen (sha x)) -> cf_magic cfA = cf_magic cfB -> zlen (cf_magic cfA) = 4 -> zlen (cf_magic cfB) = 4 ->
    (forall cf es, In (cf, es) [(cfA, esA); (cfB, esB)] ->
       good_config cf /\ Forall (fun c => 0 <= c) (cf_user_agent cf) /\ Forall usable (cf_bootstrap cf) /\
       Forall good_event es /\ Forall ordinary_event es /\ forall n m, In (EvSend n m) es -> ~ In (cmd m) ["pong"; "verack"; "addr"]) ->
    let A := history sha pyA cfA esA in
    let B := history sha pyB cfB esB in
    get_conn i A = Some a -> get_conn j B = Some c -> c_open a = true -> c_open c = true ->
    recv_of j (n_trace B) = queued_of i (n_trace A) -> recv_of i (n_trace A) = queued_of j (n_trace B) ->
    wire_of i (n_trace A) = queued_of i (n_trace A) -> wire_of j (n_trace B) = queued_of j (n_trace B) ->
    c_verack a = true /\ introduced cfA a c).
  { intros sha pyA pyB cfA cfB esA esB i j a c Hs Em LA LB Hyp A B Ga Gc Oa Oc RB RA WA WB.
    destruct (Hyp cfA esA ltac:(cbn; tauto)) as (HcA & HuA & HbA & GA & OA & SA). destruct (Hyp cfB esB ltac:(cbn; tauto)) as (HcB & HuB & HbB & GB & OB & SB).
    assert (wfA : Forall wf_event esA) by (eapply Forall_impl; [|exact OA]; intros e He; exact (proj1 He)).
    assert (wfB : Forall wf_event esB) by (eapply Forall_impl; [|exact OB]; intros e He; exact (proj1 He)).
    assert (PAB : exists rest, wire_of i (n_trace A) = recv_of j (n_trace B) ++ rest) by (exists []; rewrite app_nil_r; congruence).
    assert (PBA : exists rest, wire_of j (n_trace B) = recv_of i (n_trace A) ++ rest) by (exists []; rewrite app_nil_r; congruence).
    destruct (C126_understood sha pyA pyB cfA cfB esA esB i j Hs Em LA HuA OA wfB PAB) as (_ & _ & _ & HB). specialize (HB RB). fold A B in HB.
    destruct (C126_understood sha pyB pyA cfB cfA esB esA j i Hs (eq_sym Em) LB HuB OB wfA PBA) as (_ & _ & _ & HA). specialize (HA RA). fold A B in HA.
    destruct (C103_version_first_partial sha pyA cfA esA i a HcA HbA GA Ga) as [(now & nonce & ip & r & M & _)|(O & _)]; [|congruence]. fold A in M.
    split.
    - pose proof (C112_details sha pyA cfA esA i a wfA Ga) as (V & _). cbv zeta in V. fold A in V. rewrite V, HA.
      pose proof (C111_counts sha pyB cfB esB j (fun m => SB j m)) as (_ & N & _). cbv zeta in N. fold B in N.
      assert (In verack_message (said (talk j (n_trace B)))) as Hv.
      { apply (proj1 (filter_In (is_cmd "verack") _ _)). rewrite N. rewrite HB, said_talk, M. cbn [map filter]. 
        match goal with |- context [is_cmd "version" (arrived ?m)] => change (is_cmd "version" (arrived m)) with true end. cbn. now left. }
      apply existsb_exists. exists (arrived verack_message). split; [now apply in_map|reflexivity].
    - apply (C126_introduced sha pyA pyB cfA cfB esA esB i j a c Hs Em LA HcA HuA HbA GA OA wfB Ga Gc PAB). fold B. rewrite HB, said_talk, M. discriminate. }
  intros sha pyA pyB cfA cfB esA esB i j a c Hs Em Lm Hyp A B Ga Gc Oa Oc RB RA WA WB.
  assert (LB : zlen (cf_magic cfB) = 4) by (rewrite <- Em; exact Lm).
  assert (Hyp' : forall cf es, In (cf, es) [(cfB, esB); (cfA, esA)] -> good_config cf /\ Forall (fun c => 0 <= c) (cf_user_agent cf) /\ Forall usable (cf_bootstrap cf) /\
     Forall good_event es /\ Forall ordinary_event es /\ forall n m, In (EvSend n m) es -> ~ In (cmd m) ["pong"; "verack"; "addr"]) by (intros cf es H; apply Hyp; cbn [In] in *; tauto).
  destruct (Half sha pyA pyB cfA cfB esA esB i j a c Hs Em Lm LB Hyp Ga Gc Oa Oc RB RA WA WB) as (H1 & H2).
  destruct (Half sha pyB pyA cfB cfA esB esA j i c a Hs (eq_sym Em) LB Lm Hyp' Gc Ga Oc Oa RA RB WB WA) as (H3 & H4).
  split; split; assumption.
Qed.

(** ** Two nodes that meet *)

(** The first, as shipped, dials the second, which has another user agent, height
    and protocol version; the version message arrives in two pieces. *)
Definition nx_cfB : config := mk_config nx_magic 70015 (bs "/other/") (bs "10.0.0.2", 4000) true 3 8 [] 77.
Definition nx_cut : nat := 50.
Definition nxA1 : list event := [EvAddPeer nx_b true nx_env; EvWrite 0 (STaken 1000) (1001 * SEC)].
Definition nxB1 : list event :=
  let w := wire_of 0 (n_trace (history nx_sha true nx_ship nxA1)) in
  [EvAccept nx_a (1000 * SEC) nx_env; EvRead 0 (RData (firstn nx_cut w)) (1002 * SEC) nx_clock;
   EvRead 0 (RData (skipn nx_cut w)) (1003 * SEC) nx_clock; EvWrite 0 (STaken 1000) (1004 * SEC)].
Definition nxA2 : list event :=
  nxA1 ++ [EvRead 0 (RData (wire_of 0 (n_trace (history nx_sha false nx_cfB nxB1)))) (1005 * SEC) nx_clock; EvWrite 0 (STaken 1000) (1006 * SEC)].
Definition nxB2 : list event :=
  nxB1 ++ [EvRead 0 (RData (skipn (List.length (wire_of 0 (n_trace (history nx_sha true nx_ship nxA1)))) (wire_of 0 (n_trace (history nx_sha true nx_ship nxA2))))) (1007 * SEC) nx_clock].
Definition nxA : node := history nx_sha true nx_ship nxA2.
Definition nxB : node := history nx_sha false nx_cfB nxB2.
Lemma fine_read (w : bytes) now : wf_bytes w -> good_event (EvRead 0 (RData w) now nx_clock) /\ ordinary_event (EvRead 0 (RData w) now nx_clock).
Proof. intro H. split; (split; [exact H|exact I]). Qed.
Lemma nx_eventsA : Forall good_event nxA2 /\ Forall ordinary_event nxA2.
Proof.
  assert (U : usable nx_b) by (apply usable_of; [vm_compute; reflexivity|cbn; lia]).
  assert (N : wf_bytes (ce_nonce nx_env)) by (apply all_bytes_wf; reflexivity).
  unfold nxA2, nxA1. set (w := wire_of 0 (n_trace (history nx_sha false nx_cfB nxB1))). 
  assert (W : wf_bytes w) by (apply all_bytes_wf; vm_compute; reflexivity). clearbody w. destruct (fine_read w (1005 * SEC) W) as (R1 & R2).
  split; cbn [app].
  - apply Forall_cons; [split; [exact I|split; [exact U|exact good_nx]]|]. apply Forall_cons; [split; exact I|]. apply Forall_cons; [exact R1|]. apply Forall_cons; [split; exact I|constructor].
  - apply Forall_cons; [split; [exact I|exact N]|]. apply Forall_cons; [split; exact I|]. apply Forall_cons; [exact R2|]. apply Forall_cons; [split; exact I|constructor].
Qed.
Lemma nx_eventsB : Forall good_event nxB2 /\ Forall ordinary_event nxB2.
Proof.
  assert (U : usable nx_a) by (apply usable_of; [vm_compute; reflexivity|cbn; lia]).
  assert (N : wf_bytes (ce_nonce nx_env)) by (apply all_bytes_wf; reflexivity).
  unfold nxB2, nxB1. cbv zeta. set (w := wire_of 0 (n_trace (history nx_sha true nx_ship nxA1))). set (w2 := wire_of 0 (n_trace (history nx_sha true nx_ship nxA2))).
  assert (W : wf_bytes w) by (apply all_bytes_wf; vm_compute; reflexivity). assert (W2 : wf_bytes w2) by (apply all_bytes_wf; vm_compute; reflexivity).
  clearbody w w2. assert (W1 : wf_bytes (firstn nx_cut w) /\ wf_bytes (skipn nx_cut w)) by (apply wf_bytes_app; now rewrite firstn_skipn).
  assert (W3 : wf_bytes (skipn (List.length w) w2)) by (rewrite <- (firstn_skipn (List.length w) w2) in W2; apply wf_bytes_app in W2; exact (proj2 W2)).
  destruct W1 as (W0 & W1). generalize dependent (firstn nx_cut w). intros x0 X0. generalize dependent (skipn nx_cut w). intros x1 X1. generalize dependent (skipn (List.length w) w2). intros x2 X2.
  destruct (fine_read x0 (1002 * SEC) X0) as (A0 & B0). destruct (fine_read x1 (1003 * SEC) X1) as (A1 & B1). destruct (fine_read x2 (1007 * SEC) X2) as (A2 & B2).
  split; cbn [app].
  - apply Forall_cons; [split; [exact I|split; [exact U|exact good_nx]]|]. apply Forall_cons; [exact A0|]. apply Forall_cons; [exact A1|]. apply Forall_cons; [split; exact I|]. apply Forall_cons; [exact A2|constructor].
  - apply Forall_cons; [split; [exact I|exact N]|]. apply Forall_cons; [exact B0|]. apply Forall_cons; [exact B1|]. apply Forall_cons; [split; exact I|]. apply Forall_cons; [exact B2|constructor].
Qed.
Example C126_applies :
  (forall x, 4 <= zlen (nx_sha x)) /\ cf_magic nx_ship = cf_magic nx_cfB /\ zlen (cf_magic nx_ship) = 4 /\
  (forall cf es, In (cf, es) [(nx_ship, nxA2); (nx_cfB, nxB2)] ->
     good_config cf /\ Forall (fun c => 0 <= c) (cf_user_agent cf) /\ Forall usable (cf_bootstrap cf) /\
     Forall good_event es /\ Forall ordinary_event es /\ forall n m, In (EvSend n m) es -> ~ In (cmd m) ["pong"; "verack"; "addr"]) /\
  is_open 0 nxA = true /\ is_open 0 nxB = true /\
  recv_of 0 (n_trace nxB) = queued_of 0 (n_trace nxA) /\ recv_of 0 (n_trace nxA) = queued_of 0 (n_trace nxB) /\
  wire_of 0 (n_trace nxA) = queued_of 0 (n_trace nxA) /\ wire_of 0 (n_trace nxB) = queued_of 0 (n_trace nxB) /\
  map item_name (talk 0 (n_trace nxA)) = [("said", "version"); ("heard", "version"); ("said", "verack"); ("heard", "verack")] /\
  map item_name (talk 0 (n_trace nxB)) = [("said", "version"); ("heard", "version"); ("said", "verack"); ("heard", "verack")] /\
  option_map (fun c => (c_version c, c_user_agent c, c_start_height c, c_external_ip c)) (get_conn 0 nxA) =
    Some (Some (VInt 70015), Some (VBytes (bs "/other/")), Some (VInt 77), Some (bs "10.0.0.1")).
Proof.
  split. { intro x. unfold nx_sha. rewrite zlen_ztake by lia. rewrite zlen_app. cbn. lia. }
  split; [reflexivity|]. split; [reflexivity|].
  split.
  { assert (forall l : list Z, forallb (fun c => 0 <=? c) l = true -> Forall (fun c => 0 <= c) l) as P by (intros l H; apply Forall_forall; intros x Hx; rewrite forallb_forall in H; specialize (H x Hx); lia).
    intros cf es [H|[H|[]]].
    - assert (cf = nx_ship) as -> by congruence. assert (es = nxA2) as -> by congruence. split; [exact nx_ship_good|]. split; [apply P; reflexivity|]. split; [constructor; [apply usable_of; [vm_compute; reflexivity|cbn; lia]|constructor]|].
      split; [exact (proj1 nx_eventsA)|]. split; [exact (proj2 nx_eventsA)|]. intros n m K. exfalso. unfold nxA2, nxA1 in K. cbn [app In] in K. repeat (destruct K as [K|K]; [discriminate K|]). destruct K.
    - assert (cf = nx_cfB) as -> by congruence. assert (es = nxB2) as -> by congruence. split.
      + split; [apply usable_of; [vm_compute; reflexivity|cbn; lia]|]. split; [cbn; lia|]. split; [cbn; lia|]. split; [|vm_compute; reflexivity].
        apply Forall_forall. intros x Hx. cbn in Hx. repeat (destruct Hx as [<-|Hx]; [lia|]). destruct Hx.
      + split; [apply P; reflexivity|]. split; [constructor|].
        split; [exact (proj1 nx_eventsB)|]. split; [exact (proj2 nx_eventsB)|]. intros n m K. exfalso. unfold nxB2, nxB1 in K. cbv zeta in K. cbn [app In] in K. repeat (destruct K as [K|K]; [discriminate K|]). destruct K. }
  repeat (split; [vm_compute; reflexivity|]). vm_compute. reflexivity.
Qed.

(** ** Assumptions *)

Print Assumptions C126_understood.
Print Assumptions C126_introduced.
Print Assumptions C126_handshake.
