(** Properties C113 to C117: where addresses and connections come from, and what
    closing a connection means. *)
From Coq Require Import String ZArith List Lia Bool.
From Verif Require Import PyBase PyVal FormatModel MessagesModel FormatSpec FormatProofs MessagesProofs
  NodeModel NodeProofs NodeProofs2 NodeProofs3 NodeProofs4 NodeProofs5 NodeProofs7 NodeProofs8 NodeProofs9 NodeProofs10 NodeProofs11 PropsNode PropsTalk.
Import ListNotations.
Open Scope string_scope.
Open Scope list_scope.
Open Scope Z_scope.

(** ** C113: where the addresses in the book come from *)

(** In every history each entry of the address book is one that a handled addr
    message contained - same address, port, timestamp and services - or the
    address of a connection on which a verack was handled, with the services of
    a version message handled on that connection, if any ([known],
    NodeProofs11.v). *)
Theorem C113_known : forall sha256 py2 cf es a ts sv,
  In (a, (ts, sv)) (n_book (history sha256 py2 cf es)) ->
  let tr := n_trace (history sha256 py2 cf es) in
  (exists s, sv = Some s /\ announced tr a ts s) \/ acknowledged tr a sv.
Proof. intros sha py2 cf es a ts sv H tr. exact (iv_book _ _ _ (history_inv_life sha py2 cf es) a (ts, sv) H). Qed.
Definition nx_met : list event :=
  [EvAccept nx_a (1000 * SEC) nx_env; EvRead 0 (RData (nx_version (bs "9.9.9.9") ++ nx_verack)) (2000 * SEC) nx_clock;
   EvRead 0 (RData (nx_addrs 1 2)) (2001 * SEC) nx_clock].
Example C113_example : List.length (n_book (nx_hist nx_met)) = 3%nat /\
  In nx_a (map fst (n_book (nx_hist nx_met))) /\ map (fun e => snd (snd e)) (n_book (nx_hist nx_met)) = [Some (VInt 1); Some (VInt 1); Some (VInt 1)].
Proof. vm_compute. intuition. Qed.

(** ** C114: a closed connection is silent *)

(** What can happen on the connection [i] of a program that has not closed it. *)
Definition activity (i : nat) (x : action) : Prop :=
  match x with
  | AConnect j _ _ | ARecv j _ | AMsg j _ | AInvalid j _ _ | AParseError j _ _ | APing j _ => j = i
  | AWire j b => j = i /\ b <> []
  | _ => False
  end.
Lemma connects_once cf es n t1 i a inc t2 : inv cf es n -> n_trace n = t1 ++ AConnect i a inc :: t2 -> ~ exists_conn i t1 /\ ~ exists_conn i t2.
Proof.
  intros V E. pose proof (iv_conns _ _ _ V) as C. assert (N : NoDup (map fst (connects (n_trace n)))).
  { rewrite C. generalize 0%nat as k. generalize (n_conns n) as l. induction l as [|c l IH]; intro k; cbn; constructor; [|apply IH].
    rewrite in_map_iff. intros ((j & x) & <- & H). apply in_combine_l in H. apply in_seq in H. cbn in H. lia. }
  rewrite E, connects_app, map_app in N. cbn [connects flat_map app map fst] in N. fold (connects t2) in N. apply NoDup_remove_2 in N. rewrite in_app_iff in N.
  split; intros (b & o & H); apply N; apply in_connects in H; [left|right]; apply in_map_iff; exists (i, (b, o)); auto.
Qed.
(** In every history, once a connection has been closed nothing more is received,
    handled or pinged on it, no byte of it is given to the network, and its
    number is not used again. *)
Theorem C114_silent : forall sha256 py2 cf es t1 i t2 x,
  n_trace (history sha256 py2 cf es) = t1 ++ AClose i :: t2 -> In x t2 -> ~ activity i x.
Proof.
  intros sha py2 cf es t1 i t2 x E H A. pose proof (history_inv_life sha py2 cf es) as V. pose proof (iv_lawful _ _ _ V) as L.
  apply in_split in H. destruct H as (u & v & ->).
  assert (E' : n_trace (history sha py2 cf es) = (t1 ++ AClose i :: u) ++ x :: v) by (rewrite E, <- app_assoc; reflexivity).
  pose proof (L _ _ _ E') as Lx. assert (In (AClose i) (t1 ++ AClose i :: u)) as Hin by (apply in_or_app; right; now left).
  pose proof (L _ _ _ E) as Lc. destruct Lc as (Lc & _).
  destruct x; cbn [activity lawful] in *; try contradiction; try (subst; destruct Lx as (_ & Lx); contradiction).
  - subst. destruct (connects_once cf es _ _ _ _ _ _ V E') as (N & _). apply N. destruct Lc as (b & o & Hb). exists b, o. apply in_or_app. now left.
  - destruct A as (-> & B). destruct Lx as (_ & Lx). destruct (Lx B) as (_ & X). contradiction.
Qed.
(** It does not come back: it is closed in the end, whatever happened since, and
    only those that were closed are. *)
Theorem C114_closed : forall sha256 py2 cf es i,
  let n := history sha256 py2 cf es in
  (exists a inc, In (AConnect i a inc) (n_trace n)) ->
  (In i (peers n) <-> ~ In (AClose i) (n_trace n)).
Proof.
  intros sha py2 cf es i n (a & inc & H). pose proof (history_inv_life sha py2 cf es) as V. fold n in V.
  apply (inv_conn cf es n _ _ _ V) in H. destruct H as (c & G & _). rewrite (iv_closed _ _ _ V), peers_in, is_open_get. split.
  - intros (c' & G' & O) (c2 & G2 & O2). congruence.
  - intro N. exists c. split; [exact G|]. destruct (c_open c) eqn:O; [reflexivity|]. exfalso. apply N. eauto.
Qed.
(** Connections are numbered in the order in which they are made and keep their
    address and direction for ever; nothing happens on a connection before. *)
Theorem C114_numbered : forall sha256 py2 cf es,
  let n := history sha256 py2 cf es in
  connects (n_trace n) = combine (seq 0 (List.length (n_conns n))) (map (fun c => (c_address c, c_incoming c)) (n_conns n)).
Proof. intros sha py2 cf es. exact (iv_conns _ _ _ (history_inv_life sha py2 cf es)). Qed.
Theorem C114_after_connect : forall sha256 py2 cf es t1 x t2 i,
  n_trace (history sha256 py2 cf es) = t1 ++ x :: t2 -> activity i x \/ x = AClose i ->
  (exists a inc, x = AConnect i a inc) \/ exists a inc, In (AConnect i a inc) t1.
Proof.
  intros sha py2 cf es t1 x t2 i E A. pose proof (iv_lawful _ _ _ (history_inv_life sha py2 cf es) _ _ _ E) as L.
  destruct A as [A| ->]; [|right; exact (proj1 L)].
  destruct x; cbn [activity lawful] in *; try contradiction; try (subst; right; exact (proj1 L)).
  - subst. left. eauto.
  - right. destruct A as (-> & _). exact (proj1 L).
Qed.
Definition nx_gone : list event := nx_met ++ [EvError 0; EvRead 0 (RData nx_ping) (2002 * SEC) nx_clock; EvWrite 0 (STaken 100) (2002 * SEC); EvSend 0 nx_own].
Example C114_example :
  (exists t1 t2, n_trace (nx_hist nx_gone) = t1 ++ AClose 0 :: t2 /\ In (ARecv 0 (nx_addrs 1 2)) t1 /\ List.length t2 = 1%nat) /\ peers (nx_hist nx_gone) = [] /\ peers (nx_hist nx_met) = [0%nat].
Proof.
  split; [|split; vm_compute; reflexivity]. remember (nx_addrs 1 2) as ad eqn:Ea. 
  assert (exists t1 x, n_trace (nx_hist nx_gone) = t1 ++ [AClose 0; x] /\ In (ARecv 0 ad) t1) as (t1 & x & E & H); [|exists t1, [x]; auto].
  subst ad. eexists (firstn (List.length (n_trace (nx_hist nx_gone)) - 2) (n_trace (nx_hist nx_gone))), (last (n_trace (nx_hist nx_gone)) (ARefuse nx_a)).
  split; [vm_compute; reflexivity|]. vm_compute. tauto.
Qed.

(** ** C115: where connections come from *)

(** Whenever a connection is made, it is an incoming one, of a listening node,
    that was accepted from that address; or it is dialled to a bootstrap
    address, to an address that the application gave to add_peer, or to one that
    was announced or acknowledged before, as in C113. *)
Theorem C115_reason : forall sha256 py2 cf es t1 i a inc t2,
  n_trace (history sha256 py2 cf es) = t1 ++ AConnect i a inc :: t2 ->
  if inc then cf_listen cf = true /\ exists now e, In (EvAccept a now e) es
  else In a (cf_bootstrap cf) \/ (exists force e, In (EvAddPeer a force e) es) \/
    (exists ts sv, announced t1 a ts sv) \/ exists sv, acknowledged t1 a sv.
Proof.
  intros sha py2 cf es t1 i a inc t2 E. pose proof (iv_lawful _ _ _ (history_inv_life sha py2 cf es) _ _ _ E) as L. cbn [lawful] in L. unfold reason in L.
  destruct inc; [exact L|]. destruct L as [L|[L|(e & [(sv & _ & L)|L])]]; eauto 6.
Qed.
(** A node that heard of two addresses dials them. *)
Definition nx_dial : list event := nx_met ++ [EvLoop (3000 * SEC) (fun _ => mk_attempt 0 0 nx_env) 0].
Example C115_example : map (fun p => snd (snd p)) (connects (n_trace (nx_hist nx_dial))) = [true; false; false] /\
  map (fun p => fst (snd p)) (connects (n_trace (nx_hist nx_dial))) = nx_a :: map fst (tl (n_book (nx_hist nx_met))).
Proof. vm_compute. auto. Qed.

(** ** C116: how often a node is told that a connection is closed *)

(** When the peer closes its end, asyncore's recv calls handle_close, and
    handle_read calls it again: the node is told twice. *)
Definition closings (i : nat) (tr : list action) : list action :=
  filter (fun x => match x with AClose j => Nat.eqb j i | _ => false end) tr.
Theorem C116_once_refuted : exists es, Forall wf_event es /\ closings 0 (n_trace (nx_hist es)) = [AClose 0; AClose 0].
Proof.
  exists [EvAccept nx_a (1000 * SEC) nx_env; EvRead 0 (RData []) (2000 * SEC) nx_clock]. split; [|vm_compute; reflexivity].
  repeat constructor.
Qed.
(** Otherwise - a failure to dial, an error, a timeout, a failure to send or
    remove_peer - it is told exactly once, and then the connection is closed; in
    every history (C114_closed) it is told at least once of a connection that is
    no longer there. *)
Theorem C116_once_partial : forall sha256 py2 cf es i,
  (forall e, In e es -> match e with EvRead _ (RData []) _ _ | EvPunish _ _ => False | _ => True end) ->
  let n := history sha256 py2 cf es in
  (exists a inc, In (AConnect i a inc) (n_trace n)) ->
  closings i (n_trace n) = if is_open i n then [] else [AClose i].
Proof.
  intros sha py2 cf es i T n X. pose proof (history_inv_life sha py2 cf es) as V. fold n in V. pose proof (iv_lawful _ _ _ V) as L.
  pose proof (C114_closed sha py2 cf es i X) as C. fold n in C. cbv zeta in C. rewrite peers_in in C.
  assert (Hn : forall tr, ~ In (AClose i) tr -> closings i tr = []).
  { intro tr. induction tr as [|y tr IH]; intro H; [reflexivity|]. cbn [closings filter]. fold (closings i tr). rewrite IH by (intro K; apply H; now right).
    destruct y; try reflexivity. destruct (Nat.eqb_spec i0 i) as [->|]; [|reflexivity]. exfalso. apply H. now left. }
  destruct (is_open i n) eqn:O.
  - apply Hn. apply C. reflexivity.
  - assert (In (AClose i) (n_trace n)) as H.
    { destruct X as (a & inc & H). apply (inv_conn cf es n _ _ _ V) in H. destruct H as (c & G & _). apply (iv_closed _ _ _ V). exists c. split; [exact G|].
      destruct (c_open c) eqn:Oc; [|reflexivity]. unfold is_open in O. rewrite G in O. congruence. }
    apply in_split in H. destruct H as (t1 & t2 & E). destruct (L _ _ _ E) as (_ & L1). destruct (L1 T) as (_ & N1).
    assert (N2 : ~ In (AClose i) t2).
    { intro H. apply in_split in H. destruct H as (u & v & ->).
      assert (E' : n_trace n = (t1 ++ AClose i :: u) ++ AClose i :: v) by (rewrite E, <- app_assoc; reflexivity).
      destruct (L _ _ _ E') as (_ & L2). destruct (L2 T) as (_ & N). apply N. apply in_or_app. right. now left. }
    rewrite E. unfold closings. rewrite filter_app. cbn [filter]. rewrite Nat.eqb_refl. fold (closings i t1) (closings i t2). now rewrite (Hn t1 N1), (Hn t2 N2).
Qed.
Example C116_example : closings 0 (n_trace (nx_hist nx_gone)) = [AClose 0] /\ is_open 0 (nx_hist nx_gone) = false /\
  (forall e, In e nx_gone -> match e with EvRead _ (RData []) _ _ | EvPunish _ _ => False | _ => True end).
Proof.
  split; [vm_compute; reflexivity|]. split; [vm_compute; reflexivity|]. intros e H. unfold nx_gone, nx_met in H. rewrite in_app_iff in H. cbn [In] in H.
  assert (A : forall i b now cl, b <> [] -> match EvRead i (RData b) now cl with EvRead _ (RData []) _ _ | EvPunish _ _ => False | _ => True end) by (intros i [|x b] now cl Hb; [congruence|exact I]).
  repeat match goal with K : _ \/ _ |- _ => destruct K as [K|K] end; try (destruct H; fail); subst e; try exact I; apply A; vm_compute; discriminate.
Qed.

(** ** C117: what is recorded of a peer that acknowledges us *)

(** The timestamp recorded is not the time at which the peer was last heard
    (connection.py:95-96 says "last time we heard from remote"), but the seconds
    since then: this peer was heard at 2000 s and is recorded with 0 s. *)
Theorem C117_time_refuted : exists es c, Forall wf_event es /\ get_conn 0 (nx_hist es) = Some c /\ c_verack c = true /\
  c_last_rx c = 2000 * SEC /\ n_book (nx_hist es) = [(c_address c, (py_time 0, c_services c))] /\ py_time 0 <> py_time (2000 * SEC).
Proof.
  set (es := [EvAccept nx_a (1000 * SEC) nx_env; EvRead 0 (RData (nx_version (bs "9.9.9.9") ++ nx_verack)) (2000 * SEC) nx_clock]).
  assert (exists c, get_conn 0 (nx_hist es) = Some c /\ c_verack c = true /\ c_last_rx c = 2000 * SEC /\ n_book (nx_hist es) = [(c_address c, (py_time 0, c_services c))]) as (c & H1 & H2 & H3 & H4).
  { eexists. split; [vm_compute; reflexivity|]. vm_compute. auto. }
  exists es, c. split.
  - assert (wf_bytes (nx_version (bs "9.9.9.9") ++ nx_verack)) by (apply all_bytes_wf; vm_compute; reflexivity).
    repeat (apply Forall_cons; [first [exact I|assumption]|]). apply Forall_nil.
  - repeat (split; [assumption|]). intro K. unfold py_time, SEC in K. assert (0 = 2000 * 2 ^ 22) as K2 by congruence. lia.
Qed.
(** Otherwise: whenever a verack arrives on an open connection and the book is
    not full, the peer's address is recorded, once, with the services it
    announced and the seconds since it was last heard - between its arrival at
    [now] and the reading of the clock. *)
Theorem C117_recorded_partial : forall sha256 py2 cf n i c b now clock m,
  get_conn i n = Some c -> c_open c = true -> c_recv c = [] ->
  is_frame b -> msg_parse sha256 b (cf_magic cf) = Ok m -> cmd m = "verack" -> zlen (n_book n) < 2500 ->
  let n' := step sha256 py2 cf n (EvRead i (RData b) now clock) in
  In (c_address c, (py_time (clock (List.length b - 1)%nat - now), c_services c)) (n_book n') /\
  (forall a e, a <> c_address c -> In (a, e) (n_book n') <-> In (a, e) (n_book n)) /\
  is_open i n' = true.
Proof.
  intros sha py2 cf n i c b now clock m G O R F P C L n'. unfold n'. rewrite (read_one sha py2 cf i b now clock n c m G O R F P). clear n'.
  assert (Nm : mt_name (m_type m) = "version_ack").
  { destruct (registry_names _ (parsed_type sha _ _ _ P)) as (_ & _ & _ & N4 & _). apply N4. exact C. }
  set (n1 := emit (AMsg i m) (delivered i b now n)).
  assert (B1 : n_book n1 = n_book n) by reflexivity.
  assert (G1 : exists c1, get_conn i n1 = Some c1 /\ c_address c1 = c_address c /\ c_services c1 = c_services c /\ c_open c1 = true /\ c_last_rx c1 = now).
  { unfold n1. rewrite get_emit. unfold delivered. match goal with |- context [get_conn i (emit ?a (set_n_rx ?z (upd i ?g n)))] => change (get_conn i (emit a (set_n_rx z (upd i g n)))) with (get_conn i (upd i g n)) end.
    rewrite get_upd, Nat.eqb_refl, G. cbn [option_map]. eexists. split; [reflexivity|]. auto. }
  destruct G1 as (c1 & G1 & A1 & S1 & O1 & X1). clearbody n1.
  unfold tryM, handle_message. cbv zeta. unfold cmd in C. rewrite C. change (String.eqb "verack" "version") with false. change (String.eqb "verack" "verack") with true. cbv iota.
  rewrite Nm. change (command sha py2 cf "version_ack" i m (clock (List.length b - 1)%nat)) with (Some (modM (record_peer i (clock (List.length b - 1)%nat)))). cbv iota.
  unfold bindM, modM. cbv beta iota. cbn [fst]. unfold record_peer. rewrite get_upd, Nat.eqb_refl, G1. cbn [option_map].
  change (n_book (upd i (set_c_verack true) n1)) with (n_book n1). rewrite B1. unfold MAX_ADDRESSES. rewrite (proj2 (Z.ltb_lt _ _) L). cbn [n_book set_n_book].
  change (c_address (set_c_verack true c1)) with (c_address c1). change (c_services (set_c_verack true c1)) with (c_services c1). change (c_last_rx (set_c_verack true c1)) with (c_last_rx c1).
  rewrite A1, S1, X1. set (v := (py_time _, _)).
  split; [|split].
  - clear. generalize (c_address c) as a. intro a. induction (n_book n) as [|(k & w) l IH]; cbn [book_set]; [now left|].
    destruct (addr_eqb k a) eqn:E; [apply addr_eqb_eq in E; subst k; now left|right; exact IH].
  - intros a e N. clear - N. induction (n_book n) as [|(k & w) l IH]; cbn [book_set].
    + cbn [In]. split; [intros [H|[]]; congruence|intros []].
    + destruct (addr_eqb k (c_address c)) eqn:E; cbn [In].
      * apply addr_eqb_eq in E. split; (intros [H|H]; [congruence|now right]).
      * rewrite IH. reflexivity.
  - unfold is_open. change (get_conn i (set_n_book (book_set (c_address c) v (n_book n)) (upd i (set_c_verack true) n1))) with (get_conn i (upd i (set_c_verack true) n1)). rewrite get_upd, Nat.eqb_refl, G1. exact O1.
Qed.
Example C117_applies : exists c m, get_conn 0 nx_one = Some c /\ c_open c = true /\ c_recv c = [] /\ is_frame nx_verack /\
  msg_parse nx_sha nx_verack nx_magic = Ok m /\ cmd m = "verack" /\ zlen (n_book nx_one) < 2500.
Proof. eexists. eexists. split; [vm_compute; reflexivity|]. vm_compute. repeat split; discriminate. Qed.

(** ** Assumptions *)

Print Assumptions C113_known.
Print Assumptions C114_silent.
Print Assumptions C114_closed.
Print Assumptions C114_numbered.
Print Assumptions C114_after_connect.
Print Assumptions C115_reason.
Print Assumptions C116_once_refuted.
Print Assumptions C116_once_partial.
Print Assumptions C117_time_refuted.
Print Assumptions C117_recorded_partial.
