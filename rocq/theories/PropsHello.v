(** Properties C103 and C104: the opening of connections, and the listener. *)
From Coq Require Import String ZArith List Lia Bool.
From Verif Require Import PyBase PyVal FormatModel MessagesModel FormatSpec FormatProofs MessagesProofs
  NodeModel NodeProofs NodeProofs2 NodeProofs3 NodeProofs4 NodeProofs5 NodeProofs6 NodeProofs7 NodeProofs9 PropsNode.
Import ListNotations.
Open Scope string_scope.
Open Scope list_scope.
Open Scope Z_scope.

(** ** C103: the version message comes first, and once *)

(** Surroundings: [usable] addresses (an IPv4 or full IPv6 text and a port),
    a clock between 1970 and 2106, 8-byte random nonces, a configuration whose
    numbers fit their fields, and an application that does not send version
    messages itself.  Then on every connection of every history the messages
    queued are our version message - to that peer's address, with our
    configuration - followed by messages of other types; unless the dialling
    failed: that connection is closed and no byte ever reached its socket. *)
Theorem C103_version_first_partial : forall sha256 py2 cf es i c,
  good_config cf -> Forall usable (cf_bootstrap cf) -> Forall good_event es ->
  get_conn i (history sha256 py2 cf es) = Some c ->
  let tr := n_trace (history sha256 py2 cf es) in
  (exists now nonce ip rest,
     msgs_of i tr = mk_message (type_of "Version")
       [ ("version", VInt (cf_protocol_version cf)); ("services", VInt 1); ("timestamp", py_time now);
         ("addr_recv", VObj "NetworkAddress" [("timestamp", py_time now); ("services", VInt 1); ("address", VStr (fst (c_address c))); ("port", VInt (snd (c_address c)))]);
         ("addr_from", VObj "NetworkAddress" [("timestamp", py_time now); ("services", VInt 1); ("address", VStr ip); ("port", VInt (snd (cf_address cf)))]);
         ("nonce", VBytes nonce); ("user_agent", VStr (cf_user_agent cf)); ("start_height", VInt (cf_height cf)); ("relay", VBool false) ] :: rest /\
     Forall (fun m => mt_command (m_type m) <> "version") rest)
  \/ (c_open c = false /\ wire_of i tr = []).
Proof.
  intros sha py2 cf es i c Hc Hb Hg G tr. destruct (f_conns _ _ (fine_history sha py2 cf Hc Hb es Hg) i c G) as (_ & _ & _ & [(m & r & M & (now & nonce & ip & ->) & R)|(O & W & _)]); [left|right; now split].
  exists now, nonce, ip, r. split; [exact M|exact R].
Qed.
(** In bytes: what has reached the socket, and what waits behind it, begins
    with the serialised version message. *)
Theorem C103_first_bytes_partial : forall sha256 py2 cf es i c,
  good_config cf -> Forall usable (cf_bootstrap cf) -> Forall good_event es ->
  get_conn i (history sha256 py2 cf es) = Some c -> c_open c = true ->
  exists m b rest, is_hello cf (c_address c) m /\ msg_binary sha256 m (cf_magic cf) = Ok b /\
    wire_of i (n_trace (history sha256 py2 cf es)) ++ c_send c = b ++ rest.
Proof.
  intros sha py2 cf es i c Hc Hb Hg G O. assert (Forall wf_event es) as W by (eapply Forall_impl; [|exact Hg]; intros e He; exact (proj1 He)).
  destruct (f_conns _ _ (fine_history sha py2 cf Hc Hb es Hg) i c G) as (_ & _ & _ & [(m & r & M & Hm & R)|(O' & _)]); [|congruence].
  assert (Forall (honest_action sha cf) (n_trace (history sha py2 cf es))) as Ha by (apply Forall_forall; intros [] Hx; try exact I; exact (C15_queued_are_messages sha py2 cf es _ _ _ W Hx)).
  destruct (first_bytes sha cf i _ Ha m r M) as (b & rest & E & Q). exists m, b, rest. split; [exact Hm|]. split; [exact E|]. rewrite <- Q. symmetry. exact (C15_outgoing_fifo sha py2 cf es i c W G).
Qed.
(** Without the hypothesis on addresses it fails: a peer dialled by host name
    stays registered and open although its version message was never made, and
    answers its peer's ping first. *)
Definition nx_host : addr := (bs "seed.example.org", 8333).
Theorem C103_hostname_refuted : let es := [EvAddPeer nx_host true nx_env; EvRead 0 (RData nx_ping) (2000 * SEC) nx_clock] in
  Forall wf_event es /\ is_open 0 (nx_hist es) = true /\
  map (fun m => mt_command (m_type m)) (msgs_of 0 (n_trace (nx_hist es))) = ["pong"].
Proof.
  cbv zeta. split; [|split; vm_compute; reflexivity]. constructor; [exact I|]. constructor; [|constructor]. cbn [wf_event]. apply all_bytes_wf. vm_compute. reflexivity.
Qed.
(** The configuration as shipped meets the hypotheses (nbc/coins/newbitcoin.py:
    seed 127.0.0.1:20303). *)
Definition nx_ship : config := mk_config nx_magic 70002 (bs "/nbc:0.0.3(newbitcoin)/") (bs "127.0.0.1", 0) true 16 125 [(bs "127.0.0.1", 20303)] 0.
Definition nx_day : list event :=
  [EvLoop (100 * SEC) (fun k => mk_attempt 0 k nx_env) 0; EvAccept nx_a (1000 * SEC) nx_env; EvRead 1 (RData nx_ping) (2000 * SEC) nx_clock;
   EvWrite 1 (STaken 1000) (2001 * SEC); EvAddPeer nx_b false (mk_conn_env false (1000 * SEC) [1;2;3;4;5;6;7;8])].
Lemma good_nx : good_env nx_env. Proof. split; [vm_compute; split; [discriminate|reflexivity]|reflexivity]. Qed.
Lemma usable_of a : match ip_binary (VStr (fst a)) with Ok _ => true | Raise _ => false end = true -> 0 <= snd a < 65536 -> usable a.
Proof. intros H P. split; [|exact P]. destruct (ip_binary (VStr (fst a))); [eauto|discriminate]. Qed.
Lemma nx_ship_good : good_config nx_ship.
Proof.
  split; [apply usable_of; [vm_compute; reflexivity|cbn; lia]|]. split; [cbn; lia|]. split; [cbn; lia|]. split; [|vm_compute; reflexivity].
  apply Forall_forall. intros x Hx. cbn in Hx. repeat (destruct Hx as [<-|Hx]; [lia|]). destruct Hx.
Qed.
Lemma nx_day_good : Forall good_event nx_day.
Proof.
  assert (usable nx_a) by (apply usable_of; [vm_compute; reflexivity|cbn; lia]). assert (usable nx_b) by (apply usable_of; [vm_compute; reflexivity|cbn; lia]).
  assert (wf_bytes nx_ping) by (apply all_bytes_wf; vm_compute; reflexivity). pose proof good_nx as G.
  apply Forall_cons; [split; [exact I|intro; exact G]|]. apply Forall_cons; [split; [exact I|now split]|]. apply Forall_cons; [split; [assumption|exact I]|].
  apply Forall_cons; [split; exact I|]. apply Forall_cons; [split; [exact I|split; [assumption|exact G]]|apply Forall_nil].
Qed.
Example C103_applies : good_config nx_ship /\ Forall usable (cf_bootstrap nx_ship) /\ Forall good_event nx_day /\
  let n := history nx_sha false nx_ship nx_day in
  map (fun i => map (fun m => mt_command (m_type m)) (msgs_of i (n_trace n))) [0; 1; 2]%nat = [["version"]; ["version"; "pong"]; []] /\
  map (fun i => option_map c_open (get_conn i n)) [0; 1; 2]%nat = [Some true; Some true; Some false] /\
  option_map c_address (get_conn 0 n) = Some (bs "127.0.0.1", 20303) /\ zlen (wire_of 1 (n_trace n)) > 100.
Proof.
  split; [exact nx_ship_good|]. split; [constructor; [apply usable_of; [vm_compute; reflexivity|cbn; lia]|constructor]|]. split; [exact nx_day_good|].
  repeat split; vm_compute; reflexivity.
Qed.

(** ** C104: the listener stays open *)

(** In the same surroundings the listening socket is never closed: accepting a
    connection cannot fail, and nothing else closes it. *)
Theorem C104_listening_partial : forall sha256 py2 cf es,
  good_config cf -> Forall usable (cf_bootstrap cf) -> Forall good_event es -> n_listener (history sha256 py2 cf es) = true.
Proof. intros sha py2 cf es Hc Hb Hg. exact (f_listener _ _ (fine_history sha py2 cf Hc Hb es Hg)). Qed.
(** So every later connection to a listening node is accepted. *)
Theorem C104_accepts_partial : forall sha256 py2 cf es a now e,
  good_config cf -> Forall usable (cf_bootstrap cf) -> Forall good_event es -> cf_listen cf = true ->
  exists c, get_conn (List.length (n_conns (history sha256 py2 cf es))) (step sha256 py2 cf (history sha256 py2 cf es) (EvAccept a now e)) = Some c /\
    c_address c = a /\ c_open c = true.
Proof.
  intros sha py2 cf es a now e Hc Hb Hg L. apply C20_never_refused_refuted; [eapply Forall_impl; [|exact Hg]; intros e0 He; exact (proj1 He)|exact L|exact (C104_listening_partial sha py2 cf es Hc Hb Hg)].
Qed.
(** All addresses the node has learned, and the address it believes it has,
    can be written in messages. *)
Theorem C104_addresses_partial : forall sha256 py2 cf es,
  good_config cf -> Forall usable (cf_bootstrap cf) -> Forall good_event es ->
  Forall (fun kv => usable (fst kv)) (n_book (history sha256 py2 cf es)) /\ exists b, ip_binary (VStr (external_ip (history sha256 py2 cf es))) = Ok b.
Proof. intros sha py2 cf es Hc Hb Hg. pose proof (fine_history sha py2 cf Hc Hb es Hg) as H. split; [exact (f_book _ _ H)|exact (fine_external _ _ H)]. Qed.
(** Otherwise the first incoming connection closes the listener: for a node
    whose own address is a host name or empty (all interfaces)... *)
Definition nx_named (s : string) : config := mk_config nx_magic 70001 (bs "/x/") (bs s, 8333) true 3 8 [] 0.
Theorem C104_own_address_refuted : forall s, In s [""; "localhost"; "::"] ->
  n_listener (history nx_sha false (nx_named s) []) = true /\
  n_listener (history nx_sha false (nx_named s) [EvAccept nx_a (1000 * SEC) nx_env]) = false.
Proof. intros s Hs. repeat (destruct Hs as [<-|Hs]; [split; vm_compute; reflexivity|]). destruct Hs. Qed.
(** ... and for every node once the clock reads 2^32 seconds or more. *)
Theorem C104_clock_refuted : n_listener (nx_hist [EvAccept nx_a (2 ^ 32 * SEC) (mk_conn_env true (2 ^ 32 * SEC) [1;2;3;4;5;6;7;8])]) = false.
Proof. vm_compute. reflexivity. Qed.
Example C104_applies : n_listener (history nx_sha false nx_ship nx_day) = true /\ List.length (n_conns (history nx_sha false nx_ship nx_day)) = 3%nat.
Proof. split; vm_compute; reflexivity. Qed.

(** ** Assumptions *)

Print Assumptions C103_version_first_partial.
Print Assumptions C103_first_bytes_partial.
Print Assumptions C103_hostname_refuted.
Print Assumptions C104_listening_partial.
Print Assumptions C104_accepts_partial.
Print Assumptions C104_addresses_partial.
Print Assumptions C104_own_address_refuted.
Print Assumptions C104_clock_refuted.
