(** C157: what a peer that falls silent does to the node that serves it.

    Modelled source: LoopModel.v (asyncore.loop over nbc/node/basenode.py and
    connection.py:105-120, 156-157). *)
From Coq Require Import String ZArith List Lia Bool.
From Verif Require Import PyBase PyVal FormatModel MessagesModel FormatSpec FormatProofs FormatProofs2 MessagesProofs
  NodeModel PollModel LoopModel NodeProofs NodeProofs2 NodeProofs3 NodeProofs4 NodeProofs5 NodeProofs6 NodeProofs7 NodeProofs8 NodeProofs9 NodeProofs10 NodeProofs11 NodeProofs12
  PropsNode PropsHello PropsTalk PropsLife PropsMeet PropsApart PropsDeliver PropsAlive PropsLoop.
Import ListNotations.
Open Scope string_scope.
Open Scope list_scope.
Open Scope Z_scope.

(** ** Specification *)
(** In the round nothing comes in on connection [i]. *)
Definition unheard (i : nat) (p : poll_env) : Prop := forall x ch now c, ~ In (EvRead i (RData (x :: ch)) now c) (po_answer p).
(** In the round nothing at all happens on the socket of connection [i]: nothing
    comes in, it takes nothing, it reports no error. *)
Definition stuck (i : nat) (p : poll_env) : Prop := forall e, In e (po_answer p) -> owner e <> Some i.

(** ** Proofs *)
Section Silent.
  Variable sha256 : bytes -> bytes.
  Variable py2 : bool.
  Variable cf : config.
  Variable i : nat.
  Notation step := (step sha256 py2 cf).
  Notation poll := (poll sha256 py2 cf).
  Notation loop := (loop sha256 py2 cf).

  Lemma fold_keeps (P : node -> Prop) es : (forall e n, In e es -> P n -> P (step n e)) -> forall n, P n -> P (fold_left step es n).
  Proof.
    induction es as [|e es IH]; intros H n Hn; [exact Hn|]. cbn [fold_left]. apply IH; [intros e' n' He'; apply H; now right|]. apply H; [now left|exact Hn].
  Qed.
  (** What the events of a round are. *)
  Lemma round_in p n e : nonces p -> In e (round_events sha256 py2 cf p n) ->
    e = EvLoop (po_now p) (po_envs p) (po_pick p) \/
    (exists k now now2 nonce, po_ask p k = (now, now2, nonce) /\ zlen nonce = 8 /\ e = EvReadable k now now2 nonce) \/
    In e (po_answer p) /\ match e with EvRead _ _ _ _ | EvWrite _ _ _ | EvError _ | EvAccept _ _ _ => True | _ => False end.
  Proof.
    intros L H. unfold round_events in H. cbv zeta in H. destruct H as [<-|H]; [now left|]. right. apply in_app_or in H. destruct H as [H|H].
    - left. unfold readies in H. apply in_map_iff in H. destruct H as (k & <- & _). specialize (L k). destruct (po_ask p k) as [[now now2] nonce] eqn:E. exists k, now, now2, nonce. auto.
    - right. destruct (bad_descriptor _ _); [destruct H|]. apply filter_In in H. destruct H as (H & R). split; [exact H|]. destruct e; try discriminate R; exact Logic.I.
  Qed.

  (** *** The time of the last reading *)
  Definition rx_is (r : Z) (n : node) : Prop := exists c, get_conn i n = Some c /\ c_last_rx c = r.
  Lemma rx_of r n : rx_is r n -> snd (timers i n) = r. Proof. intros (c & G & <-). unfold timers. now rewrite G. Qed.
  Lemma rx_step r n e : wf_event e -> (forall x ch now c, e <> EvRead i (RData (x :: ch)) now c) -> (forall now now2 nonce, e = EvReadable i now now2 nonce -> zlen nonce = 8) ->
    rx_is r n -> rx_is r (step n e).
  Proof.
    intros W H N (c & G & R). destruct (grow_step sha256 py2 cf n e W) as (_ & K). destruct (K i c G) as (c' & G' & _). exists c'. split; [exact G'|]. clear K.
    assert (snd (timers i n) = r) as T by (unfold timers; rewrite G; exact R). assert (c_last_rx c' = snd (timers i (step n e))) as -> by (unfold timers; now rewrite G').
    rewrite <- T. destruct (timed i e) eqn:Te; [|now rewrite (timers_untimed sha256 py2 cf i n e Te)].
    destruct (is_open i n) eqn:O.
    - destruct e; try discriminate Te; cbn [timed] in Te; apply Nat.eqb_eq in Te; subst i0.
      + pose proof O as O'. apply is_open_get in O'. destruct O' as (c1 & G1 & O1). destruct (timers_readable sha256 py2 cf i n now now2 nonce c1 G1 O1 (N _ _ _ eq_refl)) as (-> & _). unfold timers. rewrite G1. reflexivity.
      + rewrite (timers_read sha256 py2 cf i n _ _ _ O). destruct r0 as [[|x ch]|]; try reflexivity. now contradiction (H x ch now clock).
      + rewrite (timers_write sha256 py2 cf i n _ _ O). destruct r0; reflexivity.
    - destruct e; try discriminate Te; cbn [timed] in Te; apply Nat.eqb_eq in Te; subst i0; cbn [NodeModel.step]; now rewrite O.
  Qed.
  Lemma rx_round r p n : sound_round p -> unheard i p -> rx_is r n -> rx_is r (fst (poll p n)).
  Proof.
    intros S U R. pose proof (proj1 S) as L. rewrite (round_run sha256 py2 cf p n L). pose proof (round_wf sha256 py2 cf p n S) as W. rewrite Forall_forall in W.
    apply fold_keeps; [|exact R]. intros e m He. apply rx_step; [now apply W| |].
    - intros x ch now c ->. destruct (round_in p n _ L He) as [E|[(k & a & b & v & _ & _ & E)|(E & _)]]; [discriminate|discriminate|]. now apply U in E.
    - intros now now2 nonce ->. destruct (round_in p n _ L He) as [E|[(k & a & b & v & _ & V & E)|(_ & E)]]; [discriminate|congruence|destruct E].
  Qed.
  Lemma closed_round p n : sound_round p -> (exists c, get_conn i n = Some c) -> is_open i n = false -> is_open i (fst (poll p n)) = false.
  Proof.
    intros S (c & G) O. rewrite (round_run sha256 py2 cf p n (proj1 S)). destruct (grow_fold sha256 py2 cf _ (round_wf sha256 py2 cf p n S) n) as (_ & K).
    destruct (K i c G) as (c' & G' & _ & _ & O'). unfold is_open in *. rewrite G in O. rewrite G'. destruct (c_open c'); [rewrite O' in O by reflexivity; exact O|reflexivity].
  Qed.
  Lemma open_map n : is_open i n = true -> (0 <? map_len n) = true.
  Proof.
    intro O. apply Z.ltb_lt. unfold map_len. apply is_open_get in O. assert (In i (peers n)) as H by (apply in_peers; exact O). destruct (peers n) as [|x l]; [destruct H|]. rewrite zlen_cons. pose proof (zlen_nonneg l). destruct (n_listener n); lia.
  Qed.

  (** *** A connection on which nothing happens *)
  Definition held (r : Z) (n : node) : Prop := exists c, get_conn i n = Some c /\ c_open c = true /\ c_send c <> [] /\ c_last_rx c = r.
  Lemma held_loop r n now envs pick : held r n -> held r (step n (EvLoop now envs pick)).
  Proof.
    intros (c & G & O & S & R). destruct (after_beat sha256 py2 cf (mk_poll now envs pick (fun _ => (0, 0, [])) []) n i c G O) as (c' & G' & O' & S' & R' & _). cbn [po_now po_envs po_pick] in G'.
    exists c'. split; [exact G'|]. split; [exact O'|]. split; [now apply S'|congruence].
  Qed.
  Lemma held_other r n e : (forall a, elsewhere i a e) -> held r n -> held r (step n e).
  Proof. intros H (c & G & Q). exists c. split; [|exact Q]. exact (proj1 (C130_others sha256 py2 cf n e i c G (H _))). Qed.
  Lemma held_asked r n now now2 nonce : zlen nonce = 8 -> ~ (r <> 0 /\ now - r > 10800 * SEC) -> held r n -> held r (step n (EvReadable i now now2 nonce)).
  Proof.
    intros L D (c & G & O & S & R). destruct (timers_readable sha256 py2 cf i n now now2 nonce c G O L) as (T & Op & _).
    assert (close_due c now = false) as C. { destruct (close_due c now) eqn:C; [|reflexivity]. apply overdue_iff in C. unfold overdue in C. rewrite R in C. contradiction. }
    rewrite C in Op. cbn [negb] in Op. apply is_open_get in Op. destruct Op as (c' & G' & O'). exists c'. split; [exact G'|]. split; [exact O'|]. split.
    - assert (unsent i n = true) as U by (unfold unsent; rewrite G; apply Z.ltb_lt; destruct (c_send c) as [|x l]; [congruence|rewrite zlen_cons; pose proof (zlen_nonneg l); lia]).
      pose proof (unsent_step sha256 py2 cf i n (EvReadable i now now2 nonce) ltac:(discriminate) U) as U'. unfold unsent in U'. rewrite G' in U'. intro E. rewrite E in U'. discriminate.
    - unfold timers in T. rewrite G' in T. congruence.
  Qed.
  Lemma held_round r p n : nonces p -> stuck i p -> ~ (r <> 0 /\ asked_at p i - r > 10800 * SEC) -> held r n -> held r (fst (poll p n)).
  Proof.
    intros L St D H. rewrite (round_run sha256 py2 cf p n L). apply fold_keeps; [|exact H]. intros e m He. destruct (round_in p n e L He) as [->|[(k & now & now2 & nonce & E & N & ->)|(Hin & F)]].
    - apply held_loop.
    - destruct (Nat.eq_dec k i) as [->|X]; [apply held_asked; [exact N|]; unfold asked_at in D; rewrite E in D; exact D|]. apply held_other. intro a. cbn. now apply Nat.eqb_neq.
    - apply held_other. intro a. specialize (St e Hin). destruct e; try destruct F; cbn in *; try reflexivity; apply Nat.eqb_neq; congruence.
  Qed.
  Lemma held_overdue r p n : nonces p -> r <> 0 -> asked_at p i - r > 10800 * SEC -> held r n -> snd (poll p n) = BadDescriptor.
  Proof. intros L R D (c & G & O & S & E). apply (C153_unread_refuted sha256 py2 cf p n i c L G O S). unfold overdue. rewrite E. now split. Qed.
  Lemma held_open r n : held r n -> is_open i n = true. Proof. intros (c & G & O & _). unfold is_open. now rewrite G. Qed.
  Lemma held_loops r qs p n : Forall nonces (qs ++ [p]) -> Forall (stuck i) qs -> r <> 0 -> asked_at p i - r > 10800 * SEC -> held r n -> snd (loop (qs ++ [p]) n) = Stopped BadDescriptor.
  Proof.
    intros L St R D. revert n L St. induction qs as [|q qs IH]; intros n L St H; cbn [app LoopModel.loop]; rewrite (open_map n (held_open r n H)), orb_true_r; inversion L as [|? ? L1 L2]; subst.
    - pose proof (held_overdue r p n L1 R D H) as E. destruct (poll p n) as [n' e]. cbn [snd] in E. now subst e.
    - inversion St as [|? ? S1 S2]; subst. pose proof (proj2 (C153_exactly sha256 py2 cf q n L1)) as X. destruct (poll q n) as [n' e] eqn:E. cbn [snd] in X. destruct X as [-> | ->]; [|reflexivity].
      apply IH; [exact L2|exact S2|]. change n' with (fst (n', Returned)). rewrite <- E. apply held_round; [exact L1|exact S1| |exact H]. intros (_ & D'). pose proof (held_overdue r q n L1 R D' H) as Y. rewrite E in Y. discriminate Y.
  Qed.
End Silent.

(** A peer that is silent for three hours is let go: as soon as a round asks its
    connection more than three hours after the last time something came in, the
    connection is closed, whatever happened in between. *)
Theorem C157_let_go : forall sha256 py2 cf qs p n i c,
  Forall sound_round (qs ++ [p]) -> Forall (unheard i) qs ->
  get_conn i n = Some c -> overdue c (asked_at p i) ->
  snd (loop sha256 py2 cf qs n) = Serving ->
  is_open i (fst (loop sha256 py2 cf (qs ++ [p]) n)) = false.
Proof.
  intros sha py2 cf qs p n i c S U G D. assert (rx_is i (c_last_rx c) n) as R by (exists c; auto). unfold overdue in D. set (r := c_last_rx c) in *. clearbody r. clear c G. revert n R S U.
  induction qs as [|q qs IH]; intros n R S U; cbn [app loop]; inversion S as [|? ? S1 S2]; subst.
  - intros _. destruct (is_open i n) eqn:O.
    + rewrite (open_map i n O), orb_true_r. destruct R as (c & G & R). pose proof O as O'. unfold is_open in O'. rewrite G in O'.
      assert (is_open i (fst (poll sha py2 cf p n)) = false) as X by (apply (C153_tended sha py2 cf p n i c S1 G O'); unfold overdue; now rewrite R).
      destruct (poll sha py2 cf p n) as [n' []]; cbn [fst] in *; exact X.
    + destruct (py2 || _); [|exact O]. pose proof (closed_round sha py2 cf i p n S1 ltac:(destruct R as (c & G & _); now exists c) O) as X. destruct (poll sha py2 cf p n) as [n' []]; cbn [fst] in *; exact X.
  - inversion U as [|? ? U1 U2]; subst. destruct (py2 || _); [|discriminate]. pose proof (rx_round sha py2 cf i r q n S1 U1 R) as R'. destruct (poll sha py2 cf q n) as [n' []]; try discriminate. now apply IH.
Qed.

(** But if there is something the peer has not taken, the node is not rid of the
    peer, it comes to an end: the loop raises, and the node does not listen any
    more. *)
Theorem C157_taken_along_refuted : forall sha256 py2 cf qs p more n i c,
  Forall nonces (qs ++ [p]) -> Forall (stuck i) qs ->
  get_conn i n = Some c -> c_open c = true -> c_send c <> [] -> overdue c (asked_at p i) ->
  let last := loop sha256 py2 cf (qs ++ p :: more) n in
  snd last = Stopped BadDescriptor /\ n_listener (fst last) = false.
Proof.
  intros sha py2 cf qs p more n i c L St G O S D last. assert (snd (loop sha py2 cf (qs ++ [p]) n) = Stopped BadDescriptor) as E.
  { destruct D as (D0 & D1). apply (held_loops sha py2 cf i (c_last_rx c) qs p n L St D0 D1). exists c. auto. }
  destruct (C153_ends sha py2 cf (qs ++ [p]) more n) as (X & Y); [rewrite E; discriminate|]. rewrite <- app_assoc in X. cbn [app] in X. unfold last. rewrite X. now split.
Qed.

(** ** Examples *)
(** The first peer says something and takes what it is told; then it is silent.
    The second one is connected all the time; it is the one that the heartbeat
    draws. *)
Definition st_begin (took : list event) : list poll_env :=
  [lp_round 1000 [EvAccept nx_a (1000 * SEC) nx_env];
   lp_round 1001 (EvRead 0 (RData nx_ping) (1001 * SEC) nx_clock :: took);
   lp_round 1002 [EvAccept nx_b (1002 * SEC) nx_env]].
Definition st_round (now : Z) (took : bool) : poll_env :=
  mk_poll (now * SEC) (fun _ => mk_attempt 0 0 nx_env) 1 (fun _ => (now * SEC, now * SEC, repeat 1 8)) (if took then [EvWrite 0 (STaken 1000) (now * SEC)] else []).
Definition st_rounds (took : bool) : list poll_env := map (fun now => st_round now took) [2800; 4600; 6401; 8201; 10003].
Definition st_last (took : bool) : poll_env := st_round 11802 took.
Definition st_start (took : list event) : node := fst (loop nx_sha true nx_cf (st_begin took) (init_node nx_cf)).
Example C157_let_go_applies : let n := st_start [EvWrite 0 (STaken 1000) (1001 * SEC)] in let qs := st_rounds true in let p := st_last true in
  Forall sound_round (qs ++ [p]) /\ Forall (unheard 0) qs /\
  (exists c, get_conn 0 n = Some c /\ overdue c (asked_at p 0)) /\
  snd (loop nx_sha true nx_cf qs n) = Serving /\ is_open 0 (fst (loop nx_sha true nx_cf qs n)) = true /\
  snd (loop nx_sha true nx_cf (qs ++ [p]) n) = Serving /\ is_open 1 (fst (loop nx_sha true nx_cf (qs ++ [p]) n)) = true.
Proof.
  cbv zeta. split; [|split].
  - apply Forall_forall. intros p H. assert (exists now, p = st_round now true) as (now & ->). { cbn [app st_rounds map In] in H. repeat (destruct H as [<-|H]; [now eexists|]). destruct H. }
    split; [intro i; reflexivity|]. split; [constructor; [exact Logic.I|constructor]|]. intro i. cbn. lia.
  - apply Forall_forall. intros p H. unfold st_rounds in H. apply in_map_iff in H. destruct H as (now & <- & _). intros x ch t c [H|[]]. discriminate H.
  - split; [eexists; split; [vm_compute; reflexivity|unfold overdue; split; [vm_compute; discriminate|vm_compute; reflexivity]]|]. repeat (split; [vm_compute; reflexivity|]). vm_compute. reflexivity.
Qed.
Example C157_taken_along_applies : let n := st_start [] in let qs := st_rounds false in let p := st_last false in
  Forall nonces (qs ++ [p]) /\ Forall (stuck 0) qs /\
  (exists c, get_conn 0 n = Some c /\ c_open c = true /\ c_send c <> [] /\ overdue c (asked_at p 0)) /\
  snd (loop nx_sha true nx_cf qs n) = Serving /\ n_listener (fst (loop nx_sha true nx_cf qs n)) = true.
Proof.
  cbv zeta. split; [|split].
  - apply Forall_forall. intros p H. assert (exists now, p = st_round now false) as (now & ->). { cbn [app st_rounds map In] in H. repeat (destruct H as [<-|H]; [now eexists|]). destruct H. }
    intro i. reflexivity.
  - apply Forall_forall. intros p H. unfold st_rounds in H. apply in_map_iff in H. destruct H as (now & <- & _). intros e [].
  - split; [eexists; split; [vm_compute; reflexivity|split; [vm_compute; reflexivity|split; [vm_compute; discriminate|unfold overdue; split; [vm_compute; discriminate|vm_compute; reflexivity]]]]|]. split; vm_compute; reflexivity.
Qed.

(** ** Assumptions *)

Print Assumptions C157_let_go.
Print Assumptions C157_taken_along_refuted.
