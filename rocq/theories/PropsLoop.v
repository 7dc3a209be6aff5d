(** C153: a silent peer and the loop of the node.

    Modelled source: LoopModel.v (asyncore.loop over nbc/node/basenode.py and
    connection.py). *)
From Coq Require Import String ZArith List Lia Bool.
From Verif Require Import PyBase PyVal FormatModel MessagesModel FormatSpec FormatProofs FormatProofs2 MessagesProofs
  NodeModel PollModel LoopModel NodeProofs NodeProofs2 NodeProofs3 NodeProofs4 NodeProofs8 NodeProofs9
  PropsNode PropsApart PropsAlive.
Import ListNotations.
Open Scope string_scope.
Open Scope list_scope.
Open Scope Z_scope.

Lemma in_peers i n : In i (peers n) <-> exists c, get_conn i n = Some c /\ c_open c = true.
Proof.
  unfold peers. rewrite open_from_in. unfold get_conn. split.
  - intros (j & c & -> & H). exists c. exact H.
  - intros (c & H). exists i, c. split; [reflexivity|exact H].
Qed.

Section Rounds.
  Variable sha256 : bytes -> bytes.
  Variable py2 : bool.
  Variable cf : config.
  Notation step := (step sha256 py2 cf).
  Notation poll := (poll sha256 py2 cf).
  Notation ask := (ask sha256 cf).
  Notation ask_all := (ask_all sha256 cf).

  Lemma shut_other i j n : i <> j -> get_conn j (shut i n) = get_conn j n.
  Proof.
    intro D. unfold shut. destruct (get_conn i n) as [c|]; [|reflexivity]. unfold disconnected.
    assert (get_conn j (emit (AClose i) (upd i (set_c_open false) n)) = get_conn j n) as H by (rewrite get_emit, get_upd; apply Nat.eqb_neq in D; now rewrite D).
    destruct (book_mem _ _); exact H.
  Qed.
  Lemma shut_send i n : unsent i (shut i n) = unsent i n.
  Proof.
    unfold shut. destruct (get_conn i n) as [c|] eqn:G; [|reflexivity]. unfold disconnected.
    assert (unsent i (emit (AClose i) (upd i (set_c_open false) n)) = unsent i n) as H by (unfold unsent; rewrite get_emit, get_upd, Nat.eqb_refl, G; reflexivity).
    destruct (book_mem _ _); exact H.
  Qed.
  Lemma ping_nonempty nonce b : zlen nonce = 8 -> msg_binary sha256 (ping_message nonce) (cf_magic cf) = Ok b -> 0 < zlen b.
  Proof.
    intros L E. unfold msg_binary in E. destruct (fields_binary _ _) as [p|]; [|discriminate]. cbn [bind] in E. destruct (struct_pack _ _ _) as [l|]; [|discriminate]. cbn [bind] in E.
    assert (b = cf_magic cf ++ pad_command (bs "ping") ++ l ++ ztake 4 (sha256d sha256 p) ++ p) as -> by (change (Ok (cf_magic cf ++ pad_command (bs "ping") ++ l ++ ztake 4 (sha256d sha256 p) ++ p) = Ok b) in E; congruence).
    rewrite !zlen_app. assert (zlen (pad_command (bs "ping")) = 12) as -> by reflexivity. pose proof (zlen_nonneg (cf_magic cf)). pose proof (zlen_nonneg l). pose proof (zlen_nonneg (ztake 4 (sha256d sha256 p))). pose proof (zlen_nonneg p). lia.
  Qed.
  (** What [ask] answers and leaves. *)
  Lemma ask_spec q i n c now now2 nonce : q i = (now, now2, nonce) -> zlen nonce = 8 -> get_conn i n = Some c -> c_open c = true ->
    ask q i n = (step n (EvReadable i now now2 nonce), Ok (i, negb (close_due c now), (0 <? zlen (c_send c)) || ping_due c now)) /\
    is_open i (step n (EvReadable i now now2 nonce)) = negb (close_due c now) /\
    (forall j, j <> i -> get_conn j (step n (EvReadable i now now2 nonce)) = get_conn j n) /\
    unsent i (step n (EvReadable i now now2 nonce)) = (0 <? zlen (c_send c)) || ping_due c now.
  Proof.
    intros Q L G O. destruct (readable_effects sha256 py2 cf i now now2 nonce n c G O L) as (_ & B).
    destruct (readable_spec sha256 py2 cf i now now2 nonce n c G O L) as (b & E & Es). cbv zeta in Es.
    assert (readable sha256 cf i now now2 nonce n = (step n (EvReadable i now now2 nonce), Ok (negb (close_due c now)))) as R.
    { cbn [NodeModel.step]. assert (is_open i n = true) as -> by (apply is_open_get; eauto). unfold run.
      assert (new_message (type_of "Ping") [VBytes nonce] [] = Ok (ping_message nonce)) as Em.
      { change (type_of "Ping") with (mk_msg_type "Ping" "ping" "ping" [("nonce", FBytes 8)]). unfold new_message, construct. cbn. rewrite L. cbn. reflexivity. }
      unfold readable. unfold bindM at 1, getM at 1. cbv beta iota. unfold bindM at 5, getM at 1. rewrite G. cbv zeta.
      fold (ping_due c now). fold (close_due c now). unfold bindM, liftM. rewrite Em. unfold send_message, bindM, liftM. rewrite E. unfold modM, retM, handle_close, modM.
      destruct (ping_due c now), (close_due c now); reflexivity. }
    assert (unsent i (step n (EvReadable i now now2 nonce)) = (0 <? zlen (c_send c)) || ping_due c now) as U.
    { rewrite Es. assert (forall x, unsent i (if close_due c now then shut i x else x) = unsent i x) as -> by (intro; destruct (close_due c now); [apply shut_send|reflexivity]).
      destruct (ping_due c now); [|unfold unsent; rewrite G; now rewrite orb_false_r].
      assert (get_conn i (queue i (ping_message nonce) b n) = Some (set_c_send (c_send c ++ b) c)) as G1 by (unfold queue; rewrite G, get_emit, get_upd, Nat.eqb_refl, G; reflexivity).
      unfold pinged. rewrite G1. unfold unsent. rewrite get_emit, get_upd, Nat.eqb_refl, G1. cbn [option_map c_send set_c_last_ping set_c_send]. rewrite zlen_app, orb_true_r.
      apply Z.ltb_lt. pose proof (ping_nonempty nonce b L E). pose proof (zlen_nonneg (c_send c)). lia. }
    split; [|split; [exact B|split; [|exact U]]].
    - unfold LoopModel.ask. rewrite Q. unfold bindM at 1. rewrite R. unfold bindM, getM, retM. cbv beta iota. now rewrite U.
    - intros j D. rewrite Es. assert (forall x, get_conn j (if close_due c now then shut i x else x) = get_conn j x) as -> by (intro; destruct (close_due c now); [apply shut_other; congruence|reflexivity]).
      destruct (ping_due c now); [|reflexivity]. unfold pinged. destruct (get_conn i (queue i (ping_message nonce) b n)); [rewrite get_emit, get_upd|];
      (assert (Nat.eqb i j = false) as Ne by (apply Nat.eqb_neq; congruence); try rewrite Ne); unfold queue; rewrite G; rewrite get_emit, get_upd, Ne; reflexivity.
  Qed.
  Definition answer (q : nat -> Z * Z * bytes) (n : node) (i : nat) : nat * bool * bool :=
    match get_conn i n with
    | Some c => (i, negb (close_due c (fst (fst (q i)))), (0 <? zlen (c_send c)) || ping_due c (fst (fst (q i))))
    | None => (i, false, false)
    end.
  Definition readies (q : nat -> Z * Z * bytes) (l : list nat) : list event := map (fun i => let '(now, now2, nonce) := q i in EvReadable i now now2 nonce) l.
  Lemma ask_all_spec q l : (forall i, In i l -> zlen (snd (q i)) = 8) -> NoDup l -> forall n, (forall i, In i l -> is_open i n = true) ->
    let n2 := fold_left step (readies q l) n in
    ask_all q l n = (n2, Ok (map (answer q n) l)) /\
    (forall j, ~ In j l -> get_conn j n2 = get_conn j n) /\
    (forall i c, In i l -> get_conn i n = Some c -> is_open i n2 = negb (close_due c (fst (fst (q i)))) /\ unsent i n2 = (0 <? zlen (c_send c)) || ping_due c (fst (fst (q i)))).
  Proof.
    induction l as [|i r IH]; intros L N n O n2; unfold n2; [repeat split; contradiction|].
    destruct (q i) as [[now now2] nonce] eqn:Q. assert (zlen nonce = 8) as Ln by (specialize (L i (or_introl eq_refl)); now rewrite Q in L).
    pose proof (O i (or_introl eq_refl)) as Oi. apply is_open_get in Oi. destruct Oi as (c & G & Oc).
    destruct (ask_spec q i n c now now2 nonce Q Ln G Oc) as (A & B & F & U). apply NoDup_cons_iff in N. destruct N as (Ni & N).
    cbn [readies map fold_left]. rewrite Q. set (n1 := step n (EvReadable i now now2 nonce)) in *.
    assert (forall j, In j r -> get_conn j n1 = get_conn j n) as F' by (intros j Hj; apply F; intros ->; contradiction).
    assert (forall j, In j r -> is_open j n1 = true) as O1. { intros j Hj. unfold is_open. rewrite F' by exact Hj. exact (O j (or_intror Hj)). }
    destruct (IH (fun j Hj => L j (or_intror Hj)) N n1 O1) as (E1 & E2 & E3). fold (readies q r) in *. split; [|split].
    - cbn [LoopModel.ask_all]. unfold bindM at 1. rewrite A. unfold bindM. rewrite E1. unfold retM. f_equal. f_equal. f_equal.
      + unfold answer. rewrite G, Q. reflexivity.
      + apply map_ext_in. intros j Hj. unfold answer. now rewrite F'.
    - intros j Hj. cbn [In] in Hj. rewrite E2 by tauto. apply F. intros ->. tauto.
    - intros j c' [<-|Hj] G'.
      + assert (c' = c) as -> by congruence. unfold is_open, unsent. rewrite (E2 i Ni). fold (is_open i n1). fold (unsent i n1). rewrite B, U, Q. now split.
      + apply E3; [exact Hj|]. now rewrite F'.
  Qed.

  (** ** The heartbeat raises nothing *)
  Definition fine {A} (m : M A) : Prop := forall n, exists a, snd (m n) = Ok a.
  Lemma fine_ret {A} (a : A) : fine (retM a). Proof. intro n. exists a. reflexivity. Qed.
  Lemma fine_mod f : fine (modM f). Proof. intro n. exists tt. reflexivity. Qed.
  Lemma fine_bind {A B} (m : M A) (k : A -> M B) : fine m -> (forall a, fine (k a)) -> fine (bindM m k).
  Proof. intros H K n. unfold bindM. destruct (H n) as (a & E). destruct (m n) as [n' r]. cbn in E. rewrite E. apply K. Qed.
  Lemma fine_get {A} (k : node -> M A) : (forall n, fine (k n)) -> fine (bindM getM k).
  Proof. intros K n. unfold bindM, getM. apply K. Qed.
  Lemma fine_each {A} (l : list A) (f : A -> M unit) : (forall a, fine (f a)) -> fine (for_each l f).
  Proof. intro H. induction l as [|x r IH]; [apply fine_ret|]. cbn [for_each]. apply fine_bind; [apply H|intros _; exact IH]. Qed.
  Lemma fine_add_peer a force e : fine (add_peer sha256 cf a force e).
  Proof.
    unfold add_peer. apply fine_get. intro n. destruct (_ && _); [apply fine_ret|]. destruct (address_in_use cf a n); [apply fine_ret|].
    intro n0. unfold tryM. destruct (bindM _ _ n0) as [n' [b|x]]; [now exists b|now exists false].
  Qed.
  Lemma fine_any e : fine (add_any_peer sha256 cf e).
  Proof.
    unfold add_any_peer. apply fine_get. intro n. destruct (_ || _).
    - destruct (cf_bootstrap cf); [apply fine_ret|]. apply fine_bind; [apply fine_add_peer|intros _; apply fine_ret].
    - cbv zeta. destruct (find _ _) as [[a v]|]; [|apply fine_ret]. apply fine_bind; [apply fine_add_peer|intros _; apply fine_ret].
  Qed.
  Lemma getaddr_binary : exists b, msg_binary sha256 getaddr_message (cf_magic cf) = Ok b /\ 0 < zlen b.
  Proof.
    unfold msg_binary. change (mt_props (m_type getaddr_message)) with (@nil (string * ft)). cbn. eexists. split; [reflexivity|]. rewrite !zlen_app. cbn. pose proof (zlen_nonneg (cf_magic cf)). pose proof (zlen_nonneg (ztake 4 (sha256d sha256 []))). lia.
  Qed.
  Lemma fine_items now envs pick : fine (items sha256 cf now envs pick).
  Proof.
    unfold items. apply fine_get. intro n. destruct (_ >? _); [|apply fine_ret]. apply fine_bind; [apply fine_mod|]. intros _. unfold heartbeat. apply fine_get. intro n1.
    apply fine_bind; [apply fine_each; intro; apply fine_any|]. intros _. apply fine_get. intro n2. apply fine_bind; [|intros _; apply fine_each; intro; apply fine_mod].
    destruct (peers n1) as [|p ps]; [apply fine_ret|]. destruct (_ <? _); [|apply fine_ret].
    change (liftM (new_message (type_of "GetAddress") [] [])) with (@liftM message (Ok getaddr_message)).
    intro n3. unfold bindM at 1, liftM, send_message, bindM, liftM. destruct getaddr_binary as (b & -> & _). exists tt. reflexivity.
  Qed.

  (** ** How a round ends *)
  Definition looped (p : poll_env) (n : node) : node := step n (EvLoop (po_now p) (po_envs p) (po_pick p)).
  Definition nonces (p : poll_env) : Prop := forall i, zlen (snd (po_ask p i)) = 8.
  Lemma items_run p n : items sha256 cf (po_now p) (po_envs p) (po_pick p) n = (looped p n, Ok tt).
  Proof. destruct (fine_items (po_now p) (po_envs p) (po_pick p) n) as ([] & E). rewrite <- E. unfold looped. cbn [NodeModel.step]. unfold run. now destruct (items _ _ _ _ _ n). Qed.
  Lemma poll_spec p n : nonces p -> let n1 := looped p n in let n2 := fold_left step (readies (po_ask p) (peers n1)) n1 in
    let asked := map (answer (po_ask p) n1) (peers n1) in
    poll p n = (if bad_descriptor asked n2 then (n2, BadDescriptor)
                else (fold_left step (filter (reported asked (List.length (n_conns n2)) (n_listener n2)) (po_answer p)) n2, Returned)).
  Proof.
    intros L n1 n2 asked. unfold LoopModel.poll. rewrite items_run. fold n1.
    destruct (ask_all_spec (po_ask p) (peers n1) (fun i _ => L i) (peers_nodup n1) n1) as (E & _ & _).
    { intros i Hi. apply in_peers in Hi. destruct Hi as (c & G & O). unfold is_open. now rewrite G. }
    fold n2 in E. rewrite E. reflexivity.
  Qed.
  Lemma bad_iff p n : nonces p -> let n1 := looped p n in let n2 := fold_left step (readies (po_ask p) (peers n1)) n1 in
    bad_descriptor (map (answer (po_ask p) n1) (peers n1)) n2 = true <->
    exists i c, get_conn i n1 = Some c /\ c_open c = true /\ close_due c (fst (fst (po_ask p i))) = true /\ (c_send c <> [] \/ ping_due c (fst (fst (po_ask p i))) = true).
  Proof.
    intros L n1 n2. destruct (ask_all_spec (po_ask p) (peers n1) (fun i _ => L i) (peers_nodup n1) n1) as (_ & _ & E3).
    { intros i Hi. apply in_peers in Hi. destruct Hi as (c & G & O). unfold is_open. now rewrite G. }
    fold n2 in E3. unfold bad_descriptor. rewrite existsb_exists. split.
    - intros (x & Hx & B). apply in_map_iff in Hx. destruct Hx as (i & <- & Hi). pose proof Hi as Hi'. apply in_peers in Hi'. destruct Hi' as (c & G & O).
      unfold answer in B. rewrite G in B. cbv beta iota in B. rewrite (proj1 (E3 i c Hi G)) in B. apply andb_true_iff in B. destruct B as (B1 & B2). rewrite negb_involutive in B2. cbv beta iota in B1, B2. unfold bytes in *. rewrite B2 in B1. cbn [negb orb] in B1.
      exists i, c. repeat split; try assumption. apply orb_true_iff in B1. destruct B1 as [B1|B1]; [left; intro Z0; now rewrite Z0 in B1|now right].
    - intros (i & c & G & O & C & D). exists (answer (po_ask p) n1 i). assert (In i (peers n1)) as Hi by (apply in_peers; eauto). split; [now apply in_map|].
      unfold answer. rewrite G, (proj1 (E3 i c Hi G)). unfold bytes in *. rewrite C. cbn [negb orb andb]. rewrite andb_true_r. apply orb_true_iff. destruct D as [D|D]; [left|now right].
      destruct (c_send c); [congruence|reflexivity].
  Qed.
End Rounds.

(** A connection that is to be closed because the last thing heard on it was more
    than three hours ago. *)
Definition overdue (c : conn) (now : Z) : Prop := c_last_rx c <> 0 /\ now - c_last_rx c > 10800 * SEC.
(** A ping is sent: nothing was written for half an hour, no ping for five minutes. *)
Definition pinging (c : conn) (now : Z) : Prop := c_last_tx c <> 0 /\ now - c_last_tx c > 1800 * SEC /\ now - c_last_ping c > 300 * SEC.
Lemma overdue_iff c now : close_due c now = true <-> overdue c now.
Proof. unfold close_due, overdue. rewrite andb_true_iff, negb_true_iff, Z.eqb_neq. lia. Qed.
Lemma pinging_iff c now : ping_due c now = true <-> pinging c now.
Proof. unfold ping_due, pinging. rewrite !andb_true_iff, negb_true_iff, Z.eqb_neq. lia. Qed.
(** The time at which a round asks connection [i]. *)
Definition asked_at (p : poll_env) (i : nat) : Z := fst (fst (po_ask p i)).

(** Exactly when a round of the loop fails: when a connection that is to be
    closed has something unsent, or gets a ping in the same moment.  No other
    exception escapes. *)
Theorem C153_exactly : forall sha256 py2 cf p n, nonces p ->
  let n1 := step sha256 py2 cf n (EvLoop (po_now p) (po_envs p) (po_pick p)) in
  (snd (poll sha256 py2 cf p n) = BadDescriptor <->
   exists i c, get_conn i n1 = Some c /\ c_open c = true /\ overdue c (asked_at p i) /\ (c_send c <> [] \/ pinging c (asked_at p i))) /\
  (snd (poll sha256 py2 cf p n) = Returned \/ snd (poll sha256 py2 cf p n) = BadDescriptor).
Proof.
  intros sha py2 cf p n L n1. pose proof (bad_iff sha py2 cf p n L) as B. cbv zeta in B. fold n1 in B. rewrite (poll_spec sha py2 cf p n L). fold n1.
  destruct (bad_descriptor _ _); cbn [snd]; (split; [|auto]); split; try discriminate.
  - intros _. destruct (proj1 B eq_refl) as (i & c & G & O & C & D). exists i, c. rewrite overdue_iff, pinging_iff in *. tauto.
  - reflexivity.
  - intros (i & c & G & O & C & D). enough (false = true) by discriminate. apply B. exists i, c. rewrite overdue_iff, pinging_iff. tauto.
Qed.

(** If no open connection is overdue, the round returns. *)
Theorem C153_returns_partial : forall sha256 py2 cf p n, nonces p ->
  (forall i c, get_conn i n = Some c -> c_open c = true -> ~ overdue c (asked_at p i)) ->
  snd (poll sha256 py2 cf p n) = Returned.
Proof.
  intros sha py2 cf p n L H. destruct (C153_exactly sha py2 cf p n L) as (X & [R|R]); [exact R|]. exfalso. cbv zeta in X. apply X in R. clear X.
  destruct R as (i & c & G & O & (D0 & D1) & _). set (n1 := step sha py2 cf n (EvLoop (po_now p) (po_envs p) (po_pick p))) in *.
  assert (timers i n1 = timers i n) as T by (apply timers_untimed; reflexivity). unfold timers in T. rewrite G in T.
  destruct (grow_step sha py2 cf n (EvLoop (po_now p) (po_envs p) (po_pick p)) Logic.I) as (_ & K). fold n1 in K.
  destruct (get_conn i n) as [c0|] eqn:G0; [|apply D0; congruence].
  destruct (K i c0 G0) as (c1 & G1 & _ & _ & O1). assert (c1 = c) as -> by congruence.
  apply (H i c0 G0 (O1 O)). unfold overdue. assert (c_last_rx c = c_last_rx c0) as <- by congruence. now split.
Qed.

(** The node served by the rounds [ps] finds no open connection overdue. *)
Fixpoint calm (sha256 : bytes -> bytes) (py2 : bool) (cf : config) (ps : list poll_env) (n : node) : Prop :=
  match ps with
  | [] => True
  | p :: r => nonces p /\ (forall i c, get_conn i n = Some c -> c_open c = true -> ~ overdue c (asked_at p i)) /\ calm sha256 py2 cf r (fst (poll sha256 py2 cf p n))
  end.
(** Then the loop goes on, except that in Python 3 it ends when no socket is left. *)
Theorem C153_serves_partial : forall sha256 py2 cf ps n, calm sha256 py2 cf ps n ->
  snd (loop sha256 py2 cf ps n) = Serving \/
  py2 = false /\ snd (loop sha256 py2 cf ps n) = Stopped Returned /\ map_len (fst (loop sha256 py2 cf ps n)) = 0.
Proof.
  intros sha py2 cf ps. induction ps as [|p r IH]; intros n H; [now left|]. destruct H as (L & C & H). cbn [loop].
  destruct (py2 || (0 <? map_len n)) eqn:E.
  - pose proof (C153_returns_partial sha py2 cf p n L C) as R. destruct (poll sha py2 cf p n) as [n' e]. cbn [fst snd] in *. subst e. now apply IH.
  - right. apply orb_false_iff in E. destruct E as (-> & E). split; [reflexivity|]. split; [reflexivity|]. cbn [fst]. apply Z.ltb_ge in E. unfold map_len in *.
    change (peers (set_n_listener false n)) with (peers n). cbn [n_listener set_n_listener]. pose proof (zlen_nonneg (peers n)). destruct (n_listener n); lia.
Qed.

(** What the heartbeat leaves of a connection. *)
Lemma after_beat sha256 py2 cf p n i c : get_conn i n = Some c -> c_open c = true ->
  exists c', get_conn i (step sha256 py2 cf n (EvLoop (po_now p) (po_envs p) (po_pick p))) = Some c' /\ c_open c' = true /\
    (c_send c <> [] -> c_send c' <> []) /\ c_last_rx c' = c_last_rx c /\ c_last_tx c' = c_last_tx c /\ c_last_ping c' = c_last_ping c.
Proof.
  intros G O. destruct (C130_timer sha256 py2 cf n (po_now p) (po_envs p) (po_pick p) i c G) as (c' & l & G' & _ & H). exists c'. split; [exact G'|].
  destruct H as [(-> & _)|[(_ & -> & _)|(_ & m & b & _ & -> & _)]]; repeat split; try assumption; auto. cbn. destruct (c_send c); [congruence|discriminate].
Qed.
(** A peer that does not read what it is sent and falls silent ends the loop of the node. *)
Theorem C153_unread_refuted : forall sha256 py2 cf p n i c, nonces p -> get_conn i n = Some c -> c_open c = true ->
  c_send c <> [] -> overdue c (asked_at p i) -> snd (poll sha256 py2 cf p n) = BadDescriptor.
Proof.
  intros sha py2 cf p n i c L G O S D. apply (proj1 (C153_exactly sha py2 cf p n L)). destruct (after_beat sha py2 cf p n i c G O) as (c' & G' & O' & S' & R & _).
  exists i, c'. unfold overdue in *. rewrite R. auto 6.
Qed.
(** So does any pause of more than three hours, a computer put to sleep, if there
    is a connection on which something was heard and something was said. *)
Theorem C153_asleep_refuted : forall sha256 py2 cf p n i c, nonces p -> get_conn i n = Some c -> c_open c = true ->
  c_last_rx c <> 0 -> c_last_tx c <> 0 ->
  asked_at p i - Z.max (c_last_rx c) (Z.max (c_last_tx c) (c_last_ping c)) > 10800 * SEC ->
  snd (poll sha256 py2 cf p n) = BadDescriptor.
Proof.
  intros sha py2 cf p n i c L G O R0 T0 D. apply (proj1 (C153_exactly sha py2 cf p n L)). destruct (after_beat sha py2 cf p n i c G O) as (c' & G' & O' & _ & R & T & P).
  exists i, c'. unfold overdue, pinging. rewrite R, T, P. split; [exact G'|]. split; [exact O'|]. assert (SEC > 0) by (unfold SEC; lia). split; [split; [exact R0|lia]|]. right. repeat split; [exact T0|lia|lia].
Qed.

Definition fewer (n n' : node) : Prop := zlen (n_book n') <= zlen (n_book n).
Lemma fewer_any sha256 cf e : presR fewer (add_any_peer sha256 cf e).
Proof.
  apply presR_add_any; unfold fewer; intros; try lia.
  - unfold queue. destruct (get_conn i n); cbn; lia.
  - unfold shut. destruct (get_conn i n) as [c|]; [|lia]. unfold disconnected. destruct (book_mem _ _); [|cbn; lia]. unfold book_del. cbn [n_book set_n_book emit set_n_trace upd set_n_conns].
    clear. induction (n_book n) as [|kv l IH]; [cbn; lia|]. cbn [filter]. destruct (negb _); rewrite ?zlen_cons; lia.
  - unfold register. cbn. lia.
Qed.
(** The heartbeat asks the peer that is drawn for addresses. *)
Lemma beat_asks sha256 cf envs pick n i c : get_conn i n = Some c -> In i (peers n) -> nth (Nat.modulo pick (List.length (peers n))) (peers n) 0%nat = i -> zlen (n_book n) < 50 ->
  exists c', get_conn i (fst (heartbeat sha256 cf envs pick n)) = Some c' /\ c_send c' <> [].
Proof.
  intros G Hi Np Bk. assert (i < List.length (n_conns n))%nat as Li by (apply nth_error_Some; unfold get_conn in G; rewrite G; discriminate).
  unfold heartbeat. unfold bindM at 1, getM at 1. cbv beta iota zeta. pose proof (peers_nodup n) as ND. set (ps := peers n) in *. clearbody ps.
  match goal with |- context [for_each ?s ?f] => pose proof (for_F i s f (fun k m => F_add_any sha256 cf i (envs k) m) n Li) as H; assert (fewer n (fst (for_each s f n))) as Fw;
    [apply (presR_for fewer); [intro; unfold fewer; lia|unfold fewer; intros; lia|intro; apply fewer_any]|];
    assert (snd (for_each s f n) = Ok tt) as Ok1; [destruct (fine_each s f (fun k => fine_any sha256 cf (envs k)) n) as ([] & E); exact E|]; set (pre := for_each s f) in *; clearbody pre end.
  unfold bindM at 1. destruct (pre n) as (n1 & r). cbn [fst snd] in *. subst r. cbv beta iota. destruct H as (_ & H). destruct (H Li) as (H1 & _). assert (get_conn i n1 = Some c) as G1 by congruence.
  unfold bindM at 1, getM at 1. cbv beta iota. destruct ps as [|p ps'] eqn:Ep; [contradiction|]. rewrite <- Ep in *.
  assert (zlen (n_book n1) <? 50 = true) as -> by (apply Z.ltb_lt; unfold fewer in Fw; lia).
  assert (nth (Nat.modulo pick (List.length ps)) ps p = i) as ->. { rewrite <- Np. apply nth_indep. apply Nat.mod_upper_bound. rewrite Ep. discriminate. }
  destruct (getaddr_binary sha256 cf) as (b & Eb & Lb).
  unfold bindM at 1. change (liftM (new_message (type_of "GetAddress") [] [])) with (@liftM message (Ok getaddr_message)). unfold bindM at 1, liftM, send_message, bindM, liftM. rewrite Eb. unfold modM at 1. cbv beta iota.
  destruct (PropsApart.reduce_all i ps ND (queue i getaddr_message b n1) (set_c_send (c_send c ++ b) c)) as (R1 & _).
  { unfold queue. rewrite G1, get_emit, get_upd, Nat.eqb_refl, G1. reflexivity. }
  eexists. split; [exact R1|]. assert (c_send c ++ b <> []) as Ne. { destruct b; [cbn in Lb; lia|]. destruct (c_send c); discriminate. }
  destruct (existsb _ _); exact Ne.
Qed.
(** A peer whose process hangs: if the heartbeat draws it in the round in which it
    is overdue, as it must if it is the only one and few addresses are known, the
    loop ends. *)
Theorem C153_hung_refuted : forall sha256 py2 cf p n i c, nonces p -> get_conn i n = Some c -> c_open c = true -> overdue c (asked_at p i) ->
  po_now p - n_last_heartbeat n > 10 * SEC -> zlen (n_book n) < 50 ->
  nth (Nat.modulo (po_pick p) (List.length (peers n))) (peers n) 0%nat = i ->
  snd (poll sha256 py2 cf p n) = BadDescriptor.
Proof.
  intros sha py2 cf p n i c L G O D Hb Bk Np. apply (proj1 (C153_exactly sha py2 cf p n L)). destruct (after_beat sha py2 cf p n i c G O) as (c' & G' & O' & _ & R & _).
  exists i, c'. split; [exact G'|]. split; [exact O'|]. split; [unfold overdue in *; now rewrite R|]. left. rewrite items_step in G'. assert (po_now p - n_last_heartbeat n >? 10 * SEC = true) as E by (apply Z.gtb_lt; lia). rewrite E in G'.
  destruct (beat_asks sha cf (po_envs p) (po_pick p) (beat (po_now p) n) i c G) as (c2 & G2 & S2); [apply in_peers; eauto|exact Np|exact Bk|]. congruence.
Qed.

(** The loop ends for good: the listening socket is closed, and nothing that
    happens afterwards reaches the other connections. *)
Theorem C153_ends : forall sha256 py2 cf ps more n, snd (loop sha256 py2 cf ps n) <> Serving ->
  loop sha256 py2 cf (ps ++ more) n = loop sha256 py2 cf ps n /\ n_listener (fst (loop sha256 py2 cf ps n)) = false.
Proof.
  intros sha py2 cf ps more. induction ps as [|p r IH]; intros n H; [now contradiction H|]. cbn [app loop] in *.
  destruct (py2 || (0 <? map_len n)); [|now split]. destruct (poll sha py2 cf p n) as [n' []]; [|now split|now split]. now apply IH.
Qed.

(** The events of a round. *)
Definition round_events (sha256 : bytes -> bytes) (py2 : bool) (cf : config) (p : poll_env) (n : node) : list event :=
  let e := EvLoop (po_now p) (po_envs p) (po_pick p) in
  let n1 := step sha256 py2 cf n e in
  let asks := readies (po_ask p) (peers n1) in
  let n2 := fold_left (step sha256 py2 cf) asks n1 in
  e :: asks ++ (if bad_descriptor (map (answer (po_ask p) n1) (peers n1)) n2 then [] else
    filter (reported (map (answer (po_ask p) n1) (peers n1)) (List.length (n_conns n2)) (n_listener n2)) (po_answer p)).
(** The times asked for do not run backwards; sockets give bytes. *)
Definition sound_round (p : poll_env) : Prop := nonces p /\ Forall wf_event (po_answer p) /\ forall i, fst (fst (po_ask p i)) <= snd (fst (po_ask p i)).
Lemma round_run sha256 py2 cf p n : nonces p -> fst (poll sha256 py2 cf p n) = fold_left (step sha256 py2 cf) (round_events sha256 py2 cf p n) n.
Proof.
  intro L. rewrite (poll_spec sha256 py2 cf p n L). unfold round_events. cbv zeta. cbn [fold_left]. rewrite fold_left_app. fold (looped sha256 py2 cf p n).
  destruct (bad_descriptor _ _); reflexivity.
Qed.
Lemma round_wf sha256 py2 cf p n : sound_round p -> Forall wf_event (round_events sha256 py2 cf p n).
Proof.
  intros (L & W & T). unfold round_events. cbv zeta. constructor; [exact Logic.I|]. apply Forall_app. split.
  - unfold readies. apply Forall_forall. intros e He. apply in_map_iff in He. destruct He as (i & <- & _). specialize (T i). destruct (po_ask p i) as [[now now2] nonce]. exact T.
  - destruct (bad_descriptor _ _); [constructor|]. apply Forall_forall. intros e He. apply filter_In in He. rewrite Forall_forall in W. now apply W.
Qed.
(** Whatever the loop does is a history: what is proved of histories holds of
    every node that is served, up to the closing of its listening socket when
    the loop ends. *)
Theorem C153_history : forall sha256 py2 cf ps, Forall sound_round ps ->
  exists es, Forall wf_event es /\
    (let n := fst (loop sha256 py2 cf ps (init_node cf)) in
     let h := history sha256 py2 cf es in
     match snd (loop sha256 py2 cf ps (init_node cf)) with Serving => n = h | Stopped _ => n = set_n_listener false h end).
Proof.
  intros sha py2 cf ps F.
  assert (forall n, exists es, Forall wf_event es /\ match snd (loop sha py2 cf ps n) with
    | Serving => fst (loop sha py2 cf ps n) = fold_left (step sha py2 cf) es n
    | Stopped _ => fst (loop sha py2 cf ps n) = set_n_listener false (fold_left (step sha py2 cf) es n) end) as H; [|exact (H (init_node cf))].
  induction F as [|p r Hp _ IH]; intro n; [exists []; split; [constructor|reflexivity]|]. cbn [loop].
  destruct (py2 || (0 <? map_len n)); [|exists []; split; [constructor|reflexivity]].
  pose proof (round_run sha py2 cf p n (proj1 Hp)) as E. pose proof (round_wf sha py2 cf p n Hp) as W.
  destruct (poll sha py2 cf p n) as [n' e]. cbn [fst] in E. destruct e; cbn [snd fst].
  - destruct (IH n') as (es & We & H). exists (round_events sha py2 cf p n ++ es). split; [apply Forall_app; now split|]. rewrite fold_left_app, <- E. exact H.
  - exists (round_events sha py2 cf p n). split; [exact W|]. now rewrite E.
  - exists (round_events sha py2 cf p n). split; [exact W|]. now rewrite E.
Qed.
Lemma grow_fold sha256 py2 cf es : Forall wf_event es -> forall n, grow n (fold_left (step sha256 py2 cf) es n).
Proof. induction 1 as [|e es W _ IH]; intro n; [apply grow_refl|]. cbn [fold_left]. eapply grow_trans; [apply (grow_step sha256 py2 cf n e W)|apply IH]. Qed.
(** Every round asks every connection: one that is overdue does not survive a round. *)
Theorem C153_tended : forall sha256 py2 cf p n i c, sound_round p -> get_conn i n = Some c -> c_open c = true ->
  overdue c (asked_at p i) -> is_open i (fst (poll sha256 py2 cf p n)) = false.
Proof.
  intros sha py2 cf p n i c S G O D. pose proof (proj1 S) as L. destruct (after_beat sha py2 cf p n i c G O) as (c' & G' & O' & _ & R & _).
  rewrite (round_run sha py2 cf p n L). unfold round_events. cbv zeta. cbn [fold_left]. rewrite fold_left_app. set (n1 := step sha py2 cf n _) in *.
  destruct (ask_all_spec sha py2 cf (po_ask p) (peers n1) (fun j _ => L j) (peers_nodup n1) n1) as (_ & _ & E3).
  { intros j Hj. apply in_peers in Hj. destruct Hj as (cj & Gj & Oj). unfold is_open. now rewrite Gj. }
  assert (In i (peers n1)) as Hi by (apply in_peers; eauto). specialize (E3 i c' Hi G'). apply proj1 in E3. assert (overdue c' (asked_at p i)) as D' by (unfold overdue in *; now rewrite R). apply overdue_iff in D'. unfold asked_at in D'. unfold bytes in *. rewrite D' in E3. cbn [negb] in E3.
  set (n2 := fold_left _ (readies _ _) n1) in *.
  match goal with |- is_open i (fold_left _ ?l n2) = false => assert (grow n2 (fold_left (step sha py2 cf) l n2)) as (_ & K) end.
  { apply grow_fold. destruct (bad_descriptor _ _); [constructor|]. apply Forall_forall. intros e He. apply filter_In in He. destruct S as (_ & W & _). rewrite Forall_forall in W. now apply W. }
  unfold is_open in *. destruct (get_conn i n2) as [c2|] eqn:G2.
  - destruct (K i c2 G2) as (c3 & -> & _ & _ & O3). destruct (c_open c3); [rewrite O3 in E3 by reflexivity; discriminate|reflexivity].
  - exfalso. pose proof (grow_fold sha py2 cf (readies (po_ask p) (peers n1))) as Gr.
    assert (Forall wf_event (readies (po_ask p) (peers n1))) as W. { unfold readies. apply Forall_forall. intros e He. apply in_map_iff in He. destruct He as (j & <- & _). destruct S as (_ & _ & T). specialize (T j). destruct (po_ask p j) as [[now now2] nonce]. exact T. }
    destruct (Gr W n1) as (_ & Q). fold n2 in Q. destruct (Q i c' G') as (c3 & X & _). congruence.
Qed.

(** ** Only what is unsent is written *)
Section Keep.
  Variable sha256 : bytes -> bytes.
  Variable py2 : bool.
  Variable cf : config.
  Variable i : nat.
  Definition Us (n n' : node) : Prop := unsent i n = true -> unsent i n' = true.
  Lemma Us_refl n : Us n n. Proof. now intro. Qed.
  Lemma Us_trans a b c : Us a b -> Us b c -> Us a c. Proof. unfold Us. auto. Qed.
  Lemma Us_upd k f n : (forall c, zlen (c_send c) <= zlen (c_send (f c))) -> Us n (upd k f n).
  Proof. intros H. unfold Us, unsent. rewrite get_upd. destruct (Nat.eqb k i); [|auto]. destruct (get_conn i n) as [c|]; [|auto]. cbn [option_map]. specialize (H c). rewrite !Z.ltb_lt. lia. Qed.
  Lemma Us_other k f n : k <> i -> Us n (upd k f n).
  Proof. intro H. unfold Us, unsent. rewrite get_upd. apply Nat.eqb_neq in H. rewrite H. auto. Qed.
  Lemma Us_same n n' : n_conns n' = n_conns n -> Us n n'. Proof. intro H. unfold Us, unsent, get_conn. now rewrite H. Qed.
  Lemma Us_emit a n : Us n (emit a n). Proof. now apply Us_same. Qed.
  Lemma Us_queue k m b n : Us n (queue k m b n).
  Proof.
    unfold queue. destruct (get_conn k n) as [c|] eqn:G; [|apply Us_refl]. eapply Us_trans; [|apply Us_emit]. unfold Us, unsent. rewrite get_upd. destruct (Nat.eqb_spec k i) as [->|]; [|auto].
    rewrite G. cbn [option_map c_send set_c_send]. rewrite zlen_app, !Z.ltb_lt. pose proof (zlen_nonneg b). lia.
  Qed.
  Lemma Us_shut k n : Us n (shut k n).
  Proof.
    unfold shut. destruct (get_conn k n) as [c|]; [|apply Us_refl]. unfold disconnected. eapply Us_trans; [apply (Us_upd k (set_c_open false) n); intro; cbn; lia|].
    eapply Us_trans; [apply (Us_emit (AClose k))|]. destruct (book_mem _ _); now apply Us_same.
  Qed.
  Lemma Us_register a inc n : Us n (register a inc n).
  Proof.
    unfold Us, unsent. rewrite get_register. destruct (Nat.eqb_spec i (List.length (n_conns n))) as [->|]; [|auto].
    assert (get_conn (List.length (n_conns n)) n = None) as -> by (apply nth_error_None; lia). discriminate.
  Qed.
  Lemma Us_add k n : Us n (add_banscore k n). Proof. unfold add_banscore. destruct (get_conn k n); [apply Us_upd; intro; cbn; lia|apply Us_refl]. Qed.
  Lemma Us_reduce k n : Us n (reduce_banscore k n). Proof. unfold reduce_banscore. destruct (get_conn k n); [apply Us_upd; intro; cbn; lia|apply Us_refl]. Qed.
  Lemma Us_ext n : Us n (check_external_ip n). Proof. unfold check_external_ip. destruct (count_votes _ _ _); now apply Us_same. Qed.
  Lemma Us_info n k f : (forall c, core (f c) = core c) -> Us n (upd k f n).
  Proof. intro H. apply Us_upd. intro c. specialize (H c). unfold core in H. assert (c_send (f c) = c_send c) as -> by congruence. lia. Qed.
  Lemma Us_record n k now : Us n (record_peer k now n).
  Proof. unfold record_peer. destruct (get_conn k n); [|apply Us_refl]. destruct (_ <? _); now apply Us_same. Qed.
  Lemma Us_frame n k c len : Us n (take_frame sha256 cf k len c n).
  Proof. unfold take_frame. eapply Us_trans; [apply (Us_upd k (set_c_recv (zdrop len (c_recv c))) n); intro; cbn; lia|apply Us_emit]. Qed.
  Hint Resolve Us_refl Us_trans Us_emit Us_queue Us_shut Us_register Us_add Us_reduce Us_ext Us_info Us_record Us_frame : us.
  Ltac us := intros; first [now apply Us_same | eauto with us].
  Lemma Us_send k m : presR Us (send_message sha256 cf k m). Proof. apply presR_send; us. Qed.
  Notation step := (step sha256 py2 cf).
  Lemma unsent_step n e : (forall r now, e <> EvWrite i r now) -> Us n (step n e).
  Proof.
    intro H. destruct e; cbn [NodeModel.step] in *; unfold run; try (destruct (is_open i0 n); [|apply Us_refl]).
    - apply (presR_items sha256 cf Us); us.
    - unfold readable, bindM at 1, getM. cbv beta iota. destruct (get_conn i0 n) as [c|]; [|apply Us_refl]. cbv zeta.
      match goal with |- Us n (fst (?m n)) => assert (presR Us m) as X; [|apply X] end.
      apply presR_bind; [exact Us_trans| |].
      + destruct (_ && _); [|apply presR_ret; exact Us_refl]. apply presR_bind; [exact Us_trans|apply presR_lift; exact Us_refl|]. intro m. apply presR_bind; [exact Us_trans|apply Us_send|]. intros _.
        apply presR_mod. intro n0. unfold pinged. destruct (get_conn i0 n0); [|apply Us_refl]. eapply Us_trans; [apply (Us_upd i0 (set_c_last_ping now2) n0); intro; cbn; lia|apply Us_emit].
      + intros _. destruct (_ && _); [|apply presR_ret; exact Us_refl]. apply presR_bind; [exact Us_trans|apply presR_close; us|]. intros _. apply presR_ret; exact Us_refl.
    - destruct r as [[|x chunk]|]; cbn [handle_read].
      + match goal with |- Us n (fst (?m n)) => assert (presR Us m) as X; [|apply X] end. apply presR_bind; [exact Us_trans|apply presR_close; us|]. intros _. apply presR_close; us.
      + unfold bindM at 1, modM at 1. cbv beta iota. unfold bindM, getM. cbv beta iota.
        assert (Us n (received i0 (x :: chunk) now n)) as X. { unfold received. destruct (get_conn i0 n) as [c|]; [|apply Us_refl]. eapply Us_trans; [apply Us_upd|now apply Us_same]. intro; cbn; lia. }
        destruct (get_conn i0 (received i0 (x :: chunk) now n)) as [c|]; [|exact X]. eapply Us_trans; [exact X|apply read_loop_R; us].
      + match goal with |- Us n (fst (?m n)) => assert (presR Us m) as X; [|apply X] end. apply presR_close; us.
    - assert (i0 <> i) as D by (intros ->; now apply (H r now)).
      assert (forall k n, Us n (wrote i0 k now n)) as X. { intros k n0. unfold wrote. destruct (get_conn i0 n0); [|apply Us_refl]. eapply Us_trans; [apply Us_other; exact D|]. now apply Us_same. }
      destruct r; cbn [handle_write]; unfold handle_close, bindM, modM; cbn [fst].
      + apply X.
      + eapply Us_trans; [apply Us_shut|apply X].
      + apply Us_shut.
    - apply Us_shut.
    - destruct (n_listener n); [|apply Us_refl]. apply (presR_accept sha256 cf Us); us.
    - apply (presR_add_peer sha256 cf Us); us.
    - apply (presR_remove Us); us.
    - apply (presR_punish Us); us.
    - apply Us_send.
  Qed.
  Lemma unsent_fold es : (forall r now, ~ In (EvWrite i r now) es) -> forall n, Us n (fold_left step es n).
  Proof.
    induction es as [|e es IH]; intros H n; [apply Us_refl|]. cbn [fold_left]. eapply Us_trans; [|apply IH; intros r now X; apply (H r now); now right].
    apply unsent_step. intros r now ->. apply (H r now). now left.
  Qed.
End Keep.
Lemma write_after_asks (pre suf es1 es2 : list event) x : (forall e, In e pre -> e <> x) -> pre ++ suf = es1 ++ x :: es2 -> exists mid, es1 = pre ++ mid /\ suf = mid ++ x :: es2.
Proof.
  revert es1. induction pre as [|e pre IH]; intros es1 H E; [now exists es1|]. destruct es1 as [|y es1]; cbn [app] in E.
  - exfalso. apply (H e (or_introl eq_refl)). congruence.
  - assert (e = y) as -> by congruence. destruct (IH es1 (fun z Hz => H z (or_intror Hz)) ltac:(congruence)) as (mid & -> & ->). now exists mid.
Qed.
(** The first time that a round writes to a connection there was before, if that
    is still open, there is something to write. *)
Theorem C153_writes : forall sha256 py2 cf p n es1 es2 i r now, sound_round p ->
  round_events sha256 py2 cf p n = es1 ++ EvWrite i r now :: es2 -> (forall r' now', ~ In (EvWrite i r' now') es1) ->
  is_open i n = true -> is_open i (fold_left (step sha256 py2 cf) es1 n) = true ->
  writable i (fold_left (step sha256 py2 cf) es1 n) = true.
Proof.
  intros sha py2 cf p n es1 es2 i r now S E F O O'. pose proof (proj1 S) as L. unfold round_events in E. cbv zeta in E. set (e := EvLoop (po_now p) (po_envs p) (po_pick p)) in *. set (n1 := step sha py2 cf n e) in *.
  set (asks := readies (po_ask p) (peers n1)) in *. set (n2 := fold_left (step sha py2 cf) asks n1) in *.
  change (e :: asks ++ ?x) with ((e :: asks) ++ x) in E. apply write_after_asks in E.
  2:{ intros x [<-|Hx]; [discriminate|]. unfold asks, readies in Hx. apply in_map_iff in Hx. destruct Hx as (j & <- & _). destruct (po_ask p j) as [[? ?] ?]. discriminate. }
  destruct E as (mid & -> & E). cbn [app fold_left] in O' |- *. rewrite fold_left_app in *. fold n1 in O' |- *. fold n2 in O' |- *.
  assert (unsent i (fold_left (step sha py2 cf) mid n2) = true) as U.
  { apply unsent_fold; [intros r' now' X; apply (F r' now'); apply in_or_app; now right|].
    destruct (bad_descriptor _ _); [destruct mid; discriminate|].
    assert (In (EvWrite i r now) (mid ++ EvWrite i r now :: es2)) as X by (apply in_or_app; right; now left). rewrite <- E in X. apply filter_In in X. destruct X as (_ & X). cbn [reported] in X.
    destruct (ask_all_spec sha py2 cf (po_ask p) (peers n1) (fun j _ => L j) (peers_nodup n1) n1) as (_ & E2 & E3).
    { intros j Hj. apply in_peers in Hj. destruct Hj as (cj & Gj & Oj). unfold is_open. now rewrite Gj. }
    fold asks in E2, E3. fold n2 in E2, E3. apply orb_true_iff in X. destruct X as [X|X].
    - apply existsb_exists in X. destruct X as (y & Hy & X). apply in_map_iff in Hy. destruct Hy as (j & <- & Hj). pose proof Hj as Hj'. apply in_peers in Hj'. destruct Hj' as (c & G & _).
      unfold answer in X. rewrite G in X. cbv beta iota in X. apply andb_true_iff in X. destruct X as (X1 & X2). apply Nat.eqb_eq in X1. subst j. destruct (E3 i c Hj G) as (_ & U). rewrite U. exact X2.
    - exfalso. apply Nat.leb_le in X. apply is_open_get in O. destruct O as (c & G & O). destruct (after_beat sha py2 cf p n i c G O) as (c' & G' & O1 & _). fold e in G'. fold n1 in G'.
      assert (In i (peers n1)) as Hi by (apply in_peers; eauto). destruct (E3 i c' Hi G') as (Q & U).
      assert (exists c2, get_conn i n2 = Some c2) as (c2 & G2).
      { pose proof (grow_fold sha py2 cf asks) as Gr. assert (Forall wf_event asks) as W.
        { unfold asks, readies. apply Forall_forall. intros x Hx. apply in_map_iff in Hx. destruct Hx as (j & <- & _). destruct S as (_ & _ & T). specialize (T j). destruct (po_ask p j) as [[now' now2] nonce]. exact T. }
        destruct (Gr W n1) as (_ & Z). fold n2 in Z. destruct (Z i c' G') as (c3 & Y & _). eauto. }
      assert (i < List.length (n_conns n2))%nat; [|lia]. apply nth_error_Some. unfold get_conn in G2. congruence. }
  unfold writable, is_open, unsent in *. destruct (get_conn i (fold_left (step sha py2 cf) mid n2)); [|discriminate]. rewrite O', U. reflexivity.
Qed.

(** A node with two connections: the first peer said something and heard
    something, then the computer slept for three hours. *)
Definition lp_round (now : Z) (answer : list event) : poll_env := mk_poll (now * SEC) (fun _ => mk_attempt 0 0 nx_env) 0 (fun _ => (now * SEC, now * SEC, repeat 1 8)) answer.
Definition lp_before : list poll_env :=
  [lp_round 1000 [EvAccept nx_a (1000 * SEC) nx_env];
   lp_round 1001 [EvRead 0 (RData nx_ping) (1001 * SEC) nx_clock; EvWrite 0 (STaken 1000) (1001 * SEC)];
   lp_round 1002 [EvAccept nx_b (1002 * SEC) nx_env]].
Example C153_applies : let run := loop nx_sha true nx_cf in let n0 := init_node nx_cf in
  snd (run lp_before n0) = Serving /\ map_len (fst (run lp_before n0)) = 3 /\
  snd (run (lp_before ++ [lp_round 11801 []]) n0) = Serving /\ map_len (fst (run (lp_before ++ [lp_round 11801 []]) n0)) = 3 /\
  snd (run (lp_before ++ [lp_round 11802 []]) n0) = Stopped BadDescriptor /\
  is_open 0 (fst (run (lp_before ++ [lp_round 11802 []]) n0)) = false /\ is_open 1 (fst (run (lp_before ++ [lp_round 11802 []]) n0)) = true.
Proof. cbv zeta. repeat (split; [vm_compute; reflexivity|]). vm_compute. reflexivity. Qed.

(** ** Assumptions *)

Print Assumptions C153_exactly.
Print Assumptions C153_returns_partial.
Print Assumptions C153_serves_partial.
Print Assumptions C153_unread_refuted.
Print Assumptions C153_asleep_refuted.
Print Assumptions C153_hung_refuted.
Print Assumptions C153_ends.
Print Assumptions C153_history.
Print Assumptions C153_tended.
Print Assumptions C153_writes.
