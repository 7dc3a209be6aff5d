(** C156: a node that is served says what it has to say.

    Modelled source: LoopModel.v (asyncore.loop over nbc/node/basenode.py and
    connection.py). *)
From Coq Require Import String ZArith List Lia Bool.
From Verif Require Import PyBase PyVal FormatModel MessagesModel FormatSpec FormatProofs FormatProofs2 MessagesProofs
  NodeModel PollModel LoopModel NodeProofs NodeProofs2 NodeProofs3 NodeProofs4 NodeProofs5 NodeProofs6 NodeProofs7 NodeProofs8 NodeProofs9 NodeProofs10 NodeProofs11 NodeProofs12
  PropsNode PropsHello PropsTalk PropsLife PropsMeet PropsApart PropsDeliver PropsAlive PropsLoop PropsAccord.
Import ListNotations.
Open Scope string_scope.
Open Scope list_scope.
Open Scope Z_scope.

(** ** Specification *)
(** A node that is served for ever: [ps k] is what round [k] of its loop gets from
    outside, [served k] the node after the first [k] rounds. *)
Definition served (sha256 : bytes -> bytes) (py2 : bool) (cf : config) (ps : nat -> poll_env) (k : nat) : node :=
  fst (loop sha256 py2 cf (map ps (seq 0 k)) (init_node cf)).
Definition for_ever (sha256 : bytes -> bytes) (py2 : bool) (cf : config) (ps : nat -> poll_env) : Prop :=
  forall k, snd (loop sha256 py2 cf (map ps (seq 0 k)) (init_node cf)) = Serving.
(** The socket of connection [i] has room again and again: if select is asked for
    it then, it reports it and the socket takes at least a byte. *)
Definition has_room (ps : nat -> poll_env) (i : nat) : Prop :=
  forall k, exists k' m now, (k <= k')%nat /\ 1 <= m /\ In (EvWrite i (STaken m) now) (po_answer (ps k')).

(** ** A served node as an infinite run *)
Section Served.
  Variable sha256 : bytes -> bytes.
  Variable py2 : bool.
  Variable cf : config.
  Variable ps : nat -> poll_env.
  Hypothesis Sound : forall k, sound_round (ps k).
  Hypothesis Ever : for_ever sha256 py2 cf ps.
  Notation step := (step sha256 py2 cf).
  Notation loop := (loop sha256 py2 cf).
  Notation poll := (poll sha256 py2 cf).
  Notation served := (served sha256 py2 cf ps).

  Lemma loop_snoc l p n : snd (loop l n) = Serving ->
    loop (l ++ [p]) n = (if py2 || (0 <? map_len (fst (loop l n))) then match poll p (fst (loop l n)) with (n', Returned) => (n', Serving) | (n', e) => (set_n_listener false n', Stopped e) end
                         else (set_n_listener false (fst (loop l n)), Stopped Returned)).
  Proof.
    revert n. induction l as [|q l IH]; intros n H; [reflexivity|]. cbn [app LoopModel.loop] in *. destruct (py2 || (0 <? map_len n)); [|discriminate].
    destruct (poll q n) as [n' []]; cbn [snd] in H; try discriminate. now apply IH.
  Qed.
  Lemma served_S k : poll (ps k) (served k) = (served (S k), Returned).
  Proof.
    pose proof (Ever k) as E. pose proof (Ever (S k)) as E'. unfold PropsServe.served. rewrite seq_S, map_app in *. cbn [plus map] in *. rewrite (loop_snoc _ _ _ E) in *.
    destruct (py2 || _); [|discriminate]. destruct (poll (ps k) _) as [n' []]; cbn [snd fst] in *; try discriminate. reflexivity.
  Qed.
  Definition evs (k : nat) : list event := round_events sha256 py2 cf (ps k) (served k).
  Lemma served_step k : served (S k) = fold_left step (evs k) (served k).
  Proof. unfold evs. rewrite <- round_run by apply Sound. now rewrite served_S. Qed.
  Definition upto (k : nat) : list event := concat (map evs (seq 0 k)).
  Lemma upto_S k : upto (S k) = upto k ++ evs k.
  Proof. unfold upto. rewrite seq_S, map_app, concat_app. cbn. now rewrite app_nil_r. Qed.
  Lemma upto_more k d : exists l, upto (k + d) = upto k ++ l.
  Proof. induction d as [|d (l & IH)]; [exists []; now rewrite Nat.add_0_r, app_nil_r|]. rewrite Nat.add_succ_r, upto_S, IH, <- app_assoc. now eexists. Qed.
  Lemma upto_long k : (k <= List.length (upto k))%nat.
  Proof. induction k as [|k IH]; [lia|]. rewrite upto_S, app_length. unfold evs, round_events. cbv zeta. cbn [List.length]. lia. Qed.
  Definition ends (k : nat) : nat := List.length (upto k).
  Definition flat (t : nat) : event := nth t (upto (S t)) (EvError 0).
  Lemma flat_nth k t : (t < ends k)%nat -> nth t (upto k) (EvError 0) = flat t.
  Proof.
    intro L. unfold ends in L. unfold flat. pose proof (upto_long (S t)) as L'. destruct (Nat.le_ge_cases k (S t)) as [H|H].
    - destruct (upto_more k (S t - k)) as (l & E). replace (k + (S t - k))%nat with (S t) in E by lia. rewrite E. now rewrite app_nth1.
    - destruct (upto_more (S t) (k - S t)) as (l & E). replace (S t + (k - S t))%nat with k in E by lia. rewrite E. rewrite app_nth1; [reflexivity|lia].
  Qed.
  Lemma flat_upto k : map flat (seq 0 (ends k)) = upto k.
  Proof. rewrite <- (upto_length (upto k) (EvError 0)). apply map_ext_in. intros t H. apply in_seq in H. symmetry. apply flat_nth. unfold ends. lia. Qed.
  Lemma served_after k : served k = after sha256 py2 cf flat (ends k).
  Proof.
    unfold after, history. rewrite flat_upto. induction k as [|k IH]; [reflexivity|]. now rewrite served_step, upto_S, fold_left_app, <- IH.
  Qed.
  Lemma ends_ge k : (k <= ends k)%nat. Proof. apply upto_long. Qed.
  Lemma ends_le k k' : (k <= k')%nat -> (ends k <= ends k')%nat.
  Proof. intro H. unfold ends. destruct (upto_more k (k' - k)) as (l & E). replace (k + (k' - k))%nat with k' in E by lia. rewrite E, app_length. lia. Qed.
  Lemma flat_in t : exists k, In (flat t) (evs k).
  Proof.
    assert (In (flat t) (upto (S t))) as H. { apply nth_In. pose proof (upto_long (S t)). lia. }
    unfold upto in H. apply in_concat in H. destruct H as (l & Hl & H). apply in_map_iff in Hl. destruct Hl as (k & <- & _). now exists k.
  Qed.
  Lemma flat_wf t : wf_event (flat t).
  Proof. destruct (flat_in t) as (k & H). pose proof (round_wf sha256 py2 cf (ps k) (served k) (Sound k)) as F. rewrite Forall_forall in F. now apply F. Qed.
  Notation after := (after sha256 py2 cf flat).

  (** *** Open connections *)
  Lemma stays_open i k0 : (forall k, (k0 <= k)%nat -> is_open i (served k) = true) -> forall t c, get_conn i (after t) = Some c -> forall t', (t <= t')%nat -> is_open i (after t') = true.
  Proof.
    intros H t c G t' L. destruct (grow_after sha256 py2 cf flat t t' flat_wf L) as (_ & K). destruct (K i c G) as (c' & G' & _). clear K.
    set (k := Nat.max k0 t'). apply (still_open sha256 py2 cf flat i t' (ends k)) with (c := c'); [pose proof (ends_ge k); lia| |exact G']. rewrite <- served_after. apply H. lia.
  Qed.
  Lemma open_later i k0 : (forall k, (k0 <= k)%nat -> is_open i (served k) = true) -> forall t, (ends k0 <= t)%nat -> is_open i (after t) = true.
  Proof.
    intros H t L. pose proof (H k0 (le_n _)) as O. rewrite served_after in O. apply is_open_get in O. destruct O as (c & G & _). now apply (stays_open i k0 H (ends k0) c G).
  Qed.

  (** *** What is unsent stays so until the socket takes something *)
  Lemma unsent_or_taken i n e : unsent i n = true -> is_open i (step n e) = true -> takes i e \/ unsent i (step n e) = true.
  Proof.
    intros U O. destruct e as [| | |j r now| | | | | |]; try (right; apply (unsent_step sha256 py2 cf i); [discriminate|exact U]).
    destruct (Nat.eq_dec j i) as [->|D]; [|right; apply (unsent_step sha256 py2 cf i); [congruence|exact U]].
    cbn [NodeModel.step] in *. destruct (is_open i n) eqn:On; [|right; exact U]. unfold run in *. destruct r as [k| |]; cbn [handle_write] in *.
    - destruct (Z_le_gt_dec 1 k) as [L|L]; [left; exists k, now; auto|]. right. unfold modM. cbn [fst]. unfold wrote. unfold unsent in *. destruct (get_conn i n) as [c|] eqn:G; [|discriminate].
      assert (Z.max 0 (Z.min k (zlen (c_send c))) = 0) as -> by (pose proof (zlen_nonneg (c_send c)); lia). rewrite get_emit. change (get_conn i (set_n_tx ?v ?y)) with (get_conn i y). rewrite get_upd, Nat.eqb_refl, G. cbn [option_map c_send set_c_send set_c_tx set_c_last_tx]. rewrite zdrop_0. exact U.
    - exfalso. unfold handle_close, bindM, modM in O. cbn [fst] in O. pose proof (shut_closes i n) as Sc. unfold wrote in O. destruct (get_conn i (shut i n)) as [c|] eqn:G; [|congruence].
      unfold is_open in O, Sc. rewrite get_emit in O. change (get_conn i (set_n_tx ?v ?y)) with (get_conn i y) in O. rewrite get_upd, Nat.eqb_refl, G in O. rewrite G in Sc. cbn in O. congruence.
    - exfalso. unfold handle_close, modM in O. cbn [fst] in O. rewrite shut_closes in O. discriminate.
  Qed.
  Lemma unsent_until i t : (forall t', (t <= t')%nat -> is_open i (after t') = true) -> unsent i (after t) = true ->
    forall d, (exists t', (t <= t')%nat /\ takes i (flat t')) \/ unsent i (after (t + d)) = true.
  Proof.
    intros O U. induction d as [|d [IH|IH]]; [right; now rewrite Nat.add_0_r|now left|]. rewrite Nat.add_succ_r. pose proof (O (S (t + d)) ltac:(lia)) as O'. rewrite after_S in *.
    destruct (unsent_or_taken i _ _ IH O') as [T|T]; [left; exists (t + d)%nat; split; [lia|exact T]|now right].
  Qed.

  (** *** A round writes *)
  Lemma round_takes i k m now : unsent i (served k) = true -> is_open i (served k) = true -> In (EvWrite i (STaken m) now) (po_answer (ps k)) -> In (EvWrite i (STaken m) now) (evs k).
  Proof.
    intros U O H. pose proof (served_S k) as P. pose proof (proj1 (Sound k)) as L. rewrite (poll_spec sha256 py2 cf (ps k) (served k) L) in P.
    unfold evs, round_events. cbv zeta. fold (looped sha256 py2 cf (ps k) (served k)). set (n1 := looped sha256 py2 cf (ps k) (served k)) in *.
    destruct (bad_descriptor _ _); [discriminate|]. right. apply in_or_app. right. apply filter_In. split; [exact H|]. cbn [reported]. apply orb_true_iff. left.
    apply existsb_exists. apply is_open_get in O. destruct O as (c & G & O).
    destruct (after_beat sha256 py2 cf (ps k) (served k) i c G O) as (c' & G' & O' & _). fold (looped sha256 py2 cf (ps k) (served k)) in G'. fold n1 in G'.
    assert (unsent i n1 = true) as U1 by (apply (unsent_step sha256 py2 cf i); [discriminate|exact U]).
    exists (answer (po_ask (ps k)) n1 i). split; [apply in_map, in_peers; eauto|]. unfold answer. rewrite G'. unfold unsent in U1. rewrite G' in U1. rewrite U1, Nat.eqb_refl. reflexivity.
  Qed.
  Lemma served_fair i k0 : (forall k, (k0 <= k)%nat -> is_open i (served k) = true) -> has_room ps i -> fair sha256 py2 cf flat i.
  Proof.
    intros H R t W. assert (exists c, get_conn i (after t) = Some c /\ unsent i (after t) = true) as (c & G & U).
    { unfold writable in W. unfold unsent. destruct (get_conn i (after t)) as [c|]; [|discriminate]. exists c. split; [reflexivity|]. apply andb_true_iff in W. apply W. }
    pose proof (stays_open i k0 H t c G) as O. destruct (R t) as (k & m & now & Lk & Lm & I). pose proof (ends_ge k) as E.
    destruct (unsent_until i t O U (ends k - t)) as [T|T]; [exact T|]. replace (t + (ends k - t))%nat with (ends k) in T by lia. rewrite <- served_after in T.
    pose proof (O (ends k) ltac:(lia)) as Ok'. rewrite <- served_after in Ok'. pose proof (round_takes i k m now T Ok' I) as X.
    apply (In_nth _ _ (EvError 0)) in X. destruct X as (x & Lx & Ex). exists (ends k + x)%nat. split; [lia|]. exists m, now. split; [|exact Lm].
    rewrite <- (flat_nth (S k)) by (unfold ends; rewrite upto_S, app_length; lia). rewrite upto_S, app_nth2 by (unfold ends; lia). unfold ends. rewrite Nat.add_comm, Nat.add_sub. exact Ex.
  Qed.
End Served.

(** Everything that is said on a connection that stays open is written in the end. *)
Theorem C156_written : forall sha256 py2 cf ps i k0, (forall k, sound_round (ps k)) -> for_ever sha256 py2 cf ps -> has_room ps i ->
  let A := served sha256 py2 cf ps in
  (forall k, (k0 <= k)%nat -> is_open i (A k) = true) ->
  forall k, (k0 <= k)%nat -> exists k', (k <= k')%nat /\ begins_with (wire_of i (n_trace (A k'))) (queued_of i (n_trace (A k))).
Proof.
  intros sha py2 cf ps i k0 S E R A O k L. pose proof (served_fair sha py2 cf ps S E i k0 O R) as F. pose proof (open_later sha py2 cf ps S E i k0 O) as Op.
  destruct (C146_written sha py2 cf (flat sha py2 cf ps) (flat_wf sha py2 cf ps S) i (ends sha py2 cf ps k0) Op F (ends sha py2 cf ps k) (ends_le sha py2 cf ps k0 k L)) as (t' & Lt & B).
  exists (Nat.max k t'). split; [lia|]. unfold A. rewrite !(served_after sha py2 cf ps S E). eapply begins_trans; [|exact B]. apply wire_later. pose proof (ends_ge sha py2 cf ps (Nat.max k t')). lia.
Qed.

(** ** Two served nodes *)
(** What the computer gives a round: a clock below 2^32 seconds, random bytes,
    addresses of peers that are addresses. *)
Definition well_round (p : poll_env) : Prop :=
  sound_round p /\ (forall k, good_env (ae_conn (po_envs p k)) /\ wf_bytes (ce_nonce (ae_conn (po_envs p k)))) /\ (forall i, wf_bytes (snd (po_ask p i))) /\
  forall a now e, In (EvAccept a now e) (po_answer p) -> usable a /\ good_env e /\ wf_bytes (ce_nonce e).
Lemma round_good sha py2 cf p n e : well_round p -> In e (round_events sha py2 cf p n) -> good_event e /\ ordinary_event e /\ forall k m, e <> EvSend k m.
Proof.
  intros (S & V & N & Ac) H. pose proof (round_wf sha py2 cf p n S) as W. rewrite Forall_forall in W. specialize (W e H). unfold round_events in H. cbv zeta in H. destruct H as [<-|H].
  - split; [split; [exact W|intro k; apply V]|]. split; [split; [exact W|intro k; apply V]|discriminate].
  - apply in_app_or in H. destruct H as [H|H].
    + unfold readies in H. apply in_map_iff in H. destruct H as (i & <- & _). specialize (N i). destruct (po_ask p i) as [[now now2] nonce]. split; [split; [exact W|exact Logic.I]|]. split; [split; [exact W|exact N]|discriminate].
    + destruct (bad_descriptor _ _); [destruct H|]. apply filter_In in H. destruct H as (H & R). destruct e; try discriminate R; try (split; [split; [exact W|exact Logic.I]|]; split; [split; [exact W|exact Logic.I]|discriminate]).
      destruct (Ac _ _ _ H) as (H1 & H2 & H3). split; [split; [exact W|split; [exact H1|exact H2]]|]. split; [split; [exact W|exact H3]|discriminate].
Qed.
Definition sane_node (cf : config) : Prop := good_config cf /\ Forall (fun c => 0 <= c) (cf_user_agent cf) /\ Forall usable (cf_bootstrap cf).
Lemma served_sane sha py2 cf ps : (forall k, well_round (ps k)) -> sane_node cf -> sane cf (flat sha py2 cf ps).
Proof.
  intros W (H1 & H2 & H3). split; [exact H1|]. split; [exact H2|]. split; [exact H3|]. intro t. destruct (flat_in sha py2 cf ps t) as (k & Hk).
  destruct (round_good sha py2 cf (ps k) _ _ (W k) Hk) as (G & O & N). split; [exact G|]. split; [exact O|]. intros n m E. now apply N in E.
Qed.
Lemma served_carries sha pyA pyB cfA cfB psA psB i j : (forall k, sound_round (psA k)) -> (forall k, sound_round (psB k)) -> for_ever sha pyA cfA psA -> for_ever sha pyB cfB psB ->
  carries (fun k => wire_of i (n_trace (served sha pyA cfA psA k))) (fun k => recv_of j (n_trace (served sha pyB cfB psB k))) ->
  carries (fun t => wire_of i (n_trace (after sha pyA cfA (flat sha pyA cfA psA) t))) (fun u => recv_of j (n_trace (after sha pyB cfB (flat sha pyB cfB psB) u))).
Proof.
  intros SA SB EA EB (C1 & C2). split.
  - intro u. destruct (C1 u) as (k & B). exists (ends sha pyA cfA psA k). rewrite (served_after sha pyA cfA psA SA EA), (served_after sha pyB cfB psB SB EB) in B. eapply begins_trans; [exact B|].
    destruct (after_le sha pyB cfB (flat sha pyB cfB psB) u (ends sha pyB cfB psB u) (ends_ge sha pyB cfB psB u)) as (l & ->). rewrite recv_app. now eexists.
  - intro t. destruct (C2 t) as (k & B). exists (ends sha pyB cfB psB k). rewrite (served_after sha pyA cfA psA SA EA), (served_after sha pyB cfB psB SB EB) in B. eapply begins_trans; [exact B|].
    apply wire_later, ends_ge.
Qed.
(** Two nodes that are served for ever by loops whose rounds have nothing to do
    with each other.  If their connection stays open, both sockets have room
    again and again and the network carries the bytes, then what the one says
    the other hears, *)
Theorem C156_heard : forall sha256 pyA pyB cfA cfB psA psB i j k0,
  (forall x, 4 <= zlen (sha256 x)) -> cf_magic cfA = cf_magic cfB -> zlen (cf_magic cfA) = 4 ->
  sane_node cfA -> (forall k, well_round (psA k)) -> (forall k, well_round (psB k)) ->
  for_ever sha256 pyA cfA psA -> for_ever sha256 pyB cfB psB -> has_room psA i ->
  let A := served sha256 pyA cfA psA in
  let B := served sha256 pyB cfB psB in
  (forall k, (k0 <= k)%nat -> is_open i (A k) = true) ->
  carries (fun k => wire_of i (n_trace (A k))) (fun k => recv_of j (n_trace (B k))) ->
  forall k, (k0 <= k)%nat -> exists k', forall k2, (k' <= k2)%nat ->
    begins_with (heard (talk j (n_trace (B k2)))) (map arrived (said (talk i (n_trace (A k))))).
Proof.
  intros sha pyA pyB cfA cfB psA psB i j k0 Hs Em Lm HA WA WB EA EB RA A B Op C k L.
  assert (SA : forall k, sound_round (psA k)) by (intro x; apply WA). assert (SB : forall k, sound_round (psB k)) by (intro x; apply WB).
  pose proof (served_sane sha pyA cfA psA WA HA) as (_ & Hu & _ & Ev).
  destruct (C146_heard sha pyA pyB cfA cfB (flat sha pyA cfA psA) (flat sha pyB cfB psB) i j (ends sha pyA cfA psA k0) Hs Em Lm Hu (fun t => proj1 (proj2 (Ev t))) (flat_wf sha pyB cfB psB SB)
    (open_later sha pyA cfA psA SA EA i k0 Op) (served_fair sha pyA cfA psA SA EA i k0 Op RA) (proj2 (served_carries sha pyA pyB cfA cfB psA psB i j SA SB EA EB C)) (ends sha pyA cfA psA k) (ends_le sha pyA cfA psA k0 k L)) as (u & H).
  exists u. intros k2 L2. unfold A, B. rewrite (served_after sha pyA cfA psA SA EA), (served_after sha pyB cfB psB SB EB). apply H. pose proof (ends_ge sha pyB cfB psB k2). lia.
Qed.
(** and the handshake is completed. *)
Theorem C156_handshake : forall sha256 pyA pyB cfA cfB psA psB i j k0,
  (forall x, 4 <= zlen (sha256 x)) -> cf_magic cfA = cf_magic cfB -> zlen (cf_magic cfA) = 4 ->
  sane_node cfA -> sane_node cfB -> (forall k, well_round (psA k)) -> (forall k, well_round (psB k)) ->
  for_ever sha256 pyA cfA psA -> for_ever sha256 pyB cfB psB -> has_room psA i -> has_room psB j ->
  let A := served sha256 pyA cfA psA in
  let B := served sha256 pyB cfB psB in
  (forall k, (k0 <= k)%nat -> is_open i (A k) = true /\ is_open j (B k) = true) ->
  carries (fun k => wire_of i (n_trace (A k))) (fun k => recv_of j (n_trace (B k))) ->
  carries (fun k => wire_of j (n_trace (B k))) (fun k => recv_of i (n_trace (A k))) ->
  exists k1, forall k k', (k1 <= k)%nat -> (k1 <= k')%nat -> exists a c,
    get_conn i (A k) = Some a /\ get_conn j (B k') = Some c /\
    (c_verack a = true /\ introduced cfB c a) /\ (c_verack c = true /\ introduced cfA a c).
Proof.
  intros sha pyA pyB cfA cfB psA psB i j k0 Hs Em Lm HA HB WA WB EA EB RA RB A B Op CA CB.
  assert (SA : forall k, sound_round (psA k)) by (intro x; apply WA). assert (SB : forall k, sound_round (psB k)) by (intro x; apply WB).
  assert (OA : forall k, (k0 <= k)%nat -> is_open i (served sha pyA cfA psA k) = true) by (intros x Hx; exact (proj1 (Op x Hx))).
  assert (OB : forall k, (k0 <= k)%nat -> is_open j (served sha pyB cfB psB k) = true) by (intros x Hx; exact (proj2 (Op x Hx))).
  destruct (C155_handshake sha pyA pyB cfA cfB (flat sha pyA cfA psA) (flat sha pyB cfB psB) i j (ends sha pyA cfA psA k0 + ends sha pyB cfB psB k0) Hs Em Lm
    (served_sane sha pyA cfA psA WA HA) (served_sane sha pyB cfB psB WB HB)) as (t1 & H).
  - intros t L. split; [apply (open_later sha pyA cfA psA SA EA i k0 OA)|apply (open_later sha pyB cfB psB SB EB j k0 OB)]; lia.
  - exact (served_fair sha pyA cfA psA SA EA i k0 OA RA).
  - exact (served_fair sha pyB cfB psB SB EB j k0 OB RB).
  - exact (served_carries sha pyA pyB cfA cfB psA psB i j SA SB EA EB CA).
  - exact (served_carries sha pyB pyA cfB cfA psB psA j i SB SA EB EA CB).
  - exists t1. intros k k' Lk Lk'. unfold A, B. rewrite (served_after sha pyA cfA psA SA EA), (served_after sha pyB cfB psB SB EB).
    apply H; [pose proof (ends_ge sha pyA cfA psA k)|pose proof (ends_ge sha pyB cfB psB k')]; lia.
Qed.

(** ** An example *)
(** A loop that comes to rest: after the rounds [l] the round [p] changes nothing. *)
Definition rests (l : list poll_env) (p : poll_env) (k : nat) : poll_env := nth k l p.
Lemma rests_map l p k : map (rests l p) (seq 0 k) = firstn k l ++ repeat p (k - List.length l).
Proof.
  revert l. induction k as [|k IH]; intro l; [reflexivity|]. cbn [seq map]. rewrite <- seq_shift, map_map. destruct l as [|q l].
  - cbn [firstn app List.length]. rewrite Nat.sub_0_r. cbn [repeat]. f_equal. rewrite <- (Nat.sub_0_r k) at 2. specialize (IH []). cbn [List.length] in IH. rewrite firstn_nil in IH. cbn [app] in IH. rewrite <- IH. apply map_ext. intros [|a]; reflexivity.
  - cbn [firstn app List.length]. f_equal. apply (IH l).
Qed.
Section Rest.
  Variable sha256 : bytes -> bytes.
  Variable py2 : bool.
  Variable cf : config.
  Variables (l : list poll_env) (p : poll_env) (n : node).
  Hypothesis L : loop sha256 py2 cf l (init_node cf) = (n, Serving).
  Hypothesis P : poll sha256 py2 cf p n = (n, Returned).
  Hypothesis N : py2 || (0 <? map_len n) = true.
  Lemma loop_rest d : loop sha256 py2 cf (l ++ repeat p d) (init_node cf) = (n, Serving).
  Proof.
    induction d as [|d IH]; [rewrite app_nil_r; exact L|]. change (repeat p (S d)) with (p :: repeat p d). rewrite repeat_cons, app_assoc, loop_snoc by now rewrite IH. rewrite IH. cbn [fst]. rewrite N, P. reflexivity.
  Qed.
  Lemma rests_ever : for_ever sha256 py2 cf (rests l p).
  Proof.
    intro k. rewrite rests_map. destruct (Nat.le_ge_cases k (List.length l)) as [H|H].
    - replace (k - List.length l)%nat with 0%nat by lia. cbn [repeat]. rewrite app_nil_r.
      destruct (snd (loop sha256 py2 cf (firstn k l) (init_node cf))) eqn:E; [reflexivity|]. exfalso.
      assert (snd (loop sha256 py2 cf (firstn k l) (init_node cf)) <> Serving) as X by (rewrite E; discriminate).
      destruct (C153_ends sha256 py2 cf (firstn k l) (skipn k l) (init_node cf) X) as (Q & _). rewrite firstn_skipn, L in Q. rewrite <- Q in E. discriminate E.
    - rewrite firstn_all2 by exact H. now rewrite loop_rest.
  Qed.
  Lemma rests_served k : (List.length l <= k)%nat -> served sha256 py2 cf (rests l p) k = n.
  Proof. intro H. unfold served. rewrite rests_map, firstn_all2 by exact H. now rewrite loop_rest. Qed.
  Lemma rests_all (Q : poll_env -> Prop) : Forall Q l -> Q p -> forall k, Q (rests l p k).
  Proof. intros F Qp k. unfold rests. destruct (Nat.lt_ge_cases k (List.length l)) as [H|H]; [rewrite Forall_forall in F; now apply F, nth_In|now rewrite nth_overflow]. Qed.
  Lemma rests_grow : Forall sound_round l -> sound_round p -> forall k, exists r, n_trace n = n_trace (served sha256 py2 cf (rests l p) k) ++ r.
  Proof.
    intros F S k. pose proof (rests_all sound_round F S) as Al. rewrite <- (rests_served (List.length l + k)) by lia. rewrite !(served_after sha256 py2 cf (rests l p) Al rests_ever).
    apply after_le. apply ends_le. lia.
  Qed.
End Rest.
Lemma rests_carries sha pyA pyB cfA cfB lA pA nA lB pB nB i j :
  loop sha pyA cfA lA (init_node cfA) = (nA, Serving) -> poll sha pyA cfA pA nA = (nA, Returned) -> pyA || (0 <? map_len nA) = true ->
  loop sha pyB cfB lB (init_node cfB) = (nB, Serving) -> poll sha pyB cfB pB nB = (nB, Returned) -> pyB || (0 <? map_len nB) = true ->
  Forall sound_round lA -> sound_round pA -> Forall sound_round lB -> sound_round pB ->
  recv_of j (n_trace nB) = wire_of i (n_trace nA) ->
  carries (fun k => wire_of i (n_trace (served sha pyA cfA (rests lA pA) k))) (fun k => recv_of j (n_trace (served sha pyB cfB (rests lB pB) k))).
Proof.
  intros LA PA NA LB PB NB FA SA FB SB E. split; intro k.
  - exists (List.length lA). rewrite (rests_served sha pyA cfA lA pA nA LA PA NA _ (le_n _)), <- E. destruct (rests_grow sha pyB cfB lB pB nB LB PB NB FB SB k) as (r & ->). rewrite recv_app. now eexists.
  - exists (List.length lB). rewrite (rests_served sha pyB cfB lB pB nB LB PB NB _ (le_n _)), E. destruct (rests_grow sha pyA cfA lA pA nA LA PA NA FA SA k) as (r & ->). rewrite wire_app. now eexists.
Qed.
(** The node as shipped dials a second one; the clocks stand still afterwards. *)
Definition sv_write (now : Z) : event := EvWrite 0 (STaken 1000) (now * SEC).
Definition sv_read (w : bytes) (now : Z) : event := EvRead 0 (RData w) (now * SEC) nx_clock.
Definition sv_wire (py2 : bool) (cf : config) (l : list poll_env) : bytes := wire_of 0 (n_trace (fst (loop nx_sha py2 cf l (init_node cf)))).
Definition svA1 : list poll_env := [lp_round 1000 [sv_write 1000]].
Definition svB1 : list poll_env := [lp_round 1000 [EvAccept nx_a (1000 * SEC) nx_env]; lp_round 1001 [sv_read (sv_wire true nx_ship svA1) 1001; sv_write 1001]].
Definition svA2 : list poll_env := svA1 ++ [lp_round 1002 [sv_read (sv_wire false nx_cfB svB1) 1002]; lp_round 1003 [sv_write 1003]].
Definition svB2 : list poll_env := svB1 ++ [lp_round 1004 [sv_read (skipn (List.length (sv_wire true nx_ship svA1)) (sv_wire true nx_ship svA2)) 1004]].
Definition sv_last : poll_env := lp_round 1005 [sv_write 1005].
Definition svA : node := fst (loop nx_sha true nx_ship svA2 (init_node nx_ship)).
Definition svB : node := fst (loop nx_sha false nx_cfB svB2 (init_node nx_cfB)).
Lemma sv_pair (py2 : bool) cf l : snd (loop nx_sha py2 cf l (init_node cf)) = Serving -> loop nx_sha py2 cf l (init_node cf) = (fst (loop nx_sha py2 cf l (init_node cf)), Serving).
Proof. destruct (loop _ _ _ _ _) as [n e]. cbn. now intros ->. Qed.
Lemma sv_loopA : loop nx_sha true nx_ship svA2 (init_node nx_ship) = (svA, Serving). Proof. apply sv_pair. vm_compute. reflexivity. Qed.
Lemma sv_loopB : loop nx_sha false nx_cfB svB2 (init_node nx_cfB) = (svB, Serving). Proof. apply sv_pair. vm_compute. reflexivity. Qed.
Lemma sv_restA : poll nx_sha true nx_ship sv_last svA = (svA, Returned). Proof. vm_compute. reflexivity. Qed.
Lemma sv_restB : poll nx_sha false nx_cfB sv_last svB = (svB, Returned). Proof. vm_compute. reflexivity. Qed.
Lemma sv_mapB : (0 <? map_len svB) = true. Proof. vm_compute. reflexivity. Qed.
Lemma sv_open : is_open 0 svA = true /\ is_open 0 svB = true. Proof. split; vm_compute; reflexivity. Qed.
Lemma sv_AB : recv_of 0 (n_trace svB) = wire_of 0 (n_trace svA). Proof. vm_compute. reflexivity. Qed.
Lemma sv_BA : recv_of 0 (n_trace svA) = wire_of 0 (n_trace svB). Proof. vm_compute. reflexivity. Qed.
Lemma sv_talk : map item_name (talk 0 (n_trace svA)) = [("said", "version"); ("heard", "version"); ("said", "verack"); ("heard", "verack")]. Proof. vm_compute. reflexivity. Qed.
Lemma lp_well now es : Forall wf_event es -> (forall a t e, In (EvAccept a t e) es -> usable a /\ good_env e /\ wf_bytes (ce_nonce e)) -> well_round (lp_round now es).
Proof.
  intros W A. assert (wf_bytes (repeat 1 8)) as N by (apply all_bytes_wf; reflexivity). assert (wf_bytes (ce_nonce nx_env)) as N' by (apply all_bytes_wf; reflexivity).
  split; [split; [intro i; reflexivity|split; [exact W|intro i; cbn; lia]]|]. split; [intro k; split; [exact good_nx|exact N']|]. split; [intro i; exact N|exact A].
Qed.
Lemma lp_plain now es : Forall wf_event es -> (forall a t e, ~ In (EvAccept a t e) es) -> well_round (lp_round now es).
Proof. intros W A. apply lp_well; [exact W|]. intros a t e H. now apply A in H. Qed.
Lemma lp_write now t : well_round (lp_round now [sv_write t]).
Proof. apply lp_plain; [constructor; [exact Logic.I|constructor]|]. intros a x e [H|[]]. discriminate H. Qed.
Lemma lp_read w now t : wf_bytes w -> well_round (lp_round now [sv_read w t]).
Proof. intro W. apply lp_plain; [constructor; [exact W|constructor]|]. intros a x e [H|[]]. discriminate H. Qed.
Lemma sv_wellA : Forall well_round svA2.
Proof.
  assert (wf_bytes (sv_wire false nx_cfB svB1)) as W by (apply all_bytes_wf; vm_compute; reflexivity). unfold svA2, svA1. set (w := sv_wire false nx_cfB svB1) in *. clearbody w. cbn [app].
  apply Forall_cons; [apply lp_write|]. apply Forall_cons; [now apply lp_read|]. apply Forall_cons; [apply lp_write|constructor].
Qed.
Lemma sv_wellB : Forall well_round svB2.
Proof.
  assert (wf_bytes (sv_wire true nx_ship svA1)) as W by (apply all_bytes_wf; vm_compute; reflexivity).
  assert (wf_bytes (skipn (List.length (sv_wire true nx_ship svA1)) (sv_wire true nx_ship svA2))) as W2 by (apply all_bytes_wf; vm_compute; reflexivity). unfold svB2, svB1.
  generalize dependent (skipn (List.length (sv_wire true nx_ship svA1)) (sv_wire true nx_ship svA2)). intros w2 W2. generalize dependent (sv_wire true nx_ship svA1). intros w W. cbn [app].
  assert (U : usable nx_a) by (apply usable_of; [vm_compute; reflexivity|cbn; lia]). assert (wf_bytes (ce_nonce nx_env)) as N' by (apply all_bytes_wf; reflexivity).
  apply Forall_cons; [apply lp_well; [constructor; [exact Logic.I|constructor]|]|].
  - intros a t e [H|[]]. assert (a = nx_a) as -> by congruence. assert (e = nx_env) as -> by congruence. split; [exact U|]. split; [exact good_nx|exact N'].
  - apply Forall_cons; [apply lp_plain; [constructor; [exact W|constructor; [exact Logic.I|constructor]]|intros a x e [H|[H|[]]]; discriminate H]|]. apply Forall_cons; [now apply lp_read|constructor].
Qed.
Lemma sv_room l : has_room (rests l sv_last) 0.
Proof. intro k. exists (List.length l + k)%nat, 1000, (1005 * SEC). split; [lia|]. split; [lia|]. unfold rests. rewrite nth_overflow by lia. now left. Qed.
Lemma well_sound l : Forall well_round l -> Forall sound_round l. Proof. apply Forall_impl. intros p H. apply H. Qed.
Example C156_applies : let psA := rests svA2 sv_last in let psB := rests svB2 sv_last in
  let A := served nx_sha true nx_ship psA in let B := served nx_sha false nx_cfB psB in
  (forall x, 4 <= zlen (nx_sha x)) /\ cf_magic nx_ship = cf_magic nx_cfB /\ zlen (cf_magic nx_ship) = 4 /\
  sane_node nx_ship /\ sane_node nx_cfB /\ (forall k, well_round (psA k)) /\ (forall k, well_round (psB k)) /\
  for_ever nx_sha true nx_ship psA /\ for_ever nx_sha false nx_cfB psB /\ has_room psA 0 /\ has_room psB 0 /\
  (forall k, (3 <= k)%nat -> is_open 0 (A k) = true /\ is_open 0 (B k) = true) /\
  carries (fun k => wire_of 0 (n_trace (A k))) (fun k => recv_of 0 (n_trace (B k))) /\
  carries (fun k => wire_of 0 (n_trace (B k))) (fun k => recv_of 0 (n_trace (A k))) /\
  map item_name (talk 0 (n_trace (A 3%nat))) = [("said", "version"); ("heard", "version"); ("said", "verack"); ("heard", "verack")].
Proof.
  destruct C126_applies as (H1 & H2 & H3 & _). pose proof ax_saneA as (S1 & S2 & S3 & _). pose proof ax_saneB as (S4 & S5 & S6 & _). cbv zeta.
  pose proof (lp_write 1005 1005) as WL. fold sv_last in WL. pose proof (proj1 WL) as SL. pose proof (well_sound _ sv_wellA) as FA. pose proof (well_sound _ sv_wellB) as FB.
  split; [exact H1|]. split; [exact H2|]. split; [exact H3|]. split; [exact (conj S1 (conj S2 S3))|]. split; [exact (conj S4 (conj S5 S6))|].
  split; [exact (rests_all svA2 sv_last well_round sv_wellA WL)|]. split; [exact (rests_all svB2 sv_last well_round sv_wellB WL)|].
  split; [exact (rests_ever nx_sha true nx_ship svA2 sv_last svA sv_loopA sv_restA eq_refl)|]. split; [exact (rests_ever nx_sha false nx_cfB svB2 sv_last svB sv_loopB sv_restB sv_mapB)|].
  split; [exact (sv_room svA2)|]. split; [exact (sv_room svB2)|].
  split; [|split; [exact (rests_carries nx_sha true false nx_ship nx_cfB svA2 sv_last svA svB2 sv_last svB 0 0 sv_loopA sv_restA eq_refl sv_loopB sv_restB sv_mapB FA SL FB SL sv_AB)|
    split; [exact (rests_carries nx_sha false true nx_cfB nx_ship svB2 sv_last svB svA2 sv_last svA 0 0 sv_loopB sv_restB sv_mapB sv_loopA sv_restA eq_refl FB SL FA SL sv_BA)|]]].
  - intros k L. rewrite (rests_served nx_sha true nx_ship svA2 sv_last svA sv_loopA sv_restA eq_refl k L), (rests_served nx_sha false nx_cfB svB2 sv_last svB sv_loopB sv_restB sv_mapB k L). exact sv_open.
  - rewrite (rests_served nx_sha true nx_ship svA2 sv_last svA sv_loopA sv_restA eq_refl 3 (le_n 3)). exact sv_talk.
Qed.

(** ** Assumptions *)

Print Assumptions C156_written.
Print Assumptions C156_heard.
Print Assumptions C156_handshake.
