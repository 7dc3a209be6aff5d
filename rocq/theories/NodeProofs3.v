(** Further invariants of the node. *)
From Coq Require Import String ZArith List Lia Bool.
From Verif Require Import PyBase PyVal FormatModel MessagesModel NodeModel NodeProofs NodeProofs2.
Import ListNotations.
Open Scope string_scope.
Open Scope list_scope.
Open Scope Z_scope.

Lemma is_open_get i n : is_open i n = true <-> exists c, get_conn i n = Some c /\ c_open c = true.
Proof.
  unfold is_open. destruct (get_conn i n) as [c|]; split; intro H; try discriminate.
  - eauto.
  - destruct H as (c' & E & H). congruence.
  - destruct H as (c' & E & H). congruence.
Qed.

Section Reads.
Variable sha256 : bytes -> bytes.
Variable py2 : bool.
Variable cf : config.
Notation step := (step sha256 py2 cf).
Notation history := (history sha256 py2 cf).

(** Handling received bytes closes nothing and records no further reception. *)
Definition calm (n n' : node) : Prop :=
  (forall j, is_open j n = true -> is_open j n' = true) /\ (forall j, recv_of j (n_trace n') = recv_of j (n_trace n)).
Lemma calm_refl n : calm n n. Proof. split; auto. Qed.
Lemma calm_trans a b c : calm a b -> calm b c -> calm a c.
Proof. intros (A1 & A2) (B1 & B2). split; intros; [auto|congruence]. Qed.
Lemma calm_emit a n : (forall j, recv_of j [a] = []) -> calm n (emit a n).
Proof. intro H. split; [auto|]. intro j. unfold emit. cbn [n_trace set_n_trace]. rewrite recv_app, H. apply app_nil_r. Qed.
Lemma calm_upd i f n : (forall c, c_open (f c) = c_open c) -> calm n (upd i f n).
Proof.
  intro H. split; [|reflexivity]. intros j O. apply is_open_get in O. destruct O as (c & G & O). apply is_open_get.
  rewrite get_upd, G. destruct (Nat.eqb i j); cbn; [exists (f c)|exists c]; split; congruence.
Qed.
Lemma calm_fields n n' : n_conns n' = n_conns n -> n_trace n' = n_trace n -> calm n n'.
Proof. intros H1 H2. unfold calm, is_open, get_conn. rewrite H1, H2. auto. Qed.
Lemma read_loop_calm fuel i clock n : calm n (fst (read_loop sha256 py2 cf fuel i clock n)).
Proof.
  apply read_loop_R; intros.
  - apply calm_refl.
  - eapply calm_trans; eassumption.
  - unfold queue. destruct (get_conn i0 n0); [|apply calm_refl]. eapply calm_trans; [|apply calm_emit; reflexivity]. now apply calm_upd.
  - unfold check_external_ip. destruct (count_votes _ _ _); [apply calm_refl|now apply calm_fields].
  - apply calm_upd. intro c. specialize (H c). unfold core in H. injection H as ? ? ? ? ? ? ? ? ? ? ?. assumption.
  - unfold record_peer. destruct (get_conn i0 n0); [|apply calm_refl]. destruct (_ <? _); [now apply calm_fields|apply calm_refl].
  - now apply calm_fields.
  - apply calm_emit. intro j. destruct a; try contradiction; reflexivity.
  - unfold take_frame. eapply calm_trans; [apply (calm_upd i0 (set_c_recv (zdrop len (c_recv c)))); reflexivity|].
    apply calm_emit. intro j. apply (outcome_quiet sha256 cf i0 j).
Qed.
Lemma read_step i chunk now clock n : is_open i n = true -> chunk <> [] ->
  is_open i (step n (EvRead i (RData chunk) now clock)) = true /\
  recv_of i (n_trace (step n (EvRead i (RData chunk) now clock))) = recv_of i (n_trace n) ++ chunk.
Proof.
  intros O N. cbn [NodeModel.step]. rewrite O. destruct chunk as [|x chunk]; [contradiction|]. cbn [handle_read].
  unfold run, bindM at 1 3, modM. cbv beta iota. unfold bindM, getM. cbv beta iota.
  set (n1 := received i (x :: chunk) now n).
  assert (is_open i n1 = true /\ recv_of i (n_trace n1) = recv_of i (n_trace n) ++ x :: chunk) as (O1 & R1).
  { unfold n1, received. apply is_open_get in O. destruct O as (c & G & O). rewrite G. split.
    - apply is_open_get. rewrite get_emit.
      match goal with |- context [get_conn i (set_n_rx ?t ?y)] => change (get_conn i (set_n_rx t y)) with (get_conn i y) end.
      rewrite get_upd, Nat.eqb_refl, G. cbn. eexists. split; [reflexivity|exact O].
    - unfold emit. cbn [n_trace set_n_trace set_n_rx upd set_n_conns]. rewrite recv_app. cbn. rewrite Nat.eqb_refl, app_nil_r. reflexivity. }
  destruct (get_conn i n1) as [c|]; [|auto]. destruct (read_loop_calm (List.length (c_recv c)) i clock n1) as (H1 & H2).
  split; [auto|]. now rewrite H2, R1.
Qed.

(** Successive reads on one connection. *)
Definition feed (i : nat) (reads : list (bytes * Z * (nat -> Z))) (n : node) : node :=
  fold_left (fun n '(chunk, now, clock) => step n (EvRead i (RData chunk) now clock)) reads n.
Definition chunks (reads : list (bytes * Z * (nat -> Z))) : list bytes := map (fun r => fst (fst r)) reads.
Definition good_chunks (reads : list (bytes * Z * (nat -> Z))) : Prop := Forall (fun c => c <> [] /\ wf_bytes c) (chunks reads).
Definition good (n : node) : Prop := stream_inv sha256 cf n /\ drained n.
Lemma good_history es : Forall wf_event es -> good (history es).
Proof. intro W. split; [now apply stream_inv_history|now apply drained_history]. Qed.
Lemma feed_spec i reads : forall n, good_chunks reads -> good n -> is_open i n = true ->
  good (feed i reads n) /\ is_open i (feed i reads n) = true /\
  recv_of i (n_trace (feed i reads n)) = recv_of i (n_trace n) ++ concat (chunks reads).
Proof.
  induction reads as [|((chunk & now) & clock) reads IH]; intros n W (S & D) O.
  - cbn. rewrite app_nil_r. split; [split; assumption|]. split; [assumption|reflexivity].
  - unfold good_chunks, chunks in W. cbn [map fst] in W. apply Forall_cons_iff in W. destruct W as ((N & Wc) & W).
    destruct (read_step i chunk now clock n O N) as (O1 & R1).
    assert (wf_event (EvRead i (RData chunk) now clock)) as We by exact Wc.
    destruct (IH (step n (EvRead i (RData chunk) now clock)) W) as (G2 & O2 & R2).
    + split; [now apply step_stream_inv|now apply drained_step].
    + exact O1.
    + cbn [feed fold_left]. split; [exact G2|]. split; [exact O2|]. etransitivity; [exact R2|]. rewrite R1. cbn [chunks map fst concat].
      now rewrite <- app_assoc.
Qed.
(** What a connection has handled is determined by what it has received. *)
Lemma handled_by_received i n c : good n -> get_conn i n = Some c ->
  exists fs, framed (recv_of i (n_trace n)) fs (c_recv c) /\ frames_of i (n_trace n) = map (outcome sha256 cf i) fs.
Proof.
  intros ((I1 & _) & D) G. specialize (I1 i). rewrite G in I1. destruct I1 as ((fs & A & B & C) & _).
  exists fs. split; [|exact C]. split; [exact A|]. split; [exact B|]. exact (D i c G).
Qed.
End Reads.

(** ** Counters over all connections *)
Lemma sum_upd (g : conn -> Z) i f l : sum_conns g (upd i f l) =
  sum_conns g l + match get_conn i l with Some c => g (f c) - g c | None => 0 end.
Proof.
  unfold sum_conns, get_conn, upd. cbn [n_conns set_n_conns]. revert i. generalize (n_conns l) as cs.
  induction cs as [|c cs IH]; intros [|i]; cbn [upd_nth fold_right nth_error]; try lia. rewrite IH. lia.
Qed.
Lemma sum_scores (g : conn -> Z) n n' : (forall i, option_map g (get_conn i n') = option_map g (get_conn i n)) ->
  sum_conns g n' = sum_conns g n.
Proof.
  unfold sum_conns, get_conn. generalize (n_conns n) as a. generalize (n_conns n') as b.
  induction b as [|x b IH]; intros [|y a] H.
  - reflexivity.
  - specialize (H 0%nat). discriminate.
  - specialize (H 0%nat). discriminate.
  - cbn [fold_right]. rewrite (IH a).
    + specialize (H 0%nat). cbn in H. injection H as H. lia.
    + intro i. exact (H (S i)).
Qed.
Section Counters.
Variable sha256 : bytes -> bytes.
Variable py2 : bool.
Variable cf : config.
Definition counters (n : node) : Prop := n_rx n = sum_conns c_rx n /\ n_tx n = sum_conns c_tx n.
Lemma counters_prim n n' : prim sha256 cf n n' -> counters n -> counters n'.
Proof.
  intros H (R & T). unfold counters. destruct H as [n n' H|n i c len G F L|n i chunk now _ W].
  - destruct (prim0_cases sha256 cf n n' H) as [S|[(i & m & b & ->)|[(a & inc & ->)|(i & k & now & ->)]]].
    + destruct S as (S & _ & _ & _ & S5 & S6). rewrite S5, S6, R, T. split; symmetry; apply sum_scores; intro i; specialize (S i);
        destruct (get_conn i n'), (get_conn i n); cbn in *; try discriminate; try reflexivity; unfold scores in S; injection S as ? ? ? ?; f_equal; assumption.
    + unfold queue. destruct (get_conn i n) as [c|] eqn:G; [|auto]. unfold emit. cbn [n_rx n_tx set_n_trace].
      change (sum_conns ?g (set_n_trace ?t ?x)) with (sum_conns g x). rewrite !sum_upd, G. cbn. lia.
    + unfold register, emit. unfold sum_conns in *. cbn [n_rx n_tx set_n_trace set_n_conns n_conns].
      rewrite !fold_right_app. cbn [fold_right fresh_conn c_rx c_tx]. split; assumption.
    + unfold wrote. destruct (get_conn i n) as [c|] eqn:G; [|auto]. unfold emit.
      match goal with |- context [set_n_trace ?t (set_n_tx ?v ?x)] => change (sum_conns c_rx (set_n_trace t (set_n_tx v x))) with (sum_conns c_rx x);
        change (sum_conns c_tx (set_n_trace t (set_n_tx v x))) with (sum_conns c_tx x) end.
      cbn [n_rx n_tx set_n_trace set_n_tx upd set_n_conns]. rewrite !sum_upd, G. cbn. lia.
  - unfold take_frame, emit. change (sum_conns ?g (set_n_trace ?t ?x)) with (sum_conns g x). rewrite !sum_upd, G. cbn. lia.
  - unfold received. destruct (get_conn i n) as [c|] eqn:G; [|auto]. unfold emit.
    match goal with |- context [set_n_trace ?t (set_n_rx ?v ?x)] => change (sum_conns c_rx (set_n_trace t (set_n_rx v x))) with (sum_conns c_rx x);
      change (sum_conns c_tx (set_n_trace t (set_n_rx v x))) with (sum_conns c_tx x) end.
    cbn [n_rx n_tx set_n_trace set_n_rx upd set_n_conns]. rewrite !sum_upd, G. cbn. lia.
Qed.
Theorem counters_history es : Forall wf_event es -> counters (history sha256 py2 cf es).
Proof. apply history_inv; [split; reflexivity|apply counters_prim]. Qed.

(** ** Queued bytes are serialised messages *)
Definition queue_ok (n : node) : Prop :=
  Forall (fun a => match a with AQueue _ m b => msg_binary sha256 m (cf_magic cf) = Ok b | _ => True end) (n_trace n).
Lemma queue_ok_emit a n : (match a with AQueue _ m b => msg_binary sha256 m (cf_magic cf) = Ok b | _ => True end) ->
  queue_ok n -> queue_ok (emit a n).
Proof. intros H Q. unfold queue_ok, emit in *. cbn [n_trace set_n_trace]. apply Forall_app. split; [assumption|]. constructor; [assumption|constructor]. Qed.
Lemma queue_ok_prim n n' : prim sha256 cf n n' -> queue_ok n -> queue_ok n'.
Proof.
  intros H Q. destruct H as [n n' H|n i c len G F L|n i chunk now _ W].
  - destruct H; unfold queue, shut, register, add_banscore, reduce_banscore, pinged, check_external_ip, record_peer, wrote, ban, beat, disconnected;
    try (destruct (get_conn i n) as [?c|]; [|exact Q]);
    try match goal with |- context [if ?c then _ else _] => destruct c end;
    try match goal with |- context [match ?c with [] => _ | _ => _ end] => destruct c end;
    try exact Q;
    try (match goal with |- context [emit ?a ?n] => apply (queue_ok_emit a n); [try exact I; try assumption|exact Q] end).
    destruct a; try contradiction; exact I.
  - unfold take_frame. apply queue_ok_emit; [|exact Q]. unfold outcome. destruct (msg_parse _ _ _); [exact I|]. destruct (is_invalid e); exact I.
  - unfold received. destruct (get_conn i n); [|exact Q]. apply queue_ok_emit; [exact I|exact Q].
Qed.
Theorem queue_ok_history es : Forall wf_event es -> queue_ok (history sha256 py2 cf es).
Proof. apply history_inv; [constructor|apply queue_ok_prim]. Qed.

(** ** Pings *)
Definition ping_times (i : nat) (tr : list action) : list Z :=
  flat_map (fun a => match a with APing j t => if Nat.eqb j i then [t] else [] | _ => [] end) tr.
(** Consecutive elements differ by more than [d]. *)
Fixpoint spaced (d : Z) (l : list Z) : Prop :=
  match l with
  | x :: (y :: _) as r => y - x > d /\ spaced d r
  | _ => True
  end.
Lemma spaced_snoc d l x y : spaced d (l ++ [x]) -> y - x > d -> spaced d (l ++ [x; y]).
Proof.
  induction l as [|a [|b l] IH]; cbn; intros H1 H2; [auto|tauto|]. destruct H1 as (H1 & H3). split; [assumption|]. now apply IH.
Qed.
Definition ping_inv (n : node) : Prop :=
  forall i, match get_conn i n with
            | Some c => spaced (300 * SEC) (ping_times i (n_trace n)) /\
                (forall t l, ping_times i (n_trace n) = l ++ [t] -> t <= c_last_ping c)
            | None => ping_times i (n_trace n) = []
            end.
Lemma ping_inv_same n n' : (forall i, option_map c_last_ping (get_conn i n') = option_map c_last_ping (get_conn i n)) ->
  (forall i, ping_times i (n_trace n') = ping_times i (n_trace n)) -> ping_inv n -> ping_inv n'.
Proof.
  intros G T I i. specialize (G i). specialize (I i). rewrite T. destruct (get_conn i n') as [c'|], (get_conn i n) as [c|]; try discriminate; [|assumption].
  cbn in G. injection G as ->. exact I.
Qed.
Lemma ping_emit i a n : (forall j, ping_times j [a] = []) -> ping_times i (n_trace (emit a n)) = ping_times i (n_trace n).
Proof. intro H. unfold emit. cbn [n_trace set_n_trace]. unfold ping_times at 1. rewrite flat_map_app. fold (ping_times i [a]). rewrite H. apply app_nil_r. Qed.
Lemma get_upd_same {A} (g : conn -> A) i f n : (forall c, g (f c) = g c) ->
  forall j, option_map g (get_conn j (upd i f n)) = option_map g (get_conn j n).
Proof. intros H j. rewrite get_upd. destruct (Nat.eqb i j); [|reflexivity]. destruct (get_conn j n); cbn; [now rewrite H|reflexivity]. Qed.
Lemma ping_inv_prim n n' : prim sha256 cf n n' -> ping_inv n -> ping_inv n'.
Proof.
  intros H I0. 
  assert (forall i f, (forall c, c_last_ping (f c) = c_last_ping c) -> ping_inv (upd i f n)) as U.
  { intros i f Hf. revert I0. apply ping_inv_same; [|reflexivity]. now apply get_upd_same. }
  assert (forall a n, (forall j, ping_times j [a] = []) -> ping_inv n -> ping_inv (emit a n)) as E.
  { intros a n0 Ha. apply ping_inv_same; [reflexivity|]. intro. now apply ping_emit. }
  assert (forall n n', n_conns n' = n_conns n -> n_trace n' = n_trace n -> ping_inv n -> ping_inv n') as F.
  { intros n0 n1 H1 H2. apply ping_inv_same; intro; unfold get_conn; now rewrite ?H1, ?H2. }
  destruct H as [n n' H|n i c len G Fm L|n i chunk now _ W].
  - destruct H.
    + unfold queue. destruct (get_conn i n) as [c|]; [|assumption]. apply E; [reflexivity|]. now apply U.
    + unfold shut. destruct (get_conn i n) as [c|]; [|assumption]. unfold disconnected. 
      assert (ping_inv (emit (AClose i) (upd i (set_c_open false) n))) by (apply E; [reflexivity|now apply U]).
      destruct (book_mem _ _); [eapply F; [| |eassumption]; reflexivity|assumption].
    + intro j. specialize (I0 j). rewrite get_register. unfold register. rewrite ping_emit by reflexivity.
      destruct (Nat.eqb_spec j (List.length (n_conns n))) as [->|].
      * assert (get_conn (List.length (n_conns n)) n = None) as En by (apply nth_error_None; lia). rewrite En in I0.
        cbn [n_trace set_n_conns]. rewrite I0. split; [exact I|]. intros t [|]; discriminate.
      * exact I0.
    + unfold add_banscore. destruct (get_conn i n); [|assumption]. now apply U.
    + unfold reduce_banscore. destruct (get_conn i n); [|assumption]. now apply U.
    + unfold pinged. rewrite H. intro j. rewrite get_emit, get_upd.
      assert (forall j, ping_times j (n_trace (emit (APing i now) (upd i (set_c_last_ping now2) n))) =
                ping_times j (n_trace n) ++ (if Nat.eqb i j then [now] else [])) as T.
      { intro k. unfold emit. cbn [n_trace set_n_trace upd set_n_conns]. unfold ping_times. rewrite flat_map_app. cbn. now rewrite app_nil_r. }
      rewrite T. specialize (I0 j). destruct (Nat.eqb_spec i j) as [->|]; [|now rewrite app_nil_r].
      rewrite H in *. cbn [option_map c_last_ping set_c_last_ping]. destruct I0 as (S & B). split.
      * destruct (ping_times j (n_trace n)) as [|z l] eqn:El using rev_ind; [exact I|]. clear IHl.
        rewrite <- app_assoc. cbn [app]. apply spaced_snoc; [assumption|]. specialize (B z l eq_refl). lia.
      * intros t l Hl. apply app_inj_tail in Hl. destruct Hl as (_ & <-). assumption.
    + unfold check_external_ip. destruct (count_votes _ _ _); [assumption|]. eapply F; [| |eassumption]; reflexivity.
    + apply U. intro c. specialize (H c). unfold core in H. injection H as ? ? ? ? ? ? ? ? ? ? ?. assumption.
    + unfold record_peer. destruct (get_conn i n); [|assumption]. destruct (_ <? _); [eapply F; [| |eassumption]; reflexivity|assumption].
    + eapply F; [| |eassumption]; reflexivity.
    + apply E; [|assumption]. destruct a; try contradiction; reflexivity.
    + unfold wrote. destruct (get_conn i n) as [c|]; [|assumption]. apply E; [reflexivity|].
      eapply F; [reflexivity|reflexivity|]. now apply U.
    + unfold ban. apply E; [reflexivity|]. eapply F; [| |eassumption]; reflexivity.
    + eapply F; [| |eassumption]; reflexivity.
    + unfold beat. apply E; [reflexivity|]. eapply F; [| |eassumption]; reflexivity.
    + eapply F; [| |eassumption]; reflexivity.
  - unfold take_frame. apply E; [|now apply U]. intro j. unfold outcome. destruct (msg_parse _ _ _); [reflexivity|]. destruct (is_invalid e); reflexivity.
  - unfold received. destruct (get_conn i n); [|assumption]. apply E; [reflexivity|]. eapply F; [reflexivity|reflexivity|]. now apply U.
Qed.
Theorem ping_inv_history es : Forall wf_event es -> ping_inv (history sha256 py2 cf es).
Proof. apply history_inv; [|apply ping_inv_prim]. intro i. unfold get_conn. cbn. destruct i; reflexivity. Qed.
End Counters.
