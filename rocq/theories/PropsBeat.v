(** C25: when the event loop runs a heartbeat (nbc/node/basenode.py:273-281). *)
From Coq Require Import String ZArith List Lia Bool.
From Verif Require Import PyBase PyVal FormatModel MessagesModel NodeModel NodeProofs NodeProofs2 NodeProofs3 NodeProofs4 NodeProofs5 PropsNode.
Import ListNotations.
Open Scope list_scope.
Open Scope Z_scope.

Section Beat.
  Variable sha256 : bytes -> bytes.
  Variable py2 : bool.
  Variable cf : config.
  (** Nothing but the loop runs heartbeats or moves their clock. *)
  Definition Bt (n n' : node) : Prop := beats_of (n_trace n') = beats_of (n_trace n) /\ n_last_heartbeat n' = n_last_heartbeat n.
  Lemma Bt_refl n : Bt n n. Proof. now split. Qed.
  Lemma Bt_trans a b c : Bt a b -> Bt b c -> Bt a c. Proof. intros (A & B) (C & D). split; congruence. Qed.
  Lemma Bt_emit a n n' : beats_of [a] = [] -> n_trace n' = n_trace n -> n_last_heartbeat n' = n_last_heartbeat n -> Bt n (emit a n').
  Proof. intros H T L. split; [rewrite beats_emit by exact H; now rewrite T|exact L]. Qed.
  Lemma prim_beats n n' : prim sha256 cf n n' -> Bt n n' \/ exists now, n' = beat now n.
  Proof.
    intros [n1 n2 H|n1 i c len G F L|n1 i chunk now _ W].
    - destruct H; unfold queue, shut, add_banscore, reduce_banscore, pinged, check_external_ip, record_peer, wrote, disconnected; try (left; apply Bt_refl); try (right; eexists; reflexivity); left;
        try (destruct (get_conn i n0); [|apply Bt_refl]); try (now apply Bt_emit); try (now split).
      + assert (Bt n0 (emit (AClose i) (upd i (set_c_open false) n0))) as K by (now apply Bt_emit). destruct (book_mem _ _); exact K.
      + destruct (count_votes _ _ _); now split.
      + destruct (_ <? _); now split.
      + apply Bt_emit; [|reflexivity|reflexivity]. destruct a; try contradiction; reflexivity.
    - left. unfold take_frame. apply Bt_emit; [|reflexivity|reflexivity]. unfold outcome. destruct (msg_parse _ _ _); [reflexivity|]. destruct (is_invalid e); reflexivity.
    - left. unfold received. destruct (get_conn i n1); [|apply Bt_refl]. now apply Bt_emit.
  Qed.
  Lemma beats_beat now n : beats_of (n_trace (beat now n)) = beats_of (n_trace n) ++ [now].
  Proof. unfold beat, emit. cbn [n_trace set_n_trace set_n_last_heartbeat]. unfold beats_of. now rewrite flat_map_app. Qed.
  Lemma last_beat es : Forall wf_event es -> n_last_heartbeat (history sha256 py2 cf es) = last (beats_of (n_trace (history sha256 py2 cf es))) 0.
  Proof.
    apply (history_inv sha256 py2 cf (fun n => n_last_heartbeat n = last (beats_of (n_trace n)) 0)); [reflexivity|]. intros n n' H K.
    destruct (prim_beats n n' H) as [(B & L)|(now & ->)]; [congruence|]. rewrite beats_beat, last_last. reflexivity.
  Qed.
  Lemma heartbeat_beats envs pick : presR Bt (heartbeat sha256 cf envs pick).
  Proof.
    assert (forall n n', prim0 sha256 cf n n' -> (forall now, n' <> beat now n) -> Bt n n') as P.
    { intros n n' H N. destruct (prim_beats n n' (p_prim0 _ _ _ _ H)) as [B|(now & E)]; [exact B|]. now destruct (N now). }
    apply presR_heartbeat; try (exact Bt_refl); try (exact Bt_trans).
    - intros n i m b _. unfold queue. destruct (get_conn i n); [now apply Bt_emit|apply Bt_refl].
    - intros n i. unfold shut, disconnected. destruct (get_conn i n); [|apply Bt_refl]. assert (Bt n (emit (AClose i) (upd i (set_c_open false) n))) as K by (now apply Bt_emit). destruct (book_mem _ _); exact K.
    - intros. unfold register. now apply Bt_emit.
    - intros n i. unfold reduce_banscore. destruct (get_conn i n); now split.
  Qed.
  (** A turn of the loop runs a heartbeat exactly when the last one, or the epoch
      if there was none, is more than ten seconds ago. *)
  Theorem C25_when es now envs pick : Forall wf_event es -> let n := history sha256 py2 cf es in let before := beats_of (n_trace n) in
    beats_of (n_trace (step sha256 py2 cf n (EvLoop now envs pick))) = before ++ (if now - last before 0 >? 10 * SEC then [now] else []).
  Proof.
    intros W n before. cbn [step]. unfold run, items, bindM at 1, getM. cbv beta iota. unfold n. rewrite (last_beat es W). fold n. fold before.
    destruct (now - last before 0 >? 10 * SEC); [|cbn; symmetry; apply app_nil_r]. unfold bindM, modM. cbv beta iota. rewrite (proj1 (heartbeat_beats envs pick (beat now n))). apply beats_beat.
  Qed.
  (** Nothing else runs one. *)
  Theorem C25_only n e : (forall now envs pick, e <> EvLoop now envs pick) ->
    beats_of (n_trace (step sha256 py2 cf n e)) = beats_of (n_trace n).
  Proof.
    intro N.
    assert (forall i m b n, Bt n (queue i m b n)) as Q by (intros i m b n0; unfold queue; destruct (get_conn i n0); [now apply Bt_emit|apply Bt_refl]).
    assert (forall i n, Bt n (shut i n)) as Sh.
    { intros i n0. unfold shut, disconnected. destruct (get_conn i n0); [|apply Bt_refl]. assert (Bt n0 (emit (AClose i) (upd i (set_c_open false) n0))) as K by (now apply Bt_emit). destruct (book_mem _ _); exact K. }
    assert (forall a inc n, Bt n (register a inc n)) as Rg by (intros; unfold register; now apply Bt_emit).
    assert (forall i n, Bt n (add_banscore i n)) as Ad by (intros i n0; unfold add_banscore; destruct (get_conn i n0); now split).
    assert (forall i now now2 n, Bt n (pinged i now now2 n)) as Pg by (intros i now now2 n0; unfold pinged; destruct (get_conn i n0); [now apply Bt_emit|apply Bt_refl]).
    assert (forall n, Bt n (check_external_ip n)) as Ex by (intro n0; unfold check_external_ip; destruct (count_votes _ _ _); now split).
    assert (forall i f n, Bt n (upd i f n)) as Up by (intros; now split).
    assert (forall i now n, Bt n (record_peer i now n)) as Rc by (intros i now n0; unfold record_peer; destruct (get_conn i n0); [|apply Bt_refl]; destruct (_ <? _); now split).
    assert (forall a n, inert a -> Bt n (emit a n)) as Nt by (intros a n0 H; apply Bt_emit; [|reflexivity|reflexivity]; destruct a; try contradiction; reflexivity).
    assert (forall i k now n, Bt n (wrote i k now n)) as Wr by (intros i k now n0; unfold wrote; destruct (get_conn i n0); [now apply Bt_emit|apply Bt_refl]).
    assert (forall i c len n, Bt n (take_frame sha256 cf i len c n)) as Fr.
    { intros. unfold take_frame. apply Bt_emit; [|reflexivity|reflexivity]. unfold outcome. destruct (msg_parse _ _ _); [reflexivity|]. destruct (is_invalid e0); reflexivity. }
    assert (Cl : forall i, presR Bt (handle_close i)) by (intro; apply presR_close; auto).
    enough (Bt n (step sha256 py2 cf n e)) as (H & _) by exact H. destruct e; cbn [step]; unfold run; try (destruct (is_open i n); [|apply Bt_refl]).
    - now destruct (N now envs pick).
    - unfold readable, bindM at 1, getM. cbv beta iota. destruct (get_conn i n) as [c|]; [|apply Bt_refl]. cbv zeta.
      match goal with |- Bt n (fst (?m n)) => assert (presR Bt m) as X; [|apply X] end. apply presR_bind; [exact Bt_trans| |].
      + destruct (_ && _); [|apply presR_ret; exact Bt_refl]. apply presR_bind; [exact Bt_trans|apply presR_lift; exact Bt_refl|]. intro m. apply presR_bind; [exact Bt_trans|apply presR_send; auto using Bt_refl|]. intros _. apply presR_mod. intro. apply Pg.
      + intros _. destruct (_ && _); [|apply presR_ret; exact Bt_refl]. apply presR_bind; [exact Bt_trans|apply Cl|]. intros _. apply presR_ret; exact Bt_refl.
    - destruct r as [[|x chunk]|]; cbn [handle_read].
      + match goal with |- Bt n (fst (?m n)) => assert (presR Bt m) as X; [|apply X] end. apply presR_bind; [exact Bt_trans|apply Cl|]. intros _. apply Cl.
      + unfold bindM at 1, modM at 1. cbv beta iota. unfold bindM, getM. cbv beta iota.
        assert (Bt n (received i (x :: chunk) now n)) as X by (unfold received; destruct (get_conn i n); [now apply Bt_emit|apply Bt_refl]).
        destruct (get_conn i (received i (x :: chunk) now n)) as [c|]; [|exact X]. eapply Bt_trans; [exact X|]. apply read_loop_R; auto using Bt_refl; try exact Bt_trans; intros; now split.
      + apply Cl.
    - destruct r; cbn [handle_write]; unfold handle_close, bindM, modM; cbn [fst]; [apply Wr| |apply Sh]. eapply Bt_trans; [apply Sh|apply Wr].
    - apply Cl.
    - destruct (n_listener n); [|apply Bt_refl]. apply presR_accept; auto using Bt_refl; try exact Bt_trans; intros; now split.
    - apply presR_add_peer; auto using Bt_refl; try exact Bt_trans.
    - apply presR_remove; auto using Bt_refl.
    - apply presR_punish; auto using Bt_refl; try exact Bt_trans. intros. unfold ban. now apply Bt_emit.
    - apply presR_send; auto using Bt_refl.
  Qed.
End Beat.
Example C25_turns : let e t := EvLoop (t * SEC) (fun k => mk_attempt 0 k nx_env) 0 in let es := map e [100; 105] in Forall wf_event es /\
  last (beats_of (n_trace (nx_hist es))) 0 = 100 * SEC /\ last (beats_of (n_trace (nx_hist []))) 0 = 0.
Proof. cbv zeta. split; [repeat constructor|]. split; vm_compute; reflexivity. Qed.

(** ** Assumptions *)

Print Assumptions C25_when.
Print Assumptions C25_only.
