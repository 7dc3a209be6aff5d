(** C136: what is kept for a peer that does not read. *)
From Coq Require Import String ZArith List Lia Bool.
From Verif Require Import PyBase PyVal FormatModel MessagesModel FormatSpec FormatProofs FormatProofs2 MessagesProofs
  NodeModel NodeProofs NodeProofs2 NodeProofs3 NodeProofs9 NodeProofs10 NodeProofs12
  PropsNode PropsTalk PropsSilent PropsFair.
Import ListNotations.
Open Scope string_scope.
Open Scope list_scope.
Open Scope Z_scope.

(** The bytes queued on connection [i] for other messages than verack, pong and
    addr: those the node sends of its own accord or for the application. *)
Definition own_bytes (i : nat) (tr : list action) : bytes :=
  flat_map (fun a => match a with AQueue j m b => if Nat.eqb j i && negb (reply m) then b else [] | _ => [] end) tr.
Lemma queued_split i tr : zlen (queued_of i tr) = zlen (reply_bytes i tr) + zlen (own_bytes i tr).
Proof.
  induction tr as [|a tr IH]; [reflexivity|]. change (queued_of i (a :: tr)) with (queued_of i ([a] ++ tr)). change (reply_bytes i (a :: tr)) with (reply_bytes i ([a] ++ tr)). change (own_bytes i (a :: tr)) with (own_bytes i ([a] ++ tr)).
  rewrite queued_app. unfold reply_bytes at 1, own_bytes at 1. rewrite !flat_map_app, !zlen_app. fold (reply_bytes i tr) (own_bytes i tr). rewrite IH.
  assert (zlen (queued_of i [a]) = zlen (reply_bytes i [a]) + zlen (own_bytes i [a])); [|unfold reply_bytes, own_bytes in *; lia].
  unfold queued_of, reply_bytes, own_bytes. cbn [flat_map]. destruct a as [| | | | | | | | | |j m b| | | |]; try reflexivity. rewrite !app_nil_r. destruct (Nat.eqb j i); [|reflexivity]. cbn [andb]. destruct (reply m); cbn [negb]; change (zlen (@nil Z)) with 0; lia.
Qed.
(** Python 3: what waits to be sent and what was sent is at most what the node
    said of its own accord and what it has received. *)
Theorem C136_queue_partial sha256 cf es i c : zlen (cf_magic cf) = 4 -> Forall wf_event es -> get_conn i (history sha256 false cf es) = Some c -> (forall m, In (EvSend i m) es -> reply m = false) ->
  let tr := n_trace (history sha256 false cf es) in
  zlen (c_send c) + zlen (wire_of i tr) <= zlen (own_bytes i tr) + zlen (recv_of i tr).
Proof.
  intros M W G A tr. pose proof (C15_outgoing_fifo sha256 false cf es i c W G) as Q. fold tr in Q. pose proof (queued_split i tr) as S. rewrite Q, zlen_app in S. pose proof (C134_no_amplification_partial sha256 cf M es i c W G A) as B. fold tr in B. lia.
Qed.

Lemma map_repeat' {A B} (f : A -> B) x n : map f (repeat x n) = repeat (f x) n.
Proof. induction n as [|n IH]; [reflexivity|]. cbn. now rewrite IH. Qed.

Section Flood.
Variable sha256 : bytes -> bytes.
Variable py2 : bool.
Variable cf : config.
Definition mute (n n' : node) : Prop := forall j, wire_of j (n_trace n') = wire_of j (n_trace n).
Lemma mute_emit a n : (forall j, wire_of j [a] = []) -> mute n (emit a n).
Proof. intros H j. unfold emit. cbn [n_trace set_n_trace]. rewrite wire_app, H. apply app_nil_r. Qed.
Lemma read_loop_mute fuel i clock n : mute n (fst (read_loop sha256 py2 cf fuel i clock n)).
Proof.
  apply read_loop_R; unfold mute; intros.
  - reflexivity.
  - congruence.
  - unfold queue. destruct (get_conn i0 n0); [|reflexivity]. rewrite mute_emit; [reflexivity|]. intro j'; reflexivity.
  - unfold check_external_ip. destruct (count_votes _ _ _); reflexivity.
  - reflexivity.
  - unfold record_peer. destruct (get_conn i0 n0); [|reflexivity]. destruct (_ <? _); reflexivity.
  - reflexivity.
  - apply mute_emit. intro j'. destruct a; try contradiction; reflexivity.
  - unfold take_frame. rewrite mute_emit; [reflexivity|]. intro j'. apply (outcome_quiet sha256 cf i0 j').
Qed.
Lemma read_mute i chunk now clock n : chunk <> [] -> mute n (step sha256 py2 cf n (EvRead i (RData chunk) now clock)).
Proof.
  intro N. cbn [NodeModel.step]. destruct (is_open i n); [|intro j; reflexivity]. destruct chunk as [|x chunk]; [contradiction|]. cbn [handle_read].
  unfold run, bindM at 1, modM. cbv beta iota. unfold bindM, getM. cbv beta iota. set (n1 := received i (x :: chunk) now n).
  assert (mute n n1) as M1. { unfold n1, received. destruct (get_conn i n); [|intro j; reflexivity]. intro j. rewrite mute_emit; [reflexivity|]. intro j'. reflexivity. }
  destruct (get_conn i n1) as [c|]; [|exact M1]. intro j. rewrite <- (M1 j). apply read_loop_mute.
Qed.
Lemma feed_mute i reads : forall n, good_chunks reads -> mute n (feed sha256 py2 cf i reads n).
Proof.
  induction reads as [|((chunk & now) & clock) reads IH]; intros n W; [intro j; reflexivity|]. inversion W as [|? ? (N & _) W']; subst. cbn [feed fold_left]. intro j. fold (feed sha256 py2 cf i reads (step sha256 py2 cf n (EvRead i (RData chunk) now clock))).
  rewrite (IH _ W' j). now apply read_mute.
Qed.
(** The pongs of a conversation. *)
Definition pong_size (m : message) : Z := if String.eqb (cmd m) "ping" then match assoc "nonce" (m_fields m) with Some (VBytes x) => if zlen x =? 8 then size sha256 cf (pong_message x) else 0 | _ => 0 end else 0.
Lemma pongs_said asked l : dialogue py2 asked l -> total pong_size (heard l) <= total (size sha256 cf) (said l).
Proof.
  assert (forall r, 0 <= total (size sha256 cf) r) as P. { induction r as [|m r IH]; [change (total (size sha256 cf) []) with 0; lia|]. rewrite total_cons. pose proof (size_nonneg sha256 cf m). lia. }
  induction 1 as [|l m Hl IH Hm|l m r Hl IH Hr]; [cbn [said heard flat_map]; change (total (size sha256 cf) []) with 0; change (total pong_size []) with 0; lia| |].
  - rewrite said_app, heard_app'. cbn [said heard flat_map app]. rewrite app_nil_r, total_app. pose proof (P [m]). lia.
  - rewrite said_app, heard_app', said_answers, heard_answers, !total_app, total_cons. change (total pong_size []) with 0. pose proof (P r). assert (pong_size m <= total (size sha256 cf) r); [|lia].
    unfold pong_size. destruct (String.eqb (cmd m) "ping") eqn:E; [|lia]. unfold answered in Hr. assert (String.eqb (cmd m) "version" = false) as E' by (apply String.eqb_eq in E; rewrite E; reflexivity). rewrite E', E in Hr. destruct Hr as (nonce & -> & ->).
    destruct (zlen nonce =? 8); [|lia]. rewrite total_cons. change (total (size sha256 cf) []) with 0. lia.
Qed.
Lemma queued_total i tr : Forall (fun a => match a with AQueue _ m b => msg_binary sha256 m (cf_magic cf) = Ok b | _ => True end) tr -> zlen (queued_of i tr) = total (size sha256 cf) (said (talk i tr)).
Proof.
  induction 1 as [|a tr Ha _ IH]; [reflexivity|]. change (queued_of i (a :: tr)) with (queued_of i ([a] ++ tr)). change (talk i (a :: tr)) with (talk i ([a] ++ tr)). rewrite queued_app, talk_app, said_app, total_app, zlen_app, <- IH. f_equal.
  destruct a as [| | | |j m| | | | | |j m b| | | |]; try reflexivity; [cbn; now destruct (Nat.eqb j i)|]. cbn [queued_of talk flat_map]. destruct (Nat.eqb j i); [|reflexivity]. rewrite !app_nil_r. cbn [said flat_map app]. rewrite total_cons. change (total (size sha256 cf) []) with 0. unfold size. rewrite Ha. lia.
Qed.
(** [k] pings in [k] reads queue [k] pongs. *)
Lemma flood es i frame m now clock k : Forall wf_event es -> is_open i (history sha256 py2 cf es) = true -> wf_bytes frame -> is_frame frame -> msg_parse sha256 frame (cf_magic cf) = Ok m ->
  (forall c, get_conn i (history sha256 py2 cf es) = Some c -> c_recv c = []) -> (0 <= pong_size m) ->
  exists c, get_conn i (history sha256 py2 cf (es ++ repeat (EvRead i (RData frame) now clock) k)) = Some c /\ is_open i (history sha256 py2 cf (es ++ repeat (EvRead i (RData frame) now clock) k)) = true /\
  Z.of_nat k * pong_size m <= zlen (wire_of i (n_trace (history sha256 py2 cf es))) + zlen (c_send c).
Proof.
  intros W O Wf F P R H0. set (reads := repeat (frame, now, clock) k). set (n := history sha256 py2 cf es) in *.
  assert (frame <> []) as Nf by (intros ->; destruct F as (F & _); unfold zlen in F; cbn in F; lia).
  assert (good_chunks reads) as Gc. { unfold good_chunks, chunks, reads. rewrite map_repeat'. cbn [fst]. apply Forall_forall. intros x Hx. apply repeat_spec in Hx. subst x. now split. }
  assert (history sha256 py2 cf (es ++ repeat (EvRead i (RData frame) now clock) k) = feed sha256 py2 cf i reads n) as E.
  { unfold history. rewrite fold_left_app. fold (history sha256 py2 cf es). fold n. unfold feed, reads. clear. generalize n. induction k as [|k IH]; intro n'; [reflexivity|]. cbn [repeat fold_left]. apply IH. }
  assert (Forall wf_event (es ++ repeat (EvRead i (RData frame) now clock) k)) as W2. { apply Forall_app. split; [exact W|]. apply Forall_forall. intros x Hx. apply repeat_spec in Hx. subst x. exact Wf. }
  pose proof (good_history sha256 py2 cf es W) as G. destruct (feed_spec sha256 py2 cf i reads n Gc G O) as (G' & O' & R'). pose proof O as O1. apply is_open_get in O1. destruct O1 as (c0 & G0 & _). pose proof O' as O2. apply is_open_get in O2. destruct O2 as (c & Gn & _).
  exists c. rewrite E. split; [exact Gn|]. split; [exact O'|].
  pose proof (C15_outgoing_fifo sha256 py2 cf _ i c W2) as Q. rewrite E in Q. specialize (Q Gn). rewrite (feed_mute i reads n Gc i) in Q.
  pose proof (queue_ok_history sha256 py2 cf _ W2) as Qk. rewrite E in Qk. pose proof (queued_total i _ Qk) as T. rewrite Q, zlen_app in T. rewrite T.
  pose proof (history_dialogue sha256 py2 cf (es ++ repeat (EvRead i (RData frame) now clock) k) i) as D. rewrite E in D. apply pongs_said in D. eapply Z.le_trans; [|exact D].
  destruct (handled_by_received sha256 cf i n c0 G G0) as (fs & Fr & Fe). destruct (handled_by_received sha256 cf i _ c G' Gn) as (fs' & Fr' & Fe'). rewrite (R c0 G0) in Fr.
  assert (fs' = fs ++ repeat frame k) as ->.
  { rewrite R' in Fr'. refine (proj1 (framed_unique _ _ _ _ [] Fr' _)). destruct Fr as (A1 & A2 & A3). split; [|split; [|exact A3]].
    - rewrite A1, !app_nil_r, concat_app. f_equal. unfold chunks, reads. rewrite map_repeat'. reflexivity.
    - apply Forall_app. split; [exact A2|]. apply Forall_forall. intros x Hx. apply repeat_spec in Hx. now subst x. }
  rewrite <- heard_of_frames, Fe', map_app, talk_app, heard_app', total_app.
  assert (0 <= total pong_size (heard (talk i (map (outcome sha256 cf i) fs)))) as X.
  { generalize (heard (talk i (map (outcome sha256 cf i) fs))). clear. intro l. induction l as [|x l IH]; [change (total pong_size []) with 0; lia|]. rewrite total_cons. assert (0 <= pong_size x); [|lia]. unfold pong_size. destruct (String.eqb _ _); [|lia]. destruct (assoc _ _) as [[| | | | |y| | | |]|]; try lia. destruct (_ =? _); [apply size_nonneg|lia]. }
  assert (total pong_size (heard (talk i (map (outcome sha256 cf i) (repeat frame k)))) = Z.of_nat k * pong_size m) as ->; [|lia].
  clear - P. induction k as [|k IH]; [reflexivity|]. cbn [repeat map]. change (outcome sha256 cf i frame :: map (outcome sha256 cf i) (repeat frame k)) with ([outcome sha256 cf i frame] ++ map (outcome sha256 cf i) (repeat frame k)). rewrite talk_app, heard_app', total_app, IH.
  unfold outcome at 1. rewrite P. cbn [talk flat_map]. rewrite Nat.eqb_refl. cbn [app heard flat_map]. rewrite total_cons. change (total pong_size []) with 0. lia.
Qed.
End Flood.

(** A peer that sends pings and reads nothing: the bytes kept for it exceed
    every bound, with 32 bytes for each ping. *)
Theorem C136_refuted : forall py2 bound, exists k c,
  get_conn 0 (history nx_sha py2 nx_cf (EvAccept nx_a (1000 * SEC) nx_env :: repeat (EvRead 0 (RData nx_ping) 0 nx_clock) k)) = Some c /\ c_open c = true /\ bound < zlen (c_send c).
Proof.
  intros py2 bound. set (k := Z.to_nat (Z.max 0 bound + 1)). exists k.
  assert (wf_bytes nx_ping) as Wp by (apply all_bytes_wf; vm_compute; reflexivity).
  assert (exists m, msg_parse nx_sha nx_ping (cf_magic nx_cf) = Ok m /\ pong_size nx_sha nx_cf m = 32) as (m & Pm & Sm) by (exists (mk_message (type_of "Ping") [("nonce", VBytes [8; 7; 6; 5; 4; 3; 2; 1])]); split; vm_compute; reflexivity).
  destruct (flood nx_sha py2 nx_cf [EvAccept nx_a (1000 * SEC) nx_env] 0 nx_ping m 0 nx_clock k) as (c & G & O & B).
  - repeat constructor.
  - destruct py2; vm_compute; reflexivity.
  - exact Wp.
  - split; vm_compute; [discriminate|reflexivity].
  - exact Pm.
  - intros c G. assert (option_map c_recv (get_conn 0 (history nx_sha py2 nx_cf [EvAccept nx_a (1000 * SEC) nx_env])) = Some []) as R by (destruct py2; vm_compute; reflexivity). rewrite G in R. cbn [option_map] in R. congruence.
  - rewrite Sm. lia.
  - exists c. split; [exact G|]. apply is_open_get in O. destruct O as (c' & G' & O). split; [congruence|]. rewrite Sm in B.
    assert (zlen (wire_of 0 (n_trace (history nx_sha py2 nx_cf [EvAccept nx_a (1000 * SEC) nx_env]))) = 0) as Z0 by (destruct py2; vm_compute; reflexivity). rewrite Z0 in B. unfold k in B. lia.
Qed.
Example C136_applies : exists c, get_conn 0 (nx_hist [EvAccept nx_a (1000 * SEC) nx_env; EvRead 0 (RData nx_ping) 0 nx_clock]) = Some c /\ zlen (cf_magic nx_cf) = 4 /\ zlen (c_send c) = zlen (own_bytes 0 (n_trace (nx_hist [EvAccept nx_a (1000 * SEC) nx_env; EvRead 0 (RData nx_ping) 0 nx_clock]))) + 32.
Proof. eexists. split; [vm_compute; reflexivity|]. split; vm_compute; reflexivity. Qed.

(** ** Assumptions *)

Print Assumptions C136_queue_partial.
Print Assumptions C136_refuted.
