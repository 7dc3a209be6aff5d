(** C134: a peer cannot make the node say more bytes than it said itself. *)
From Coq Require Import String ZArith List Lia Bool.
From Verif Require Import PyBase PyVal FormatModel MessagesModel FormatSpec FormatProofs FormatProofs2 MessagesProofs
  NodeModel NodeProofs NodeProofs2 NodeProofs3 NodeProofs4 NodeProofs5 NodeProofs6 NodeProofs7 NodeProofs8 NodeProofs9 NodeProofs10 NodeProofs12 AlertProofs
  PropsNode PropsHello PropsTalk PropsMeet PropsSilent.
Import ListNotations.
Open Scope string_scope.
Open Scope list_scope.
Open Scope Z_scope.

(** The bytes queued on connection [i] for verack, pong and addr messages. *)
Definition reply_bytes (i : nat) (tr : list action) : bytes :=
  flat_map (fun a => match a with AQueue j m b => if Nat.eqb j i && reply m then b else [] | _ => [] end) tr.

Definition total (w : message -> Z) (l : list message) : Z := fold_right (fun m s => w m + s) 0 l.
Lemma total_app w a b : total w (a ++ b) = total w a + total w b.
Proof. unfold total. induction a as [|m a IH]; [reflexivity|]. cbn [app fold_right]. rewrite IH. lia. Qed.

Lemma total_cons w m l : total w (m :: l) = w m + total w l. Proof. reflexivity. Qed.
Opaque total.

Section Fair.
Variable sha256 : bytes -> bytes.
Variable cf : config.
Hypothesis Hmagic : zlen (cf_magic cf) = 4.
Definition size (m : message) : Z := match msg_binary sha256 m (cf_magic cf) with Ok b => zlen b | Raise _ => 0 end.
(** What the answer to a message may cost. *)
Definition worth (m : message) : Z :=
  if String.eqb (cmd m) "version" then 24
  else if String.eqb (cmd m) "ping" then match assoc "nonce" (m_fields m) with Some (VBytes x) => if zlen x =? 8 then 32 else 0 | _ => 0 end
  else 0.
Lemma size_bound m payload : fields_binary (mt_props (m_type m)) (m_fields m) = Ok payload -> zlen (bs (mt_command (m_type m))) <= 12 -> size m <= 24 + zlen payload.
Proof.
  intros E L. unfold size, msg_binary. rewrite E. cbn [bind]. destruct (struct_pack FI false (zlen payload)) as [len|] eqn:El; cbn [bind]; [|unfold zlen; lia].
  assert (zlen len = 4) as Ll by (pose proof (zlen_pack _ _ _ _ El) as Z4; exact Z4). assert (zlen (pad_command (bs (mt_command (m_type m)))) = 12) as Lc by (unfold pad_command; rewrite zlen_app; unfold zlen in *; rewrite repeat_length; lia).
  rewrite !zlen_app, Hmagic, Lc, Ll. assert (zlen (ztake 4 (sha256d sha256 payload)) <= 4) by (rewrite zlen_ztake; lia). lia.
Qed.
Lemma answer_worth m r : answered false m r -> total size r <= worth m.
Proof.
  unfold answered, worth. destruct (String.eqb (cmd m) "version").
  - intros ->. rewrite total_cons. change (total size []) with 0. pose proof (size_bound verack_message [] eq_refl) as B. change (zlen (@nil Z)) with 0 in B. assert (size verack_message <= 24); [|lia]. apply B. vm_compute. discriminate.
  - destruct (String.eqb (cmd m) "ping").
    + intros (nonce & -> & ->). destruct (Z.eqb_spec (zlen nonce) 8) as [E|]; [|change (total size []) with 0; lia]. rewrite total_cons. change (total size []) with 0. pose proof (size_bound (pong_message nonce) (nonce ++ []) eq_refl) as B. rewrite zlen_app in B. change (zlen (@nil Z)) with 0 in B.
      assert (size (pong_message nonce) <= 24 + (zlen nonce + 0)); [|lia]. apply B. vm_compute. discriminate.
    + destruct (String.eqb (cmd m) "getaddr"); [intros [->|(H & _)]; [change (total size []) with 0; lia|discriminate]|]. intros ->. change (total size []) with 0. lia.
Qed.
Lemma size_nonneg m : 0 <= size m. Proof. unfold size. destruct (msg_binary _ _ _); unfold zlen; lia. Qed.
Lemma total_filter r : total size (filter reply r) <= total size r.
Proof. induction r as [|a r IH]; [cbn [filter]; lia|]. cbn [filter]. pose proof (size_nonneg a). rewrite total_cons. destruct (reply a); rewrite ?total_cons; lia. Qed.
Lemma dialogue_worth (asked : message -> Prop) l : (forall m, asked m -> reply m = false) -> dialogue false asked l -> total size (filter reply (said l)) <= total worth (heard l).
Proof.
  intros Ha. induction 1 as [|l m Hl IH Hm|l m r Hl IH Hr]; [cbn [said heard flat_map filter]; change (total size []) with 0; change (total worth []) with 0; lia| |].
  - rewrite said_app, heard_app'. cbn [said heard flat_map app]. rewrite app_nil_r, filter_app. cbn [filter].
    assert (reply m = false) as ->. { destruct Hm as [[E|[E|[E|[]]]]|Hm]; [| | |now apply Ha]; unfold reply, is_cmd; rewrite <- E; reflexivity. }
    now rewrite app_nil_r.
  - rewrite said_app, heard_app', said_answers, heard_answers, filter_app, !total_app. pose proof (answer_worth m r Hr). pose proof (total_filter r). rewrite total_cons. change (total worth []) with 0. lia.
Qed.
Lemma frame_worth f m : is_frame f -> msg_parse sha256 f (cf_magic cf) = Ok m -> worth m <= zlen f.
Proof.
  intros (L & _) E. unfold worth. destruct (String.eqb (cmd m) "version"); [exact L|]. destruct (String.eqb (cmd m) "ping") eqn:Ec; [|lia]. destruct (assoc "nonce" (m_fields m)) as [[| | | | |x| | | |]|] eqn:En; try lia.
  destruct (Z.eqb_spec (zlen x) 8) as [L8|]; [|lia]. apply String.eqb_eq in Ec. unfold msg_parse in E. destruct (negb _) in E; [discriminate|]. destruct (struct_unpack _ _ _) as [len|] in E; [|discriminate]. cbn [bind] in E. cbv zeta in E.
  destruct (negb _) in E; [discriminate|]. destruct (lookup_command _) as [t|] eqn:Et; [|discriminate]. destruct (fields_parse _ _ _) as [(o & fs)|] eqn:Ef; [|discriminate]. cbn [bind] in E. injection E as <-. cbn [m_fields m_type cmd] in *. unfold cmd in Ec. cbn [m_type] in Ec.
  destruct (lookup_in _ _ Et) as (Ht & _). assert (mt_props t = [("nonce", FBytes 8)]) as Hp. { clear - Ht Ec. unfold registry in Ht. cbn in Ht. repeat (destruct Ht as [<-|Ht]; [first [reflexivity|discriminate Ec]|]). contradiction. }
  rewrite Hp in Ef. apply fields_parse_cons_inv in Ef. destruct Ef as (l1 & v1 & f1 & P1 & -> & _). cbn [parse] in P1. assert (v1 = VBytes (ztake 8 (zdrop 0 (slice 24 (24 + len) f)))) as -> by congruence.
  change (Some (VBytes (ztake 8 (zdrop 0 (slice 24 (24 + len) f)))) = Some (VBytes x)) in En. assert (x = ztake 8 (zdrop 0 (slice 24 (24 + len) f))) as -> by congruence. clear - L8. rewrite zdrop_0, zlen_ztake in L8 by lia. unfold slice in L8. pose proof (zlen_ztake_le (zdrop 24 f) (24 + len - 24)). rewrite zlen_zdrop in * by lia. lia.
Qed.
Lemma queued_size i tr : Forall (fun a => match a with AQueue _ m b => msg_binary sha256 m (cf_magic cf) = Ok b | _ => True end) tr -> zlen (reply_bytes i tr) = total size (filter reply (said (talk i tr))).
Proof.
  induction 1 as [|a tr Ha _ IH]; [reflexivity|]. change (reply_bytes i (a :: tr)) with ((match a with AQueue j m b => if Nat.eqb j i && reply m then b else [] | _ => [] end) ++ reply_bytes i tr).
  change (talk i (a :: tr)) with ((match a with AMsg j m => if Nat.eqb j i then [Heard m] else [] | AQueue j m _ => if Nat.eqb j i then [Said m] else [] | _ => [] end) ++ talk i tr). rewrite said_app, filter_app, total_app, zlen_app, <- IH.
  destruct a as [| | | |j m| | | | | |j m b| | | |]; try reflexivity; [now destruct (Nat.eqb j i)|]. destruct (Nat.eqb j i); [|reflexivity]. cbn [andb said flat_map app filter]. destruct (reply m); [|reflexivity].
  rewrite total_cons. change (total size []) with 0. unfold size. rewrite Ha. lia.
Qed.
Lemma heard_frames i fs : forall l, l = map (outcome sha256 cf i) fs -> Forall is_frame fs -> total worth (heard (talk i l)) <= zlen (concat fs).
Proof.
  induction fs as [|f fs IH]; intros l -> F; [cbn; change (total worth []) with 0; unfold zlen; cbn; lia|]. inversion F as [|? ? Hf F']; subst. cbn [map concat]. rewrite zlen_app.
  change (talk i (outcome sha256 cf i f :: map (outcome sha256 cf i) fs)) with (talk i ([outcome sha256 cf i f] ++ map (outcome sha256 cf i) fs)). rewrite talk_app, heard_app', total_app. specialize (IH _ eq_refl F').
  assert (total worth (heard (talk i [outcome sha256 cf i f])) <= zlen f); [|lia]. pose proof (proj1 Hf). unfold outcome. destruct (msg_parse sha256 f (cf_magic cf)) as [m|e] eqn:E.
  - cbn [talk flat_map]. rewrite Nat.eqb_refl. cbn [app heard flat_map]. rewrite total_cons. change (total worth []) with 0. pose proof (frame_worth f m Hf E). lia.
  - destruct (is_invalid e); cbn [talk flat_map app heard]; change (total worth []) with 0; lia.
Qed.
Lemma heard_of_frames i tr : heard (talk i (frames_of i tr)) = heard (talk i tr).
Proof.
  induction tr as [|a tr IH]; [reflexivity|]. change (talk i (a :: tr)) with (talk i ([a] ++ tr)). rewrite talk_app, heard_app', <- IH. unfold frames_of at 1. cbn [filter].
  destruct a as [| | | |j m|j p e|j p e| | | | | | | |]; try reflexivity.
  - destruct (Nat.eqb j i) eqn:E; [|cbn [talk flat_map app heard]; now rewrite E]. change (heard (talk i ([AMsg j m] ++ frames_of i tr)) = heard (talk i [AMsg j m]) ++ heard (talk i (frames_of i tr))). now rewrite talk_app, heard_app'.
  - destruct (Nat.eqb j i); reflexivity.
  - destruct (Nat.eqb j i); reflexivity.
  - cbn [talk flat_map app]. now destruct (Nat.eqb i0 i).
Qed.
(** Python 3. *)
Theorem C134_no_amplification_partial es i c : Forall wf_event es -> get_conn i (history sha256 false cf es) = Some c -> (forall m, In (EvSend i m) es -> reply m = false) ->
  zlen (reply_bytes i (n_trace (history sha256 false cf es))) <= zlen (recv_of i (n_trace (history sha256 false cf es))).
Proof.
  intros W G Ha. rewrite queued_size by exact (queue_ok_history sha256 false cf es W). pose proof (dialogue_worth _ _ Ha (history_dialogue sha256 false cf es i)) as D. cbv beta in D.
  destruct (handled_by_received sha256 cf i (history sha256 false cf es) c (good_history sha256 false cf es W) G) as (fs & (E & F & _) & Ef). pose proof (heard_frames i fs _ Ef F) as B. rewrite heard_of_frames in B. rewrite E, zlen_app. pose proof (zlen_nonneg (c_recv c)). lia.
Qed.
End Fair.

(** Python 2: a peer announces five addresses and asks for them twice; with
    each further 24 bytes it makes the node say 175. *)
Definition nx_asked (k : nat) : list event := nx_small ++ repeat (EvRead 0 (RData (nx_frame "GetAddress" [])) 0 nx_clock) k.
Theorem C134_python2_refuted : exists es c, Forall wf_event es /\ get_conn 0 (history nx_sha true nx_cf es) = Some c /\ (forall m, ~ In (EvSend 0 m) es) /\
  zlen (recv_of 0 (n_trace (history nx_sha true nx_cf es))) < zlen (reply_bytes 0 (n_trace (history nx_sha true nx_cf es))).
Proof.
  exists (nx_asked 2). eexists. split; [|split; [|split]].
  - unfold nx_asked, nx_small. repeat (constructor; [first [exact Logic.I | apply all_bytes_wf; vm_compute; reflexivity | (split; [|exact Logic.I]); apply all_bytes_wf; vm_compute; reflexivity | idtac]|]); [..|constructor].
  - vm_compute. reflexivity.
  - intros m H. unfold nx_asked, nx_small in H. cbn [app repeat In] in H. decompose [or] H; try discriminate; assumption.
  - vm_compute. reflexivity.
Qed.
(** The bound is met: a ping of 32 bytes gets 32 bytes, a version 24. *)
Example C134_applies : zlen (recv_of 0 (n_trace (nx_hist [EvAccept nx_a (1000 * SEC) nx_env; EvRead 0 (RData nx_ping) 0 nx_clock]))) = 32 /\
  zlen (reply_bytes 0 (n_trace (nx_hist [EvAccept nx_a (1000 * SEC) nx_env; EvRead 0 (RData nx_ping) 0 nx_clock]))) = 32 /\ zlen (cf_magic nx_cf) = 4.
Proof. split; [|split]; vm_compute; reflexivity. Qed.

(** ** Assumptions *)

Print Assumptions C134_no_amplification_partial.
Print Assumptions C134_python2_refuted.
