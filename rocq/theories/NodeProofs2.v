(** Stream invariants of the node: what is received, framed, queued and written
    on each connection, and the traffic counters. *)
From Coq Require Import String ZArith List Lia Bool.
From Verif Require Import PyBase PyVal FormatModel MessagesModel NodeModel NodeProofs.
Import ListNotations.
Open Scope string_scope.
Open Scope list_scope.
Open Scope Z_scope.

(** ** Projections of the history *)

(** Bytes received on connection [i], bytes taken by its socket, bytes queued. *)
Definition recv_of (i : nat) (tr : list action) : bytes :=
  flat_map (fun a => match a with ARecv j b => if Nat.eqb j i then b else [] | _ => [] end) tr.
Definition wire_of (i : nat) (tr : list action) : bytes :=
  flat_map (fun a => match a with AWire j b => if Nat.eqb j i then b else [] | _ => [] end) tr.
Definition queued_of (i : nat) (tr : list action) : bytes :=
  flat_map (fun a => match a with AQueue j _ b => if Nat.eqb j i then b else [] | _ => [] end) tr.
(** The outcomes of the frames of connection [i]: message handled, invalid
    command reported, parse error logged. *)
Definition frames_of (i : nat) (tr : list action) : list action :=
  filter (fun a => match a with AMsg j _ | AInvalid j _ _ | AParseError j _ _ => Nat.eqb j i | _ => false end) tr.
Definition total_recv (tr : list action) : Z :=
  fold_right (fun a s => match a with ARecv _ b => zlen b + s | _ => s end) 0 tr.
Definition total_wire (tr : list action) : Z :=
  fold_right (fun a s => match a with AWire _ b => zlen b + s | _ => s end) 0 tr.

Lemma recv_app i a b : recv_of i (a ++ b) = recv_of i a ++ recv_of i b. Proof. apply flat_map_app. Qed.
Lemma wire_app i a b : wire_of i (a ++ b) = wire_of i a ++ wire_of i b. Proof. apply flat_map_app. Qed.
Lemma queued_app i a b : queued_of i (a ++ b) = queued_of i a ++ queued_of i b. Proof. apply flat_map_app. Qed.
Lemma frames_app i a b : frames_of i (a ++ b) = frames_of i a ++ frames_of i b. Proof. apply filter_app. Qed.
Lemma total_recv_app a b : total_recv (a ++ b) = total_recv a + total_recv b.
Proof. unfold total_recv. induction a as [|x a IH]; [reflexivity|]. cbn. destruct x; rewrite IH; lia. Qed.
Lemma total_wire_app a b : total_wire (a ++ b) = total_wire a + total_wire b.
Proof. unfold total_wire. induction a as [|x a IH]; [reflexivity|]. cbn. destruct x; rewrite IH; lia. Qed.

(** Frames: the length field (bytes 16-19, little endian) counts the payload
    after the 24-byte header. *)
Definition is_frame (f : bytes) : Prop := 24 <= zlen f /\ zlen f = 24 + le_val (firstn 4 (skipn 16 f)).
(** No complete frame at the head of the buffer. *)
Definition incomplete (s : bytes) : Prop := zlen s < 20 \/ zlen s < 24 + le_val (firstn 4 (skipn 16 s)).
(** [framed s fs r]: the stream [s] is the frames [fs] followed by an incomplete
    remainder [r]. *)
Definition framed (s : bytes) (fs : list bytes) (r : bytes) : Prop :=
  s = concat fs ++ r /\ Forall is_frame fs /\ incomplete r.

Lemma field_app (f r : bytes) : 20 <= zlen f -> firstn 4 (skipn 16 (f ++ r)) = firstn 4 (skipn 16 f).
Proof.
  intro H. unfold zlen in H. rewrite skipn_app. rewrite firstn_app.
  replace (4 - List.length (skipn 16 f))%nat with 0%nat by (rewrite skipn_length; lia).
  cbn [firstn]. now rewrite app_nil_r.
Qed.
Lemma framed_unique s : forall fs1 r1 fs2 r2, framed s fs1 r1 -> framed s fs2 r2 -> fs1 = fs2 /\ r1 = r2.
Proof.
  assert (forall f1 x1 f2 x2, is_frame f1 -> is_frame f2 -> f1 ++ x1 = f2 ++ x2 -> f1 = f2 /\ x1 = x2) as U.
  { intros f1 x1 f2 x2 (A1 & L1) (A2 & L2) E.
    assert (zlen f1 = zlen f2) as L.
    { rewrite L1, L2. rewrite <- (field_app f1 x1), <- (field_app f2 x2) by lia. now rewrite E. }
    split.
    - rewrite <- (ztake_app_exact f1 x1 (zlen f1) eq_refl), E, L. now apply ztake_app_exact.
    - rewrite <- (zdrop_app_exact f1 x1 (zlen f1) eq_refl), E, L. now apply zdrop_app_exact. }
  assert (forall f x r, is_frame f -> f ++ x = r -> ~ incomplete r) as N.
  { intros f x r (A & L) <- [H|H].
    - rewrite zlen_app in H. pose proof (zlen_nonneg x). lia.
    - rewrite zlen_app, field_app in H by lia. pose proof (zlen_nonneg x). lia. }
  intros fs1. revert s. induction fs1 as [|f1 fs1 IH]; intros s r1 fs2 r2 (E1 & F1 & I1) (E2 & F2 & I2).
  - destruct fs2 as [|f2 fs2]; [cbn in *; split; congruence|]. exfalso. cbn [concat app] in *.
    assert (f2 ++ (concat fs2 ++ r2) = r1) as E by (rewrite app_assoc; congruence). apply Forall_inv in F2.
    exact (N _ _ _ F2 E I1).
  - cbn [concat] in E1. rewrite <- app_assoc in E1. pose proof (Forall_inv F1) as F1h. pose proof (Forall_inv_tail F1) as F1t.
    destruct fs2 as [|f2 fs2]; cbn [concat] in E2.
    + exfalso. cbn [app] in E2. assert (f1 ++ concat fs1 ++ r1 = r2) as E by congruence. exact (N _ _ _ F1h E I2).
    + pose proof (Forall_inv F2) as F2h. pose proof (Forall_inv_tail F2) as F2t. rewrite <- app_assoc in E2.
      assert (f1 ++ concat fs1 ++ r1 = f2 ++ concat fs2 ++ r2) as E by congruence.
      apply U in E; [|assumption..]. destruct E as (-> & E).
      destruct (IH (concat fs1 ++ r1) r1 fs2 r2) as (-> & ->).
      * now repeat split.
      * now repeat split.
      * auto.
Qed.

(** The model's length function agrees with the specification. *)
Lemma first_msg_len_some s len : first_msg_len s = Some len -> 20 <= zlen s /\ len = 24 + le_val (firstn 4 (skipn 16 s)).
Proof.
  unfold first_msg_len. destruct (Z.ltb_spec (zlen s) 20) as [|L]; [discriminate|].
  unfold slice. rewrite ztake_firstn, zdrop_skipn. change (Z.to_nat (20 - 16)) with 4%nat. change (Z.to_nat 16) with 16%nat.
  remember (firstn 4 (skipn 16 s)) as x eqn:Ex.
  assert (zlen x = 4) as Lx.
  { unfold zlen in *. rewrite Ex. rewrite firstn_length, skipn_length. lia. }
  unfold struct_unpack. cbn [nf_len nf_signed]. change (Z.of_nat 4) with 4. rewrite Lx. change (4 =? 4) with true. cbv beta iota zeta.
  cbn [andb]. intro H. split; [assumption|]. assert (len = le_val x + 24) by congruence. lia.
Qed.
Lemma first_msg_len_none s : first_msg_len s = None -> zlen s < 20.
Proof.
  unfold first_msg_len. destruct (Z.ltb_spec (zlen s) 20) as [|L]; [auto|]. intro H. exfalso. revert H.
  unfold slice. rewrite ztake_firstn, zdrop_skipn. change (Z.to_nat (20 - 16)) with 4%nat. change (Z.to_nat 16) with 16%nat.
  assert (zlen (firstn 4 (skipn 16 s)) = 4) as Lx.
  { unfold zlen in *. rewrite firstn_length, skipn_length. lia. }
  unfold struct_unpack. cbn [nf_len nf_signed]. change (Z.of_nat 4) with 4. rewrite Lx. discriminate.
Qed.
Lemma le_val_nonneg s : wf_bytes s -> 0 <= le_val s.
Proof. induction 1 as [|x s Hx Hs IH]; cbn [le_val]; [lia|]. unfold is_byte in Hx. lia. Qed.
Lemma wf_field s : wf_bytes s -> wf_bytes (firstn 4 (skipn 16 s)).
Proof.
  intro H. apply Forall_forall. intros x Hx. unfold wf_bytes in H. rewrite Forall_forall in H. apply H.
  rewrite <- (firstn_skipn 16 s). apply in_or_app. right. rewrite <- (firstn_skipn 4 (skipn 16 s)). apply in_or_app. now left.
Qed.

Section Streams.
Variable sha256 : bytes -> bytes.
Variable py2 : bool.
Variable cf : config.
Notation outcome := (outcome sha256 cf).
Notation prim0 := (prim0 sha256 cf).
Notation prim := (prim sha256 cf).

Definition conn_streams (i : nat) (c : conn) (tr : list action) : Prop :=
  (exists fs, recv_of i tr = concat fs ++ c_recv c /\ Forall is_frame fs /\ frames_of i tr = map (outcome i) fs) /\
  wf_bytes (recv_of i tr) /\
  queued_of i tr = wire_of i tr ++ c_send c /\
  c_rx c = zlen (recv_of i tr) /\ c_tx c = zlen (wire_of i tr).
Definition no_streams (i : nat) (tr : list action) : Prop :=
  recv_of i tr = [] /\ wire_of i tr = [] /\ queued_of i tr = [] /\ frames_of i tr = [].
Definition stream_inv (n : node) : Prop :=
  (forall i, match get_conn i n with
             | Some c => conn_streams i c (n_trace n)
             | None => no_streams i (n_trace n)
             end) /\
  n_rx n = total_recv (n_trace n) /\ n_tx n = total_wire (n_trace n).

(** Updates that leave the streams alone. *)
Definition scores (c : conn) := (c_send c, c_recv c, c_tx c, c_rx c).
Definition same_streams (n n' : node) : Prop :=
  (forall i, option_map scores (get_conn i n') = option_map scores (get_conn i n)) /\
  (forall i, recv_of i (n_trace n') = recv_of i (n_trace n) /\ wire_of i (n_trace n') = wire_of i (n_trace n) /\
             queued_of i (n_trace n') = queued_of i (n_trace n) /\ frames_of i (n_trace n') = frames_of i (n_trace n)) /\
  total_recv (n_trace n') = total_recv (n_trace n) /\ total_wire (n_trace n') = total_wire (n_trace n) /\
  n_rx n' = n_rx n /\ n_tx n' = n_tx n.
Lemma stream_inv_same n n' : same_streams n n' -> stream_inv n -> stream_inv n'.
Proof.
  intros (G & T & R & W & X & Y) (I1 & I2 & I3). split; [|split; congruence].
  intro i. specialize (G i). specialize (T i). specialize (I1 i). destruct T as (T1 & T2 & T3 & T4).
  destruct (get_conn i n') as [c'|], (get_conn i n) as [c|]; try discriminate.
  - cbn in G. injection G as G1 G2 G3 G4. unfold conn_streams in *. rewrite T1, T2, T3, T4, G1, G2, G3, G4. exact I1.
  - unfold no_streams in *. rewrite T1, T2, T3, T4. exact I1.
Qed.
Lemma same_refl n : same_streams n n.
Proof. repeat split. Qed.
Lemma same_upd i f n : (forall c, scores (f c) = scores c) -> same_streams n (upd i f n).
Proof.
  intro H. split; [|repeat split]. intro j. rewrite get_upd. destruct (Nat.eqb i j); [|reflexivity].
  destruct (get_conn j n) as [c|]; [|reflexivity]. cbn. now rewrite H.
Qed.
Definition quiet (a : action) : Prop :=
  match a with ARecv _ _ | AWire _ _ | AQueue _ _ _ | AMsg _ _ | AInvalid _ _ _ | AParseError _ _ _ => False | _ => True end.
Lemma same_emit a n : quiet a -> same_streams n (emit a n).
Proof.
  intro H. split; [reflexivity|]. split; [|].
  - intro i. unfold emit. cbn [n_trace set_n_trace]. rewrite recv_app, wire_app, queued_app, frames_app.
    destruct a; try contradiction; cbn; rewrite ?app_nil_r; auto.
  - unfold emit. cbn [n_trace set_n_trace]. rewrite total_recv_app, total_wire_app. destruct a; try contradiction; cbn; repeat split; lia.
Qed.
Lemma same_trans a b c : same_streams a b -> same_streams b c -> same_streams a c.
Proof.
  intros (A1 & A2 & A3 & A4 & A5 & A6) (B1 & B2 & B3 & B4 & B5 & B6). split; [intro i; now rewrite B1, A1|].
  split; [|repeat split; congruence]. intro i. destruct (A2 i) as (? & ? & ? & ?), (B2 i) as (? & ? & ? & ?). repeat split; congruence.
Qed.
Lemma same_fields n n' : n_conns n' = n_conns n -> n_trace n' = n_trace n -> n_rx n' = n_rx n -> n_tx n' = n_tx n -> same_streams n n'.
Proof. intros H1 H2 H3 H4. unfold same_streams, get_conn. rewrite H1, H2. repeat split; assumption. Qed.
Lemma same_book n b : same_streams n (set_n_book b n).
Proof. now apply same_fields. Qed.

Definition touches (n n' : node) : Prop :=
  (exists i m b, n' = queue i m b n) \/ (exists a inc, n' = register a inc n) \/ (exists i k now, n' = wrote i k now n).
Lemma prim0_cases n n' : prim0 n n' -> same_streams n n' \/ touches n n'.
Proof.
  intro H. destruct H.
  - right. left. eauto.
  - left. unfold shut. destruct (get_conn i n) as [c|]; [|apply same_refl].
    eapply same_trans; [|unfold disconnected; destruct (book_mem _ _); [apply same_book|apply same_refl]].
    eapply same_trans; [|apply same_emit; exact I]. now apply same_upd.
  - right. right. left. eauto.
  - left. unfold add_banscore. destruct (get_conn i n) as [c|]; [|apply same_refl]. now apply same_upd.
  - left. unfold reduce_banscore. destruct (get_conn i n) as [c|]; [|apply same_refl]. now apply same_upd.
  - left. unfold pinged. destruct (get_conn i n); [|apply same_refl]. eapply same_trans; [|apply same_emit; exact I]. now apply same_upd.
  - left. unfold check_external_ip. destruct (count_votes n (peers n) []); [apply same_refl|]. now apply same_fields.
  - left. apply same_upd. intro c. specialize (H c). unfold core in H. unfold scores. injection H as ? ? ? ? ? ? ? ? ? ?. congruence.
  - left. unfold record_peer. destruct (get_conn i n); [|apply same_refl]. destruct (_ <? _); [apply same_book|apply same_refl].
  - left. apply same_book.
  - left. apply same_emit. destruct a; try contradiction; exact I.
  - right. right. right. eauto.
  - left. unfold ban. eapply same_trans; [|apply same_emit; exact I]. now apply same_fields.
  - left. now apply same_fields.
  - left. unfold beat. eapply same_trans; [|apply same_emit; exact I]. now apply same_fields.
  - left. now apply same_fields.
Qed.

Ltac proj := unfold emit; cbn [n_trace set_n_trace n_rx n_tx set_n_rx set_n_tx upd set_n_conns n_conns];
  rewrite ?recv_app, ?wire_app, ?queued_app, ?frames_app, ?total_recv_app, ?total_wire_app;
  cbn [recv_of wire_of queued_of frames_of flat_map filter total_recv total_wire fold_right].

Lemma stream_inv_queue n i m b : stream_inv n -> stream_inv (queue i m b n).
Proof.
  intros (I1 & I2 & I3). unfold queue. destruct (get_conn i n) as [c|] eqn:G; [|now repeat split].
  split; [|proj; split; lia]. intro j. rewrite get_emit, get_upd. specialize (I1 j).
  destruct (Nat.eqb_spec i j) as [->|N].
  - rewrite G in *. cbn [option_map]. destruct I1 as (A & B & C & D & E). unfold conn_streams.
    proj. rewrite Nat.eqb_refl. rewrite !app_nil_r. repeat split; try assumption.
    cbn [c_send set_c_send]. rewrite C, app_assoc. reflexivity.
  - apply Nat.eqb_neq in N. destruct (get_conn j n) as [c'|]; [unfold conn_streams in *|unfold no_streams in *];
      proj; rewrite N; rewrite !app_nil_r; exact I1.
Qed.
Lemma get_register j a inc n : get_conn j (register a inc n) =
  if Nat.eqb j (List.length (n_conns n)) then Some (fresh_conn a inc) else get_conn j n.
Proof.
  unfold register, get_conn. cbn [n_conns emit set_n_trace set_n_conns]. destruct (Nat.eqb_spec j (List.length (n_conns n))) as [->|N].
  - rewrite nth_error_app2 by lia. now rewrite Nat.sub_diag.
  - destruct (Nat.lt_ge_cases j (List.length (n_conns n))).
    + now rewrite nth_error_app1.
    + rewrite (proj2 (nth_error_None _ _)) by (rewrite app_length; cbn; lia). symmetry. apply nth_error_None. lia.
Qed.
Lemma stream_inv_register n a inc : stream_inv n -> stream_inv (register a inc n).
Proof.
  intros (I1 & I2 & I3). split; [|unfold register; proj; split; lia]. intro j. rewrite get_register. specialize (I1 j).
  destruct (Nat.eqb_spec j (List.length (n_conns n))) as [->|N].
  - assert (get_conn (List.length (n_conns n)) n = None) as E by (apply nth_error_None; lia). rewrite E in I1.
    destruct I1 as (A & B & C & D). unfold conn_streams, register. proj. rewrite A, B, C, D. cbn [app].
    repeat split; try constructor. exists []. repeat split. constructor.
  - unfold register. destruct (get_conn j n) as [c|]; [unfold conn_streams in *|unfold no_streams in *]; proj;
      rewrite !app_nil_r; exact I1.
Qed.
Lemma stream_inv_wrote n i k now : stream_inv n -> stream_inv (wrote i k now n).
Proof.
  intros (I1 & I2 & I3). unfold wrote. destruct (get_conn i n) as [c|] eqn:G; [|now repeat split].
  set (s := Z.max 0 (Z.min k (zlen (c_send c)))).
  assert (zlen (ztake s (c_send c)) = s) as Ls.
  { pose proof (zlen_nonneg (c_send c)). rewrite zlen_ztake; lia. }
  split; [|proj; rewrite Ls; split; lia]. intro j. rewrite get_emit.
  match goal with |- context [get_conn j (set_n_tx ?t ?x)] => change (get_conn j (set_n_tx t x)) with (get_conn j x) end.
  rewrite get_upd. specialize (I1 j).
  destruct (Nat.eqb_spec i j) as [->|N].
  - rewrite G in *. cbn [option_map]. destruct I1 as (A & B & C & D & E). unfold conn_streams.
    proj. rewrite Nat.eqb_refl. rewrite !app_nil_r. repeat split; try assumption.
    + cbn [c_send set_c_send]. rewrite C, <- app_assoc. now rewrite ztake_zdrop.
    + cbn [c_tx set_c_tx set_c_send]. rewrite E, zlen_app. cbn [c_tx set_c_last_tx]. rewrite Ls. lia.
  - apply Nat.eqb_neq in N. destruct (get_conn j n) as [c'|]; [unfold conn_streams in *|unfold no_streams in *];
      proj; rewrite N; rewrite !app_nil_r; exact I1.
Qed.
Lemma stream_inv_received n i chunk now : wf_bytes chunk -> stream_inv n -> stream_inv (received i chunk now n).
Proof.
  intros Wc (I1 & I2 & I3). unfold received. destruct (get_conn i n) as [c|] eqn:G; [|now repeat split].
  split; [|proj; split; lia]. intro j. rewrite get_emit.
  match goal with |- context [get_conn j (set_n_rx ?t ?x)] => change (get_conn j (set_n_rx t x)) with (get_conn j x) end.
  rewrite get_upd. specialize (I1 j).
  destruct (Nat.eqb_spec i j) as [->|N].
  - rewrite G in *. cbn [option_map]. destruct I1 as ((fs & A1 & A2 & A3) & B & C & D & E). unfold conn_streams.
    proj. rewrite Nat.eqb_refl. rewrite !app_nil_r. repeat split; try assumption.
    + exists fs. cbn [c_recv set_c_recv]. rewrite A1, <- app_assoc. repeat split; assumption.
    + apply wf_bytes_app. now split.
    + cbn [c_rx set_c_rx set_c_recv set_c_last_rx]. rewrite zlen_app. unfold bytes in *. lia.
  - apply Nat.eqb_neq in N. destruct (get_conn j n) as [c'|]; [unfold conn_streams in *|unfold no_streams in *];
      proj; rewrite N; rewrite !app_nil_r; exact I1.
Qed.
Lemma frame_cut s len : wf_bytes s -> first_msg_len s = Some len -> len <= zlen s -> is_frame (ztake len s).
Proof.
  intros W F L. apply first_msg_len_some in F. destruct F as (L20 & E).
  pose proof (le_val_nonneg _ (wf_field s W)) as P. unfold is_frame.
  assert (zlen (ztake len s) = len) as Lt by (rewrite zlen_ztake; lia).
  rewrite Lt. split; [lia|]. rewrite <- (field_app (ztake len s) (zdrop len s)) by lia. now rewrite ztake_zdrop.
Qed.
Lemma outcome_frame i j f : frames_of j [outcome i f] = if Nat.eqb i j then [outcome i f] else [].
Proof.
  unfold NodeProofs.outcome. destruct (msg_parse sha256 f (cf_magic cf)) as [m|e]; [|destruct (is_invalid e)]; cbn; destruct (Nat.eqb i j); reflexivity.
Qed.
Lemma outcome_quiet i j f : recv_of j [outcome i f] = [] /\ wire_of j [outcome i f] = [] /\ queued_of j [outcome i f] = []
  /\ total_recv [outcome i f] = 0 /\ total_wire [outcome i f] = 0.
Proof.
  unfold NodeProofs.outcome. destruct (msg_parse sha256 f (cf_magic cf)) as [m|e]; [|destruct (is_invalid e)]; cbn; auto.
Qed.
Lemma wf_buffer n i c : stream_inv n -> get_conn i n = Some c -> wf_bytes (c_recv c).
Proof.
  intros (I1 & _) G. specialize (I1 i). rewrite G in I1. destruct I1 as ((fs & A & _) & W & _). rewrite A in W.
  apply wf_bytes_app in W. tauto.
Qed.
Lemma stream_inv_frame n i c len : get_conn i n = Some c -> first_msg_len (c_recv c) = Some len -> len <= zlen (c_recv c) ->
  stream_inv n -> stream_inv (take_frame sha256 cf i len c n).
Proof.
  intros G F L I. pose proof (wf_buffer n i c I G) as W. destruct I as (I1 & I2 & I3). unfold take_frame.
  pose proof (outcome_quiet i i (ztake len (c_recv c))) as (_ & _ & _ & T1 & T2).
  split.
  2:{ unfold emit. cbn [n_trace set_n_trace n_rx n_tx upd set_n_conns]. rewrite total_recv_app, total_wire_app, T1, T2. split; lia. }
  intro j. rewrite get_emit, get_upd. specialize (I1 j).
  pose proof (outcome_quiet i j (ztake len (c_recv c))) as (Q1 & Q2 & Q3 & _). pose proof (outcome_frame i j (ztake len (c_recv c))) as Q4.
  destruct (Nat.eqb_spec i j) as [->|N].
  - rewrite G in *. cbn [option_map]. destruct I1 as ((fs & A1 & A2 & A3) & B & C & D & E). unfold conn_streams.
    unfold emit. cbn [n_trace set_n_trace upd set_n_conns]. rewrite recv_app, wire_app, queued_app, frames_app, Q1, Q2, Q3, Q4. rewrite !app_nil_r.
    repeat split; try assumption.
    exists (fs ++ [ztake len (c_recv c)]). repeat split.
    + rewrite concat_app. cbn [concat]. rewrite app_nil_r, <- app_assoc. cbn [c_recv set_c_recv]. rewrite ztake_zdrop. exact A1.
    + apply Forall_app. split; [assumption|]. constructor; [|constructor]. now apply frame_cut.
    + rewrite map_app. now rewrite A3.
  - destruct (get_conn j n) as [c'|]; [unfold conn_streams in *|unfold no_streams in *];
      unfold emit; cbn [n_trace set_n_trace upd set_n_conns]; rewrite recv_app, wire_app, queued_app, frames_app, Q1, Q2, Q3, Q4, !app_nil_r; exact I1.
Qed.
Lemma stream_inv_prim n n' : prim n n' -> stream_inv n -> stream_inv n'.
Proof.
  intros H I. destruct H as [n n' H|n i c len G F L|n i chunk now _ W].
  - destruct (prim0_cases n n' H) as [S|[(i & m & b & ->)|[(a & inc & ->)|(i & k & now & ->)]]].
    + eapply stream_inv_same; eauto.
    + now apply stream_inv_queue.
    + now apply stream_inv_register.
    + now apply stream_inv_wrote.
  - now apply stream_inv_frame.
  - now apply stream_inv_received.
Qed.
Lemma stream_inv_init : stream_inv (init_node cf).
Proof. split; [|split; reflexivity]. intro i. unfold get_conn. cbn. destruct i; repeat split. Qed.
Theorem stream_inv_history es : Forall wf_event es -> stream_inv (history sha256 py2 cf es).
Proof. apply history_inv; [apply stream_inv_init|apply stream_inv_prim]. Qed.

(** ** Between events no complete frame is left in a buffer *)

Definition drained (n : node) : Prop := forall i c, get_conn i n = Some c -> incomplete (c_recv c).
(** prim0 never changes a receive buffer, and new connections have an empty one. *)
Definition same_buffers (n n' : node) : Prop :=
  forall i, match get_conn i n' with
            | Some c' => match get_conn i n with Some c => c_recv c' = c_recv c | None => c_recv c' = [] end
            | None => get_conn i n = None
            end.
Lemma same_buffers_trans a b c : same_buffers a b -> same_buffers b c -> same_buffers a c.
Proof.
  intros A B i. specialize (A i). specialize (B i). destruct (get_conn i c), (get_conn i b), (get_conn i a); try congruence; try discriminate.
Qed.
Lemma prim0_buffers n n' : prim0 n n' -> same_buffers n n'.
Proof.
  intros H i. destruct (prim0_cases n n' H) as [(S & _)|[(j & m & b & ->)|[(a & inc & ->)|(j & k & now & ->)]]].
  - specialize (S i). destruct (get_conn i n'), (get_conn i n); try discriminate; cbn in S; [|reflexivity]. injection S as ? ? ? ?. assumption.
  - unfold queue. destruct (get_conn j n) as [c|] eqn:G.
    + rewrite get_emit, get_upd. destruct (Nat.eqb_spec j i) as [->|]; [rewrite G; reflexivity|]. now destruct (get_conn i n).
    + now destruct (get_conn i n).
  - rewrite get_register. destruct (Nat.eqb_spec i (List.length (n_conns n))) as [->|].
    + assert (get_conn (List.length (n_conns n)) n = None) as -> by (apply nth_error_None; lia). reflexivity.
    + now destruct (get_conn i n).
  - unfold wrote. destruct (get_conn j n) as [c|] eqn:G.
    + rewrite get_emit. match goal with |- context [get_conn i (set_n_tx ?t ?x)] => change (get_conn i (set_n_tx t x)) with (get_conn i x) end.
      rewrite get_upd. destruct (Nat.eqb_spec j i) as [->|]; [rewrite G; reflexivity|]. now destruct (get_conn i n).
    + now destruct (get_conn i n).
Qed.
Lemma same_buffers_refl n : same_buffers n n.
Proof. intro i. now destruct (get_conn i n). Qed.
Lemma star0_buffers n n' : star prim0 n n' -> same_buffers n n'.
Proof. induction 1; [apply same_buffers_refl|]. eapply same_buffers_trans; [eassumption|]. now apply prim0_buffers. Qed.
Lemma incomplete_nil : incomplete []. Proof. left. reflexivity. Qed.
Lemma drained_same n n' : same_buffers n n' -> drained n -> drained n'.
Proof.
  intros S D i c G. specialize (S i). rewrite G in S. destruct (get_conn i n) as [c0|] eqn:G0.
  - rewrite S. exact (D i c0 G0).
  - rewrite S. apply incomplete_nil.
Qed.

(** The read loop: other buffers unchanged, own buffer drained. *)
Lemma read_loop_drains fuel : forall i clock n c, stream_inv n -> get_conn i n = Some c -> zlen (c_recv c) <= Z.of_nat fuel ->
  (forall j cj, j <> i -> get_conn j n = Some cj -> incomplete (c_recv cj)) ->
  drained (fst (read_loop sha256 py2 cf fuel i clock n)).
Proof.
  induction fuel as [|k IH]; intros i clock n c SI G L O.
  - cbn. intros j cj Gj. destruct (Nat.eq_dec j i) as [->|Nj]; [|eauto].
    assert (cj = c) as -> by congruence. left. pose proof (zlen_nonneg (c_recv c)). lia.
  - cbn [read_loop]. unfold bindM at 1, getM at 1. cbv beta iota. rewrite G.
    assert (incomplete (c_recv c) -> drained n) as Dn.
    { intros Hi j cj Gj. destruct (Nat.eq_dec j i) as [->|Nj]; [|eauto]. assert (cj = c) as -> by congruence. exact Hi. }
    destruct (first_msg_len (c_recv c)) as [len|] eqn:F.
    2:{ apply Dn. left. now apply first_msg_len_none. }
    destruct (Z.gtb_spec len (zlen (c_recv c))) as [Lg|Lg].
    { apply Dn. right. apply first_msg_len_some in F. destruct F as (_ & ->). exact Lg. }
    cbv zeta. unfold bindM at 1, modM at 1. cbv beta iota.
    pose proof (handle_frame_prims sha256 py2 cf i c len (clock k) n) as H.
    pose proof (handle_frame_ok sha256 py2 cf i (ztake len (c_recv c)) (clock k) (upd i (set_c_recv (zdrop len (c_recv c))) n)) as Ho.
    unfold bindM at 1. destruct (handle_frame _ _ _ i _ _ _) as (n' & r). cbn in Ho, H. subst r.
    pose proof (stream_inv_frame n i c len G F Lg SI) as SI1.
    assert (stream_inv n') as SI2.
    { eapply star_inv; [|exact H|exact SI1]. intros x y Hxy. apply stream_inv_prim. now apply p_prim0. }
    pose proof (star0_buffers _ _ H) as SB.
    assert (get_conn i (take_frame sha256 cf i len c n) = Some (set_c_recv (zdrop len (c_recv c)) c)) as G1.
    { unfold take_frame. rewrite get_emit, get_upd, Nat.eqb_refl, G. reflexivity. }
    pose proof (SB i) as SBi. rewrite G1 in SBi. destruct (get_conn i n') as [c'|] eqn:G'; [|discriminate].
    cbn in SBi.
    pose proof (frame_cut _ _ (wf_buffer n i c SI G) F Lg) as (F24 & _).
    apply IH with (c := c'); try assumption.
    + rewrite SBi. rewrite zlen_zdrop; [|apply first_msg_len_some in F; pose proof (le_val_nonneg _ (wf_field _ (wf_buffer n i c SI G))); lia].
      rewrite zlen_ztake in F24; [lia|]. apply first_msg_len_some in F; pose proof (le_val_nonneg _ (wf_field _ (wf_buffer n i c SI G))); lia.
    + intros j cj Nj Gj. specialize (SB j). rewrite Gj in SB.
      assert (get_conn j (take_frame sha256 cf i len c n) = get_conn j n) as Ej.
      { unfold take_frame. rewrite get_emit, get_upd. destruct (Nat.eqb_spec i j); [congruence|reflexivity]. }
      rewrite Ej in SB. destruct (get_conn j n) as [c0|] eqn:G0; rewrite SB; [eauto|apply incomplete_nil].
Qed.
Lemma drained_step n e : wf_event e -> stream_inv n -> drained n -> drained (step sha256 py2 cf n e).
Proof.
  intros W SI D. assert (forall A (m : M A), pres0 sha256 cf m -> drained (run m n)) as Up.
  { intros A m H. eapply drained_same; [apply star0_buffers; apply H|exact D]. }
  destruct e; cbn [step]; try (destruct (is_open i n) eqn:O; [|exact D]).
  - apply Up, pres0_items.
  - apply Up, pres0_readable. exact W.
  - destruct r as [[|x chunk]|]; cbn [handle_read]; try (apply Up; apply pres0_close); try (apply Up; apply presR_bind; [apply star_trans|apply pres0_close|intros _; apply pres0_close]).
    unfold run, bindM at 1, modM at 1. cbv beta iota. unfold bindM, getM. cbv beta iota.
    unfold is_open in O. destruct (get_conn i n) as [c|] eqn:G; [|discriminate].
    assert (exists c', get_conn i (received i (x :: chunk) now n) = Some c') as (c' & G').
    { unfold received. rewrite G, get_emit.
      match goal with |- context [get_conn i (set_n_rx ?t ?y)] => change (get_conn i (set_n_rx t y)) with (get_conn i y) end.
      rewrite get_upd, Nat.eqb_refl, G. eexists. reflexivity. }
    rewrite G'. apply read_loop_drains with (c := c').
    + apply stream_inv_received; assumption.
    + exact G'.
    + unfold zlen. lia.
    + intros j cj Nj Gj. apply (D j cj). revert Gj. unfold received. rewrite G, get_emit.
      match goal with |- context [get_conn j (set_n_rx ?t ?y)] => change (get_conn j (set_n_rx t y)) with (get_conn j y) end.
      rewrite get_upd. destruct (Nat.eqb_spec i j); [congruence|auto].
  - apply Up, pres0_write.
  - apply Up, pres0_close.
  - destruct (n_listener n); [|exact D]. apply Up, pres0_accept.
  - apply Up, pres0_add_peer.
  - apply Up, pres0_remove.
  - apply Up, pres0_punish.
  - apply Up, pres0_send.
Qed.
Lemma step_stream_inv n e : wf_event e -> stream_inv n -> stream_inv (step sha256 py2 cf n e).
Proof. intros W. apply star_inv with (R := prim); [apply stream_inv_prim|now apply step_prims]. Qed.
Theorem drained_history es : Forall wf_event es -> drained (history sha256 py2 cf es).
Proof.
  unfold history. assert (stream_inv (init_node cf) /\ drained (init_node cf)) as H.
  { split; [apply stream_inv_init|]. intros i c. unfold get_conn. cbn. destruct i; discriminate. }
  revert H. generalize (init_node cf). induction es as [|e es IH]; intros n (S & D) W; cbn [fold_left]; [exact D|].
  inversion W; subst. apply IH; [|assumption]. split; [now apply step_stream_inv|now apply drained_step].
Qed.
(** Counters: the node totals are the sums over all connections. *)
Definition sum_conns (f : conn -> Z) (n : node) : Z := fold_right (fun c s => f c + s) 0 (n_conns n).
End Streams.
