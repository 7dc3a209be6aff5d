(** Properties C119 to C124: the node as a table of connections, comparison of
    connections, the list of bans, creation of nodes and the older RawNode. *)
From Coq Require Import String ZArith List Lia Bool.
From Verif Require Import PyBase PyVal FormatModel MessagesModel FormatSpec FormatProofs MessagesProofs
  NodeModel NodeProofs NodeProofs2 NodeProofs3 NodeProofs4 NodeProofs5 NodeProofs6 NodeProofs7 NodeProofs8 TableModel PropsNode.
Import ListNotations.
Open Scope string_scope.
Open Scope list_scope.
Open Scope Z_scope.

(** ** C119: the node as a table *)

Definition calm (x : action) : Prop := match x with AConnect _ _ _ | AClose _ => False | _ => True end.
(** The three kinds of primitive updates, as far as the table is concerned. *)
Definition same_table (n n' : node) : Prop :=
  map c_open (n_conns n') = map c_open (n_conns n) /\ exists l, n_trace n' = n_trace n ++ l /\ Forall calm l.
Lemma open_upd i f n : (forall c, c_open (f c) = c_open c) -> map c_open (n_conns (upd i f n)) = map c_open (n_conns n).
Proof.
  intro H. cbn [n_conns upd set_n_conns]. generalize (n_conns n) as l. induction i as [|i IH]; intros [|c l]; cbn [upd_nth map]; try reflexivity; [now rewrite H|now rewrite IH].
Qed.
Lemma same_refl n : same_table n n. Proof. split; [reflexivity|exists []; split; [now rewrite app_nil_r|constructor]]. Qed.
Lemma same_fields n n' : n_conns n' = n_conns n -> n_trace n' = n_trace n -> same_table n n'.
Proof. intros H1 H2. split; [now rewrite H1|]. exists []. rewrite app_nil_r. split; [exact H2|constructor]. Qed.
Lemma same_one n n' x : map c_open (n_conns n') = map c_open (n_conns n) -> n_trace n' = n_trace n ++ [x] -> calm x -> same_table n n'.
Proof. intros H1 H2 H3. split; [exact H1|]. exists [x]. split; [exact H2|repeat constructor; exact H3]. Qed.
Lemma prim_kinds sha256 cf n n' : prim sha256 cf n n' ->
  same_table n n' \/ (exists a inc, n' = register a inc n) \/ (exists i c, get_conn i n = Some c /\ n' = shut i n).
Proof.
  intros [n1 n2 H|n1 i c len G F L|n1 i chunk now _ W].
  - destruct H.
    + left. unfold queue. destruct (get_conn i n0); [|apply same_refl]. eapply same_one; [now apply open_upd|reflexivity|exact I].
    + destruct (get_conn i n0) as [c|] eqn:G; [right; right; eauto|]. left. unfold shut. rewrite G. apply same_refl.
    + right. left. eauto.
    + left. unfold add_banscore. destruct (get_conn i n0); [|apply same_refl]. split; [now apply open_upd|]. exists []. split; [now rewrite app_nil_r|constructor].
    + left. unfold reduce_banscore. destruct (get_conn i n0); [|apply same_refl]. split; [now apply open_upd|]. exists []. split; [now rewrite app_nil_r|constructor].
    + left. unfold pinged. destruct (get_conn i n0); [|apply same_refl]. eapply same_one; [now apply open_upd|reflexivity|exact I].
    + left. unfold check_external_ip. destruct (count_votes _ _ _); [apply same_refl|now apply same_fields].
    + left. split; [apply open_upd; intro c; specialize (H c); unfold core in H; congruence|]. exists []. split; [now rewrite app_nil_r|constructor].
    + left. unfold record_peer. destruct (get_conn i n0); [|apply same_refl]. destruct (_ <? _); [now apply same_fields|apply same_refl].
    + left. now apply same_fields.
    + left. eapply same_one; [reflexivity|reflexivity|]. destruct a; try destruct H; exact I.
    + left. unfold wrote. destruct (get_conn i n0); [|apply same_refl]. eapply same_one; [|reflexivity|exact I]. now apply open_upd.
    + left. eapply same_one; [reflexivity|reflexivity|exact I].
    + left. now apply same_fields.
    + left. eapply same_one; [reflexivity|reflexivity|exact I].
    + left. now apply same_fields.
  - left. unfold take_frame. eapply same_one; [now apply open_upd|reflexivity|]. unfold outcome. destruct (msg_parse _ _ _); [exact I|]. destruct (is_invalid e); exact I.
  - left. unfold received. destruct (get_conn i n1); [|apply same_refl]. eapply same_one; [|reflexivity|exact I]. now apply open_upd.
Qed.

Lemma open_from_same l l' : map c_open l' = map c_open l -> forall k, open_from k l' = open_from k l.
Proof. revert l'. induction l as [|c l IH]; intros [|c' l'] H k; cbn in H; try discriminate; [reflexivity|]. injection H as H1 H2. cbn [open_from]. now rewrite H1, (IH l' H2). Qed.
Lemma open_from_app l l' : forall k, open_from k (l ++ l') = open_from k l ++ open_from (k + List.length l) l'.
Proof.
  induction l as [|c l IH]; intro k; cbn [open_from app List.length]; [now rewrite Nat.add_0_r|]. rewrite IH, <- plus_n_Sm. cbn [plus]. destruct (c_open c); reflexivity.
Qed.
Lemma open_from_ge l : forall k x, In x (open_from k l) -> (k <= x)%nat.
Proof. intros k x H. apply open_from_in in H. destruct H as (j & c & -> & _). lia. Qed.
Lemma open_from_close l : forall i k, open_from k (upd_nth i (set_c_open false) l) = filter (fun j => negb (Nat.eqb j (k + i))) (open_from k l).
Proof.
  assert (Id : forall l k x, (x < k)%nat -> filter (fun j => negb (Nat.eqb j x)) (open_from k l) = open_from k l).
  { intros l0 k x Hx. rewrite (filter_ext_in _ (fun _ => true)); [induction (open_from k l0); cbn; congruence|]. intros y Hy. apply open_from_ge in Hy. destruct (Nat.eqb_spec y x); [lia|reflexivity]. }
  induction l as [|c l IH]; intros [|i] k; cbn [upd_nth open_from]; try reflexivity.
  - cbn [c_open set_c_open]. rewrite Nat.add_0_r. destruct (c_open c); cbn [filter]; [rewrite Nat.eqb_refl; cbn [negb]|]; rewrite Id by lia; reflexivity.
  - rewrite IH, <- plus_n_Sm. cbn [plus]. destruct (c_open c); cbn [filter]; [|reflexivity]. destruct (Nat.eqb_spec k (S (k + i))); [lia|reflexivity].
Qed.
Lemma tget_none k t : tget k t = None <-> ~ In k (tkeys t).
Proof.
  induction t as [|(k' & v) t IH]; cbn; [tauto|]. destruct (Z.eqb_spec k' k) as [->|N]; [split; [discriminate|intro H; exfalso; apply H; now left]|]. rewrite IH. tauto.
Qed.
Lemma tset_fresh k v t : tget k t = None -> tset k v t = t ++ [(k, v)].
Proof. induction t as [|(k' & v') t IH]; cbn; [reflexivity|]. destruct (Z.eqb_spec k' k); [discriminate|]. intro H. now rewrite IH. Qed.
Lemma tget_in k v t : NoDup (tkeys t) -> tget k t = Some v <-> In (k, v) t.
Proof.
  induction t as [|(k' & v') t IH]; cbn [tget In tkeys map fst]; [split; [discriminate|intros []]|]. intro N. inversion N; subst. destruct (Z.eqb_spec k' k) as [->|Ne].
  - split; [intro H; left; congruence|]. intros [H|H]; [congruence|]. exfalso. apply H1. apply in_map_iff. exists (k, v). auto.
  - rewrite (IH H2). split; [auto|]. intros [H|H]; [congruence|exact H].
Qed.
Lemma nodup_filter_keys f t : NoDup (tkeys t) -> NoDup (tkeys (filter f t)).
Proof.
  induction t as [|(k & v) t IH]; cbn [filter tkeys map fst]; intro N; [constructor|]. inversion N; subst. destruct (f (k, v)); [|auto]. cbn [tkeys map fst]. constructor; [|auto].
  intro H. apply H1. apply in_map_iff in H. destruct H as (x & E & Hx). apply filter_In in Hx. apply in_map_iff. exists x. tauto.
Qed.

Lemma nodup_snoc {A} (l : list A) x : NoDup l -> ~ In x l -> NoDup (l ++ [x]).
Proof.
  induction l as [|y l IH]; cbn; intros N H; [repeat constructor; auto|]. inversion N as [|? ? H1 H2]; subst. constructor; [|apply IH; tauto].
  rewrite in_app_iff. cbn. intros [K|[K|[]]]; [contradiction|]. apply H. now left.
Qed.

Lemma filter_all {A} (f : A -> bool) l : (forall x, In x l -> f x = true) -> filter f l = l.
Proof. induction l as [|x l IH]; intro H; [reflexivity|]. cbn [filter]. rewrite (H x) by now left. f_equal. apply IH. intros y Hy. apply H. now right. Qed.

Section Table.
Variable sha256 : bytes -> bytes.
Variable py2 : bool.
Variable cf : config.
Variable fd : nat -> Z.
Variable fd0 : Z.
Notation history := (history sha256 py2 cf).

Definition slots (b : bool) (n : node) : table := (if b then [(fd0, Listener)] else []) ++ map (fun i => (fd i, Peer i)) (peers n).
Record agrees (b : bool) (n : node) (s : files) : Prop := {
  ag_table : f_table s = slots b n;
  ag_keys : NoDup (tkeys (f_table s));
  ag_closed : forall i, In i (f_closed s) <-> exists c, get_conn i n = Some c /\ c_open c = false
}.
Lemma calm_acts l : Forall calm l -> forall s, fold_left (act fd) l s = s.
Proof. induction 1 as [|x l H _ IH]; intro s; [reflexivity|]. cbn [fold_left]. rewrite IH. destruct x; try destruct H; reflexivity. Qed.
Lemma all_free_app l : forall s r, all_free fd s (l ++ r) <-> all_free fd s l /\ all_free fd (fold_left (act fd) l s) r.
Proof. induction l as [|x l IH]; intros s r; cbn [all_free app fold_left]; [tauto|]. rewrite IH. tauto. Qed.
Lemma peers_same n n' : map c_open (n_conns n') = map c_open (n_conns n) -> peers n' = peers n.
Proof. intro H. unfold peers. now apply open_from_same. Qed.
Lemma closed_same n n' : map c_open (n_conns n') = map c_open (n_conns n) -> forall i,
  (exists c, get_conn i n' = Some c /\ c_open c = false) <-> (exists c, get_conn i n = Some c /\ c_open c = false).
Proof.
  intros H i. unfold get_conn. assert (E : nth_error (map c_open (n_conns n')) i = nth_error (map c_open (n_conns n)) i) by now rewrite H.
  rewrite !nth_error_map in E. destruct (nth_error (n_conns n') i) as [c'|], (nth_error (n_conns n) i) as [c|]; cbn in E; try discriminate; [|reflexivity].
  injection E as E. split; intros (d & D & O); [exists c|exists c']; split; auto; congruence.
Qed.
Lemma tdel_slot b n i : NoDup (tkeys (slots b n)) -> In i (peers n) ->
  tdel (fd i) (slots b n) = (if b then [(fd0, Listener)] else []) ++ map (fun j => (fd j, Peer j)) (filter (fun j => negb (Nat.eqb j i)) (peers n)).
Proof.
  intros N Hi. unfold tdel, slots in *. rewrite filter_app. f_equal.
  - destruct b; [|reflexivity]. cbn [filter fst]. destruct (Z.eqb_spec fd0 (fd i)) as [E|E]; [|reflexivity]. exfalso. cbn in N. inversion N as [|? ? H1 H2]. apply H1. rewrite E.
    rewrite map_map. cbn. now apply (in_map fd).
  - assert (N' : NoDup (map fd (peers n))). { destruct b; cbn in N; unfold tkeys in N; rewrite map_map in N; cbn in N; [now inversion N|exact N]. }
    clear N. revert N' Hi. generalize (peers n) as l. induction l as [|j l IH]; intros N Hi; [destruct Hi|]. cbn [map filter fst]. cbn [map] in N. inversion N as [|? ? A B]; subst.
    destruct (Z.eqb_spec (fd j) (fd i)) as [E|E].
    + assert (j = i) as -> by (destruct Hi as [|Hi]; [assumption|]; exfalso; apply A; rewrite E; now apply (in_map fd)). rewrite Nat.eqb_refl. cbn [negb].
      clear IH B N Hi E. induction l as [|k l IH]; [reflexivity|]. cbn [map filter fst In] in *. destruct (Z.eqb_spec (fd k) (fd i)) as [E|E]; [exfalso; apply A; left; exact E|].
      destruct (Nat.eqb_spec k i) as [->|]; [congruence|]. cbn [negb map]. f_equal. apply IH. tauto.
    + destruct Hi as [->|Hi]; [congruence|]. destruct (Nat.eqb_spec j i) as [->|]; [congruence|]. cbn [negb map]. f_equal. now apply IH.
Qed.
Lemma tdel_absent k t : ~ In k (tkeys t) -> tdel k t = t.
Proof.
  induction t as [|(k' & v) t IH]; cbn; [reflexivity|]. intro N. destruct (Z.eqb_spec k' k); [tauto|]. cbn. f_equal. apply IH. tauto.
Qed.
Lemma agrees_prim b n n' s : prim sha256 cf n n' -> agrees b n s -> exists l, n_trace n' = n_trace n ++ l /\
  (all_free fd s l -> agrees b n' (fold_left (act fd) l s)).
Proof.
  intros P [A B C]. destruct (prim_kinds sha256 cf n n' P) as [(H & l & E & Hl)|[(a & inc & ->)|(i & c & G & ->)]].
  - exists l. split; [exact E|]. intros _. rewrite calm_acts by exact Hl. constructor; [|exact B|].
    + rewrite A. unfold slots. now rewrite (peers_same n n' H).
    + intro i. rewrite C. symmetry. now apply closed_same.
  - set (k := List.length (n_conns n)). exists [AConnect k a inc]. split; [reflexivity|]. intros (F & _). cbn [free fold_left act] in *.
    assert (Pe : peers (register a inc n) = peers n ++ [k]).
    { unfold peers, register, emit. cbn [n_conns set_n_trace set_n_conns]. rewrite open_from_app. reflexivity. }
    constructor; cbn [f_table f_closed].
    + rewrite tset_fresh by exact F. rewrite A. unfold slots. rewrite Pe, map_app, app_assoc. reflexivity.
    + rewrite tset_fresh by exact F. unfold tkeys. rewrite map_app. apply tget_none in F. cbn [map fst]. unfold tkeys in *. now apply nodup_snoc.
    + intro i. rewrite C. rewrite get_register. fold k. destruct (Nat.eqb_spec i k) as [->|Hne]; [|reflexivity]. 
      split; [|intros (c & E & O); injection E as <-; discriminate]. intros (c & E & _). exfalso. assert (get_conn k n = None) by (apply nth_error_None; unfold k; lia). congruence.
  - exists [AClose i]. split; [unfold shut; rewrite G; unfold disconnected; match goal with |- context [if ?b then _ else _] => destruct b end; reflexivity|]. intros _. cbn [fold_left act].
    assert (Co : n_conns (shut i n) = upd_nth i (set_c_open false) (n_conns n)) by (unfold shut; rewrite G; unfold disconnected; match goal with |- context [if ?b then _ else _] => destruct b end; reflexivity).
    assert (Pe : peers (shut i n) = filter (fun j => negb (Nat.eqb j i)) (peers n)) by (unfold peers; rewrite Co; apply open_from_close).
    assert (Cl : forall j, (exists c, get_conn j (shut i n) = Some c /\ c_open c = false) <-> j = i \/ exists c, get_conn j n = Some c /\ c_open c = false).
    { intro j. unfold get_conn. rewrite Co. change (nth_error (upd_nth i (set_c_open false) (n_conns n)) j) with (get_conn j (upd i (set_c_open false) n)). rewrite get_upd.
      destruct (Nat.eqb_spec i j) as [<-|Hne].
      - rewrite G. cbn [option_map]. split; [auto|]. intros _. exists (set_c_open false c). auto.
      - split; [auto|]. intros [->|H]; [congruence|exact H]. }
    assert (Ic : existsb (Nat.eqb i) (f_closed s) = negb (c_open c)).
    { apply eq_true_iff_eq. rewrite existsb_exists, negb_true_iff. split.
      - intros (j & Hj & E). apply Nat.eqb_eq in E. subst j. apply C in Hj. destruct Hj as (c' & G' & O). congruence.
      - intro O. exists i. split; [apply C; eauto|apply Nat.eqb_refl]. }
    rewrite Ic. destruct (c_open c) eqn:O; cbn [negb].
    + assert (Hi : In i (peers n)) by (apply peers_in, is_open_get; eauto). constructor; cbn [f_table f_closed].
      * rewrite A in *. rewrite tdel_slot; auto. unfold slots. now rewrite Pe.
      * apply nodup_filter_keys, B.
      * intro j. rewrite Cl. cbn [In]. rewrite C. split; intros [H|H]; auto.
    + constructor; [|exact B|].
      * rewrite A. unfold slots. rewrite Pe. f_equal. f_equal. rewrite filter_all; [reflexivity|]. intros j Hj.
        destruct (Nat.eqb_spec j i) as [->|]; [|reflexivity]. apply peers_in, is_open_get in Hj. destruct Hj as (c' & G' & O'). congruence.
      * intro j. rewrite Cl, C. split; [auto|]. intros [->|H]; [eauto|exact H].
Qed.
Lemma agrees_star b n n' : star (prim sha256 cf) n n' -> exists l, n_trace n' = n_trace n ++ l /\
  forall s, agrees b n s -> all_free fd s l -> agrees b n' (fold_left (act fd) l s).
Proof.
  induction 1 as [n|n1 n2 n3 H IH P].
  - exists []. split; [now rewrite app_nil_r|]. intros s A _. exact A.
  - destruct IH as (l & E & IH).
    assert (X : exists x, n_trace n3 = n_trace n2 ++ x).
    { destruct (prim_kinds sha256 cf n2 n3 P) as [(_ & x & Ex & _)|[(a & inc & ->)|(i & c & G & ->)]]; [eauto|eexists; reflexivity|].
      exists [AClose i]. unfold shut. rewrite G. unfold disconnected. match goal with |- context [if ?b then _ else _] => destruct b end; reflexivity. }
    destruct X as (x & Ex). exists (l ++ x). split; [now rewrite Ex, E, app_assoc|]. intros s A F. apply all_free_app in F. destruct F as (F1 & F2). rewrite fold_left_app.
    destruct (agrees_prim b n2 n3 _ P (IH s A F1)) as (x' & Ex' & K). assert (x' = x) as -> by (rewrite Ex in Ex'; now apply app_inv_head in Ex'). now apply K.
Qed.
Lemma unlisten_star n n' : star (prim sha256 cf) n n' -> n_listener n' = true -> n_listener n = true.
Proof.
  induction 1 as [n|n1 n2 n3 H IH P]; [auto|]. intro L. apply IH. revert L. destruct P as [m1 m2 H0|m1 i c len G F L0|m1 i chunk now _ W].
  - destruct H0; unfold queue, shut, add_banscore, reduce_banscore, pinged, check_external_ip, record_peer, wrote, disconnected;
      try (destruct (get_conn i n)); try (destruct (count_votes _ _ _)); try (destruct (book_mem _ _)); try (destruct (_ <? _)); auto. discriminate.
  - auto.
  - unfold received. destruct (get_conn i m1); auto.
Qed.
Theorem tabled_agrees es s : Forall wf_event es -> tabled sha256 py2 cf fd fd0 es s -> agrees (n_listener (history es)) (history es) s.
Proof.
  intros W T. induction T as [|es e s T IH n n' F].
  - constructor; cbn; [reflexivity|repeat constructor; auto|]. intro i. split; [intros []|]. intros (c & G & _). destruct i; discriminate.
  - apply Forall_app in W. destruct W as (W & We). inversion We; subst. specialize (IH W). fold n in IH.
    assert (S : star (prim sha256 cf) n n').
    { unfold n', NodeModel.history. rewrite fold_left_app. cbn [fold_left]. apply step_prims. assumption. }
    destruct (agrees_star (n_listener n) n n' S) as (l & E & K). unfold advance, new_actions in *. rewrite E in *. rewrite skipn_app, skipn_all, Nat.sub_diag in *. cbn [skipn app] in *.
    specialize (K s IH F). pose proof (unlisten_star n n' S) as U. fold n'. destruct (n_listener n) eqn:L, (n_listener n') eqn:L'; cbn [andb negb]; [exact K| |discriminate (U eq_refl)|exact K].
    destruct K as [A B C]. constructor; cbn [f_table f_closed]; [|apply nodup_filter_keys, B|exact C].
    rewrite A in *. unfold slots in *. cbn [app tkeys map fst] in B. inversion B; subst. cbn [app tdel filter fst]. rewrite Z.eqb_refl. cbn [negb]. fold (tdel fd0 (map (fun i => (fd i, Peer i)) (peers n'))).
    now apply tdel_absent.
Qed.
End Table.

(** In every history, whatever unused descriptors the system hands out, also
    descriptors used before: the table lists the listening socket, while it is
    open, and every open connection exactly once, each under its own descriptor
    and nothing else, in the order in which they were made; what the node calls
    its peers is what the model calls so, and its length counts them. *)
Theorem C119_entries : forall sha256 py2 cf fd fd0 es s, Forall wf_event es -> tabled sha256 py2 cf fd fd0 es s ->
  let n := history sha256 py2 cf es in
  NoDup (tkeys (f_table s)) /\
  (forall k i, tget k (f_table s) = Some (Peer i) <-> is_open i n = true /\ k = fd i) /\
  (forall k, tget k (f_table s) = Some Listener <-> n_listener n = true /\ k = fd0).
Proof.
  intros sha py2 cf fd fd0 es s W T n. destruct (tabled_agrees sha py2 cf fd fd0 es s W T) as [A B C]. fold n in A, C. split; [exact B|]. split.
  - intros k i. rewrite tget_in by exact B. rewrite A. unfold slots. rewrite in_app_iff, in_map_iff. split.
    + intros [H|(j & E & H)]; [destruct (n_listener n); [destruct H as [H|[]]; discriminate|destruct H]|]. injection E as <- <-. apply peers_in in H. auto.
    + intros (O & ->). right. exists i. split; [reflexivity|]. now apply peers_in.
  - intros k. rewrite tget_in by exact B. rewrite A. unfold slots. rewrite in_app_iff, in_map_iff. split.
    + intros [H|(j & E & H)]; [|discriminate]. destruct (n_listener n); [|destruct H]. destruct H as [H|[]]. split; [reflexivity|congruence].
    + intros (O & ->). left. rewrite O. now left.
Qed.
Theorem C119_peers : forall sha256 py2 cf fd fd0 es s, Forall wf_event es -> tabled sha256 py2 cf fd fd0 es s ->
  let n := history sha256 py2 cf es in
  tpeers (f_table s) = peers n /\ tlen (f_table s) = map_len n.
Proof.
  intros sha py2 cf fd fd0 es s W T n. destruct (tabled_agrees sha py2 cf fd fd0 es s W T) as [A B C]. fold n in A, C. rewrite A. unfold tpeers, tvalues, tlen, slots, map_len.
  rewrite map_app, flat_map_app, map_map. cbn [snd]. split.
  - assert (X : flat_map (fun v => match v with Peer i => [i] | Listener => [] end) (map snd (if n_listener n then [(fd0, Listener)] else [])) = []) by (destruct (n_listener n); reflexivity).
    rewrite X. cbn [app]. induction (peers n) as [|i l IH]; [reflexivity|]. cbn. now rewrite IH.
  - unfold zlen. rewrite app_length, map_length. destruct (n_listener n); cbn [List.length]; lia.
Qed.
(** The truth value of a node.  With Python 2 it is always true, as the code
    intends; with Python 3 it is false just when the listening socket and all
    connections are closed. *)
Theorem C124_truth_partial : forall sha256 py2 cf fd fd0 es s, Forall wf_event es -> tabled sha256 py2 cf fd fd0 es s ->
  truth true (f_table s) = true /\
  (truth false (f_table s) = true <-> n_listener (history sha256 py2 cf es) = true \/ exists i, is_open i (history sha256 py2 cf es) = true).
Proof.
  intros sha py2 cf fd fd0 es s W T. split; [reflexivity|]. unfold truth. rewrite (proj2 (C119_peers sha py2 cf fd fd0 es s W T)). unfold map_len.
  rewrite Z.ltb_lt. pose proof (zlen_nonneg (peers (history sha py2 cf es))) as P. split.
  - intro H. destruct (n_listener (history sha py2 cf es)); [now left|]. right. destruct (peers (history sha py2 cf es)) as [|i l] eqn:E; [cbn in H; lia|]. exists i. apply peers_in. rewrite E. now left.
  - intros [H|(i & H)]; [rewrite H; lia|]. apply peers_in in H. destruct (peers (history sha py2 cf es)) as [|j l]; [destruct H|]. rewrite zlen_cons in *. pose proof (zlen_nonneg l). destruct (n_listener _); lia.
Qed.
(** For Python 3 the node becomes false, and its loop ends, when a peer has
    made the listening socket close (C104) and is gone itself. *)
Definition nx_late : conn_env := mk_conn_env true (2 ^ 32 * SEC) [1;2;3;4;5;6;7;8].
Theorem C124_truth_refuted : exists es s, Forall wf_event es /\ tabled nx_sha false nx_cf (fun _ => 4) 3 es s /\ truth false (f_table s) = false.
Proof.
  exists ([EvAccept nx_a (2 ^ 32 * SEC) nx_late] ++ [EvError 0]). eexists. split; [repeat constructor|]. split.
  - apply tabled_step; [apply (tabled_step _ _ _ _ _ [] _ _ (tabled_init _ _ _ _ _)); vm_compute; auto|vm_compute; auto].
  - vm_compute. reflexivity.
Qed.
(** A descriptor used again. *)
Example C119_example : exists s, tabled nx_sha false nx_cf (fun _ => 4) 3
    (([EvAccept nx_a (1000 * SEC) nx_env] ++ [EvError 0]) ++ [EvAccept nx_b (1000 * SEC) nx_env]) s /\
  f_table s = [(3, Listener); (4, Peer 1)].
Proof.
  eexists. split.
  - apply tabled_step; [apply tabled_step; [apply (tabled_step _ _ _ _ _ [] _ _ (tabled_init _ _ _ _ _)); vm_compute; auto|vm_compute; auto]|vm_compute; auto].
  - vm_compute. reflexivity.
Qed.

(** ** C120: comparing connections *)

(** The intended property: connections compare equal just when they are the same
    connection, and [x in l] tells whether x is one of l. *)
Definition comparable (depth : nat) : Prop :=
  (forall x y, conn_eq depth x y = Ok (Nat.eqb x y)) /\ (forall x l, exists b, conn_in depth x l = Ok b /\ (b = true <-> In x l)).
(** No two connections can be compared, whatever the recursion limit. *)
Theorem C120_never_equal_refuted : forall depth x y, conn_eq depth x y = Raise RecursionError.
Proof. induction depth as [|d IH]; intros x y; [reflexivity|]. cbn [conn_eq]. apply IH. Qed.
Theorem C120_comparable_refuted : forall depth, ~ comparable depth.
Proof. intros depth (H & _). specialize (H 0%nat 0%nat). rewrite C120_never_equal_refuted in H. discriminate. Qed.
(** Membership in a list is answered only for the empty list and for the first
    element; so a connection that is not the node's oldest open one cannot be
    looked up among its peers, and removing it from a list fails. *)
Theorem C120_in_partial : forall depth x l,
  conn_in depth x l = match l with [] => Ok false | y :: _ => if Nat.eqb x y then Ok true else Raise RecursionError end.
Proof. intros depth x [|y l]; [reflexivity|]. cbn [conn_in]. rewrite C120_never_equal_refuted. reflexivity. Qed.
Theorem C120_remove_partial : forall depth x l,
  conn_remove depth x l = match l with [] => Raise ValueError | y :: r => if Nat.eqb x y then Ok r else Raise RecursionError end.
Proof. intros depth x [|y l]; [reflexivity|]. cbn [conn_remove]. rewrite C120_never_equal_refuted. reflexivity. Qed.
(** Looking up a connection in a set, or as the key of a dictionary, works if no
    other element has the same hash. *)
Theorem C120_set_partial : forall depth hash x l, (forall y, In y l -> hash y = hash x -> y = x) ->
  exists b, conn_in_set depth hash x l = Ok b /\ (b = true <-> In x l).
Proof.
  intros depth hash x l H. unfold conn_in_set. rewrite C120_in_partial. destruct (filter _ l) as [|y r] eqn:E.
  - exists false. split; [reflexivity|]. split; [discriminate|]. intro Hx. exfalso. assert (In x (filter (fun y => hash y =? hash x) l)) as F by (apply filter_In; split; [exact Hx|apply Z.eqb_refl]).
    rewrite E in F. destruct F.
  - assert (In y (filter (fun y => hash y =? hash x) l)) as F by (rewrite E; now left). apply filter_In in F. destruct F as (F1 & F2). apply Z.eqb_eq in F2. pose proof (H y F1 F2) as ->. rewrite Nat.eqb_refl.
    exists true. split; [reflexivity|tauto].
Qed.
Example C120_example : (conn_in 100 2 [2; 3; 4] = Ok true /\ conn_in 100 3 [2; 3; 4] = Raise RecursionError /\
  conn_in_set 100 Z.of_nat 3 [2; 3; 4] = Ok true /\ conn_in_set 100 Z.of_nat 5 [2; 3; 4] = Ok false)%nat.
Proof. repeat split. Qed.

(** ** C121: the list of bans *)

(** The time of the last ban of [ip]. *)
Definition last_ban (ip : text) (l : list (text * Z)) : option Z :=
  fold_left (fun acc x => if bytes_eqb (fst x) ip then Some (snd x) else acc) l None.
Lemma ban_lookup_other ip ip' l : ip' <> ip ->
  ban_lookup (KIp ip') (filter (fun kv => negb (ban_key_eqb (fst kv) (KIp ip))) l) = ban_lookup (KIp ip') l.
Proof.
  intro N. induction l as [|(k & v) l IH]; [reflexivity|]. cbn [filter fst]. destruct k as [x|a]; cbn [ban_key_eqb negb].
  - destruct (bytes_eqb_spec x ip) as [->|E]; cbn [negb].
    + rewrite IH. cbn [ban_lookup ban_key_eqb]. destruct (bytes_eqb_spec ip ip') as [E'|E']; [congruence|reflexivity].
    + cbn [ban_lookup]. now rewrite IH.
  - cbn [ban_lookup ban_key_eqb]. exact IH.
Qed.
Lemma history_snoc sha py2 cf es e : history sha py2 cf (es ++ [e]) = step sha py2 cf (history sha py2 cf es) e.
Proof. unfold history. now rewrite fold_left_app. Qed.
Lemma shut_fields i n : n_banned (shut i n) = n_banned n /\ bans_of (n_trace (shut i n)) = bans_of (n_trace n).
Proof.
  unfold shut. destruct (get_conn i n); [|auto]. unfold disconnected. match goal with |- context [if ?b then _ else _] => destruct b end;
    unfold emit; cbn [n_banned n_trace set_n_trace set_n_book upd set_n_conns]; rewrite bans_app; split; try reflexivity; apply app_nil_r.
Qed.
(** One event: either the bans and their list stay the same, or the event is the
    punishment of a connection whose score it raises above 5. *)
Lemma bans_step sha py2 cf es e : Forall wf_event es -> wf_event e ->
  let n := history sha py2 cf es in let n' := step sha py2 cf n e in
  (bans_of (n_trace n') = bans_of (n_trace n) /\ forall ip, ban_lookup (KIp ip) (n_banned n') = ban_lookup (KIp ip) (n_banned n)) \/
  exists i t c, e = EvPunish i t /\ get_conn i n = Some c /\ c_banscore c + 1 > 5 /\
    bans_of (n_trace n') = bans_of (n_trace n) ++ [(fst (c_address c), t)] /\
    n_banned n' = (KIp (fst (c_address c)), t) :: filter (fun kv => negb (ban_key_eqb (fst kv) (KIp (fst (c_address c))))) (n_banned n).
Proof.
  intros W We n n'.
  assert (S : scoreless e -> (bans_of (n_trace n') = bans_of (n_trace n) /\ forall ip, ban_lookup (KIp ip) (n_banned n') = ban_lookup (KIp ip) (n_banned n))).
  { intro S. destruct (keep_step sha py2 cf n e We S) as (_ & _ & A & B). auto. }
  destruct e; try (left; now apply S).
  - left. destruct (items_scores sha py2 cf now envs pick n (score_inv_history sha py2 cf es W)) as (_ & _ & A & B). auto.
  - destruct (get_conn i n) as [c|] eqn:G.
    + unfold n'. rewrite (punish_spec sha py2 cf i now n c G). destruct (Z.gtb_spec (c_banscore c + 1) 5) as [H|H].
      * right. exists i, now, c. split; [reflexivity|]. split; [exact G|]. split; [lia|]. rewrite (proj2 (shut_fields _ _)), (proj1 (shut_fields _ _)).
        unfold ban, emit. cbn [n_trace n_banned set_n_trace set_n_banned upd set_n_conns]. rewrite bans_app. split; reflexivity.
      * left. split; reflexivity.
    + left. unfold n'. cbn [step]. unfold run, punish_peer, bindM, modM, getM, add_banscore. cbv beta iota. rewrite G. rewrite G. split; reflexivity.
Qed.
(** In every history the list of bans has, for each IP, the time of its last
    ban, ... *)
Theorem C121_last_ban : forall sha256 py2 cf es ip, Forall wf_event es ->
  let n := history sha256 py2 cf es in ban_lookup (KIp ip) (n_banned n) = last_ban ip (bans_of (n_trace n)).
Proof.
  intros sha py2 cf es ip. induction es as [|e es IH] using rev_ind; intros W n; [reflexivity|]. apply Forall_app in W. destruct W as (W & We). inversion We; subst. specialize (IH W). cbv zeta in IH.
  unfold n. rewrite history_snoc. destruct (bans_step sha py2 cf es e W ltac:(assumption)) as [(A & B)|(i & t & c & _ & _ & _ & A & B)]; rewrite A.
  - rewrite B. exact IH.
  - rewrite B. unfold last_ban. rewrite fold_left_app. cbn [fold_left fst snd ban_lookup ban_key_eqb]. destruct (bytes_eqb (fst (c_address c)) ip) eqn:E; [reflexivity|].
    rewrite ban_lookup_other; [exact IH|]. intros ->. rewrite bytes_eqb_refl in E. discriminate.
Qed.
(** ... holds nothing but IPs, ... *)
Theorem C121_only_ips : forall sha256 py2 cf es k t, Forall wf_event es -> In (k, t) (n_banned (history sha256 py2 cf es)) -> exists ip, k = KIp ip.
Proof. intros sha py2 cf es k t W H. pose proof (ip_keys_history sha py2 cf es W) as K. unfold ip_keys in K. rewrite Forall_forall in K. exact (K (k, t) H). Qed.
(** ... and each ban was imposed by the punishment of a connection with that IP
    that had been punished five times more often than forgiven. *)
Theorem C121_reason : forall sha256 py2 cf es ip t, Forall wf_event es ->
  In (ip, t) (bans_of (n_trace (history sha256 py2 cf es))) ->
  exists es1 i es2 c, es = es1 ++ EvPunish i t :: es2 /\ get_conn i (history sha256 py2 cf es1) = Some c /\
    fst (c_address c) = ip /\ 5 <= c_banscore c.
Proof.
  intros sha py2 cf es ip t. induction es as [|e es IH] using rev_ind; intros W H; [destruct H|]. apply Forall_app in W. destruct W as (W & We). inversion We; subst. specialize (IH W).
  rewrite history_snoc in H.
  assert (Old : In (ip, t) (bans_of (n_trace (history sha py2 cf es))) -> exists es1 i es2 c, es ++ [e] = es1 ++ EvPunish i t :: es2 /\ get_conn i (history sha py2 cf es1) = Some c /\
    fst (c_address c) = ip /\ 5 <= c_banscore c).
  { intro O. destruct (IH O) as (es1 & i & es2 & c & -> & R). exists es1, i, (es2 ++ [e]), c. split; [now rewrite <- app_assoc|exact R]. }
  destruct (bans_step sha py2 cf es e W ltac:(assumption)) as [(A & B)|(i & t' & c & -> & G & Sc & A & B)]; rewrite A in H.
  - now apply Old.
  - apply in_app_or in H. destruct H as [H|[H|[]]]; [now apply Old|]. injection H as <- <-. exists es, i, [], c. repeat split; auto. lia.
Qed.
(** A ban is never dropped. *)
Theorem C121_kept : forall sha256 py2 cf es es' ip, Forall wf_event (es ++ es') ->
  ban_lookup (KIp ip) (n_banned (history sha256 py2 cf es)) <> None -> ban_lookup (KIp ip) (n_banned (history sha256 py2 cf (es ++ es'))) <> None.
Proof.
  intros sha py2 cf es es' ip. induction es' as [|e es' IH] using rev_ind; intros W H; [now rewrite app_nil_r|]. rewrite app_assoc in *. apply Forall_app in W. destruct W as (W & We). inversion We; subst. specialize (IH W H).
  rewrite history_snoc. destruct (bans_step sha py2 cf (es ++ es') e W ltac:(assumption)) as [(A & B)|(i & t & c & _ & _ & _ & A & B)]; [now rewrite B|].
  rewrite B. cbn [ban_lookup ban_key_eqb]. destruct (bytes_eqb (fst (c_address c)) ip) eqn:E; [discriminate|]. rewrite ban_lookup_other; [exact IH|]. intros ->. rewrite bytes_eqb_refl in E. discriminate.
Qed.
Example C121_example : n_banned (nx_hist (nx_punished ++ [EvPunish 0 (1002 * SEC)])) = [(KIp (fst nx_a), 1002 * SEC)] /\
  last_ban (fst nx_a) [(fst nx_a, 1); (fst nx_b, 2); (fst nx_a, 3)] = Some 3.
Proof. split; vm_compute; reflexivity. Qed.

(** ** C122: creating a node *)

(** A node is created just when socket, bind and listen succeed; it takes
    incoming connections just when an address was given, and its address is the
    one it is bound to: the given one, or the system's choice of a port. *)
Theorem C122_created : forall s address listen a, create_node s address = Created listen a <->
  sy_socket s = None /\ sy_listen s = None /\
  exists want, want = match address with Some x => x | None => (bs "127.0.0.1", 0) end /\ sy_bind s want = None /\
    (listen = true <-> address <> None) /\ a = (if snd want =? 0 then sy_name s want else want).
Proof.
  intros s address listen a. unfold create_node, fails. set (want := match address with Some x => x | None => (bs "127.0.0.1", 0) end).
  assert (L : match address with Some _ => true | None => false end = listen <-> (listen = true <-> address <> None)).
  { destruct address, listen; split; intros; try discriminate; try reflexivity; try (split; intros; congruence); exfalso; intuition congruence. }
  destruct (sy_socket s) as [e|]; [split; [destruct (e =? 48); discriminate|intros (H & _); discriminate]|].
  destruct (sy_bind s want) as [e|] eqn:B; [split; [destruct (e =? 48); discriminate|intros (_ & _ & w & -> & H & _); congruence]|].
  destruct (sy_listen s) as [e|]; [split; [destruct (e =? 48); discriminate|intros (_ & H & _); discriminate]|].
  split.
  - intro H. injection H as H1 H2. split; [reflexivity|]. split; [reflexivity|]. exists want. split; [reflexivity|]. split; [exact B|]. split; [now apply L|auto].
  - intros (_ & _ & w & -> & _ & H1 & H2). apply L in H1. congruence.
Qed.
(** The intended property: an address in use is reported by AddrInUseError, on
    a system whose errno for it is [EADDRINUSE]. *)
Definition reports_use (EADDRINUSE : Z) : Prop := forall s a, sy_socket s = None -> sy_bind s a = Some EADDRINUSE -> create_node s (Some a) = AddrInUse.
(** It holds where this errno is 48 (macOS and the BSDs), ... *)
Theorem C122_in_use_partial : reports_use 48.
Proof. intros s a H B. unfold create_node. now rewrite H, B. Qed.
(** ... and nowhere else; on Linux it is 98 and on Windows 10048, and the error
    of the socket is raised instead. *)
Theorem C122_in_use_refuted : forall EADDRINUSE, EADDRINUSE <> 48 -> ~ reports_use EADDRINUSE /\
  forall s a, sy_socket s = None -> sy_bind s a = Some EADDRINUSE -> create_node s (Some a) = SocketError EADDRINUSE.
Proof.
  intros E N. assert (F : forall s a, sy_socket s = None -> sy_bind s a = Some E -> create_node s (Some a) = SocketError E).
  { intros s a H B. unfold create_node, fails. rewrite H, B. destruct (Z.eqb_spec E 48); [contradiction|reflexivity]. }
  split; [|exact F]. intro R. set (s := mk_sys None (fun _ => Some E) None (fun a => a)). pose proof (R s nx_a eq_refl eq_refl) as H. rewrite (F s nx_a eq_refl eq_refl) in H. discriminate.
Qed.
Example C122_example :
  create_node (mk_sys None (fun _ => None) None (fun a => (fst a, 40123))) None = Created false (bs "127.0.0.1", 40123) /\
  create_node (mk_sys None (fun _ => Some 98) None (fun a => a)) (Some nx_a) = SocketError 98.
Proof. split; vm_compute; reflexivity. Qed.

(** ** C123: the older RawNode *)

(** The intended property: connections that arrive while the node serves are
    accepted. *)
Definition serves (py2 : bool) : Prop := forall arrivals, o_accepted (old_serve py2 arrivals old_init) = concat arrivals.
(** It accepts nobody, ever; with Python 3 it even stops serving at once and
    closes its socket. *)
Theorem C123_deaf_refuted : forall py2 arrivals, o_accepted (old_serve py2 arrivals old_init) = [].
Proof.
  intros py2 arrivals. assert (G : forall l, o_accepted (old_serve true l old_init) = []) by (induction l as [|w l IH]; [reflexivity|exact IH]).
  destruct py2; [apply G|]. destruct arrivals; reflexivity.
Qed.
Theorem C123_serves_refuted : forall py2, ~ serves py2.
Proof. intros py2 H. specialize (H [[nx_a]]). rewrite C123_deaf_refuted in H. discriminate. Qed.
Theorem C123_stops_refuted : forall w arrivals, o_listening (old_serve false (w :: arrivals) old_init) = false.
Proof. reflexivity. Qed.
Theorem C123_listens_partial : forall arrivals, o_listening (old_serve true arrivals old_init) = true.
Proof. intros l. induction l as [|w l IH]; [reflexivity|exact IH]. Qed.

(** ** Assumptions *)

Print Assumptions C119_entries.
Print Assumptions C119_peers.
Print Assumptions C124_truth_partial.
Print Assumptions C124_truth_refuted.
Print Assumptions C120_never_equal_refuted.
Print Assumptions C120_comparable_refuted.
Print Assumptions C120_in_partial.
Print Assumptions C120_remove_partial.
Print Assumptions C120_set_partial.
Print Assumptions C121_last_ban.
Print Assumptions C121_only_ips.
Print Assumptions C121_reason.
Print Assumptions C121_kept.
Print Assumptions C122_created.
Print Assumptions C122_in_use_partial.
Print Assumptions C122_in_use_refuted.
Print Assumptions C123_deaf_refuted.
Print Assumptions C123_serves_refuted.
Print Assumptions C123_stops_refuted.
Print Assumptions C123_listens_partial.
