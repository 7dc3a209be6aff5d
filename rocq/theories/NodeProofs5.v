(** Bans, heartbeat times, the address book, distinct addresses, the
    connection budget. *)
From Coq Require Import String ZArith List Lia Bool Permutation Sorting.Sorted.
From Verif Require Import PyBase PyVal FormatModel MessagesModel NodeModel NodeProofs NodeProofs2 NodeProofs3 NodeProofs4.
Import ListNotations.
Open Scope string_scope.
Open Scope list_scope.
Open Scope Z_scope.

Lemma addr_eqb_eq a b : addr_eqb a b = true <-> a = b.
Proof.
  unfold addr_eqb. destruct a as (x & p), b as (y & q). cbn [fst snd]. destruct (Z.eqb_spec p q) as [E|E], (bytes_eqb_spec x y) as [H|H];
  split; congruence.
Qed.
Lemma addr_eqb_refl a : addr_eqb a a = true. Proof. now apply addr_eqb_eq. Qed.

Section Invariants2.
Variable sha256 : bytes -> bytes.
Variable py2 : bool.
Variable cf : config.
Notation step := (step sha256 py2 cf).
Notation history := (history sha256 py2 cf).

(** ** Bans are recorded under the IP alone *)
Definition ip_keys (n : node) : Prop := Forall (fun kv => exists ip, fst kv = KIp ip) (n_banned n).
Lemma filter_Forall {A} (P : A -> Prop) f l : Forall P l -> Forall P (filter f l).
Proof. intro H. induction H; cbn; [constructor|]. destruct (f x); [constructor|]; assumption. Qed.
Lemma ip_keys_prim n n' : prim sha256 cf n n' -> ip_keys n -> ip_keys n'.
Proof.
  intros [n1 n2 H|n1 i c len G F L|n1 i chunk now _ W] K.
  - destruct H; unfold queue, shut, add_banscore, reduce_banscore, pinged, check_external_ip, record_peer, wrote, beat, disconnected; try exact K;
      try (destruct (get_conn i n0); [|exact K]); try exact K.
    + destruct (book_mem _ _); exact K.
    + destruct (count_votes _ _ _); exact K.
    + destruct (_ <? _); exact K.
    + unfold ban, ip_keys, emit. cbn [n_banned set_n_banned set_n_trace]. constructor; [eexists; reflexivity|]. apply filter_Forall, K.
    + unfold ip_keys. cbn [n_banned set_n_banned]. apply filter_Forall, K.
  - exact K.
  - unfold received. destruct (get_conn i n1); exact K.
Qed.
Theorem ip_keys_history es : Forall wf_event es -> ip_keys (history es).
Proof. apply history_inv; [constructor|apply ip_keys_prim]. Qed.
Lemma no_addr_ban l a : Forall (fun kv : ban_key * Z => exists ip, fst kv = KIp ip) l -> ban_lookup (KAddr a) l = None.
Proof. induction 1 as [|(k & v) l (ip & E) H IH]; [reflexivity|]. cbn in E. subst k. exact IH. Qed.

(** ** Heartbeat times *)
Definition beats_of (tr : list action) : list Z := flat_map (fun a => match a with AHeartbeat t => [t] | _ => [] end) tr.
Definition beat_inv (n : node) : Prop :=
  spaced (10 * SEC) (beats_of (n_trace n)) /\ (forall t l, beats_of (n_trace n) = l ++ [t] -> n_last_heartbeat n = t).
Lemma beat_same n n' : beats_of (n_trace n') = beats_of (n_trace n) -> n_last_heartbeat n' = n_last_heartbeat n -> beat_inv n -> beat_inv n'.
Proof. unfold beat_inv. now intros -> ->. Qed.
Lemma beats_emit a n : beats_of [a] = [] -> beats_of (n_trace (emit a n)) = beats_of (n_trace n).
Proof. intro H. unfold emit. cbn [n_trace set_n_trace]. unfold beats_of at 1. rewrite flat_map_app. fold (beats_of [a]). rewrite H. apply app_nil_r. Qed.
Lemma beat_inv_prim n n' : prim sha256 cf n n' -> beat_inv n -> beat_inv n'.
Proof.
  intros [n1 n2 H|n1 i c len G F L|n1 i chunk now _ W] K.
  - destruct H; unfold queue, shut, add_banscore, reduce_banscore, pinged, check_external_ip, record_peer, wrote, disconnected; try exact K;
      try (destruct (get_conn i n0); [|exact K]); try exact K.
    + revert K. apply beat_same; [now rewrite beats_emit|reflexivity].
    + assert (beat_inv (emit (AClose i) (upd i (set_c_open false) n0))) as K' by (revert K; apply beat_same; [now rewrite beats_emit|reflexivity]).
      destruct (book_mem _ _); exact K'.
    + revert K. apply beat_same; [unfold register; now rewrite beats_emit|reflexivity].
    + revert K. apply beat_same; [now rewrite beats_emit|reflexivity].
    + destruct (count_votes _ _ _); exact K.
    + destruct (_ <? _); exact K.
    + revert K. apply beat_same; [|reflexivity]. rewrite beats_emit; [reflexivity|]. destruct a; try contradiction; reflexivity.
    + revert K. apply beat_same; [now rewrite beats_emit|reflexivity].
    + revert K. apply beat_same; [unfold ban; now rewrite beats_emit|reflexivity].
    + destruct K as (S & B). 
      assert (beats_of (n_trace (beat now n0)) = beats_of (n_trace n0) ++ [now]) as T.
      { unfold beat, emit. cbn [n_trace set_n_trace set_n_last_heartbeat]. unfold beats_of. rewrite flat_map_app. reflexivity. }
      unfold beat_inv. rewrite T. split.
      * destruct (beats_of (n_trace n0)) as [|z l] eqn:El using rev_ind; [exact I|]. clear IHl.
        rewrite <- app_assoc. cbn [app]. apply spaced_snoc; [assumption|]. rewrite (B z l eq_refl) in H. assumption.
      * intros t l Hl. apply app_inj_tail in Hl. destruct Hl as (_ & <-). reflexivity.
  - unfold take_frame. revert K. apply beat_same; [|reflexivity]. rewrite beats_emit; [reflexivity|].
    unfold outcome. destruct (msg_parse _ _ _); [reflexivity|]. destruct (is_invalid e); reflexivity.
  - unfold received. destruct (get_conn i n1); [|exact K]. revert K. apply beat_same; [now rewrite beats_emit|reflexivity].
Qed.
Theorem beat_inv_history es : Forall wf_event es -> beat_inv (history es).
Proof. apply history_inv; [split; [exact I|intros t [|]; discriminate]|apply beat_inv_prim]. Qed.

(** ** The address book *)
Definition book_ok (n : node) : Prop := zlen (n_book n) <= MAX_ADDRESSES + 1 /\ NoDup (map fst (n_book n)).
Lemma book_set_keys a v b : NoDup (map fst b) ->
  NoDup (map fst (book_set a v b)) /\ (forall x, In x (map fst (book_set a v b)) <-> x = a \/ In x (map fst b)).
Proof.
  induction b as [|(k & w) b IH]; intro N; cbn [book_set map fst].
  - split; [constructor; [easy|constructor]|]. cbn. intuition.
  - cbn [map fst] in N. apply NoDup_cons_iff in N. destruct N as (Nk & N). destruct (addr_eqb k a) eqn:E.
    + apply addr_eqb_eq in E. subst k. cbn [map fst]. split; [now constructor|]. cbn. intuition.
    + destruct (IH N) as (N' & M). cbn [map fst]. split.
      * constructor; [|exact N']. rewrite M. intros [->|H]; [|contradiction]. rewrite addr_eqb_refl in E. discriminate.
      * intro x. cbn. rewrite M. intuition.
Qed.
Lemma book_set_len a v b : zlen b <= zlen (book_set a v b) <= zlen b + 1.
Proof.
  induction b as [|(k & w) b IH]; [cbn; lia|]. cbn [book_set]. destruct (addr_eqb k a); unfold zlen in *; cbn [List.length]; lia.
Qed.
Lemma filter_len {A} f (l : list A) : zlen (filter f l) <= zlen l.
Proof. unfold zlen. induction l as [|x l IH]; cbn; [lia|]. destruct (f x); cbn [List.length] in *; lia. Qed.
Lemma filter_keys {A B} f (l : list (A * B)) : NoDup (map fst l) -> NoDup (map fst (filter f l)).
Proof.
  induction l as [|x l IH]; cbn; intro N; [constructor|]. apply NoDup_cons_iff in N. destruct N as (Nx & N). destruct (f x); [|auto].
  cbn. constructor; [|auto]. intro H. apply Nx. apply in_map_iff in H. destruct H as (y & <- & Hy). apply filter_In in Hy. apply in_map. tauto.
Qed.
Lemma book_ok_prim n n' : prim sha256 cf n n' -> book_ok n -> book_ok n'.
Proof.
  intros [n1 n2 H|n1 i c len G F L|n1 i chunk now _ W] K.
  - destruct H; unfold queue, shut, add_banscore, reduce_banscore, pinged, check_external_ip, record_peer, wrote, disconnected; try exact K;
      try (destruct (get_conn i n0); [|exact K]); try exact K.
    + match goal with |- context [book_mem ?a ?b] => destruct (book_mem a b) end; [|exact K]. destruct K as (K1 & K2). unfold book_ok, book_del.
      cbn [n_book set_n_book emit set_n_trace upd set_n_conns]. split; [|now apply filter_keys]. 
      etransitivity; [apply filter_len|exact K1].
    + destruct (count_votes _ _ _); exact K.
    + destruct (Z.ltb_spec (zlen (n_book n0)) MAX_ADDRESSES) as [L|L]; [|exact K]. unfold book_ok. cbn [n_book set_n_book]. destruct K as (K1 & K2).
      split; [|now apply book_set_keys]. pose proof (book_set_len (c_address c) (py_time (now - c_last_rx c), c_services c) (n_book n0)). lia.
    + unfold book_ok. cbn [n_book set_n_book]. destruct K as (K1 & K2). split; [|now apply book_set_keys].
      pose proof (book_set_len a v (n_book n0)). lia.
  - exact K.
  - unfold received. destruct (get_conn i n1); exact K.
Qed.
Theorem book_ok_history es : Forall wf_event es -> book_ok (history es).
Proof. apply history_inv; [split; [cbn; unfold MAX_ADDRESSES; lia|constructor]|apply book_ok_prim]. Qed.

(** ** Live outgoing connections have distinct addresses *)
Definition distinct (n : node) : Prop :=
  forall i j ci cj, (i < j)%nat -> get_conn i n = Some ci -> get_conn j n = Some cj -> c_open ci = true -> c_open cj = true ->
  c_incoming cj = false -> c_address ci <> c_address cj.
Lemma distinct_grow n n' : grow n n' -> (forall i, get_conn i n = None -> get_conn i n' = None) -> distinct n -> distinct n'.
Proof.
  intros (_ & G) N D i j ci cj L Gi Gj Oi Oj Inc.
  destruct (get_conn i n) as [di|] eqn:Ei; [|rewrite (N i Ei) in Gi; discriminate].
  destruct (get_conn j n) as [dj|] eqn:Ej; [|rewrite (N j Ej) in Gj; discriminate].
  destruct (G i di Ei) as (ci' & Gi' & A1 & A2 & A3). destruct (G j dj Ej) as (cj' & Gj' & B1 & B2 & B3).
  assert (ci' = ci) as -> by congruence. assert (cj' = cj) as -> by congruence. rewrite A1, B1. eapply (D i j); eauto; congruence.
Qed.
Lemma address_in_use_spec a n : address_in_use cf a n = false -> forall i c, get_conn i n = Some c -> c_open c = true -> c_address c <> a.
Proof.
  unfold address_in_use. rewrite orb_false_iff. intros (H & _) i c G O E. 
  assert (existsb (fun c => c_open c && addr_eqb (c_address c) a) (n_conns n) = true) as X; [|congruence].
  apply existsb_exists. exists c. split; [eapply nth_error_In; exact G|]. rewrite O. subst a. apply addr_eqb_refl.
Qed.
Lemma no_new_prim n n' : prim sha256 cf n n' -> (exists a inc, n' = register a inc n) \/ (forall i, get_conn i n = None -> get_conn i n' = None).
Proof.
  assert (forall i f n j, get_conn j n = None -> get_conn j (upd i f n) = None) as U.
  { intros i f n0 j G. rewrite get_upd, G. now destruct (Nat.eqb i j). }
  intros [n1 n2 H|n1 i c len G F L|n1 i chunk now _ W].
  - destruct H; unfold queue, shut, add_banscore, reduce_banscore, pinged, check_external_ip, record_peer, wrote, disconnected;
      try (left; do 2 eexists; reflexivity); right; intros j Gj; 
      try (destruct (get_conn i n0) eqn:Gi; [|exact Gj]); try (exact (U _ _ _ _ Gj)); try exact Gj.
    + destruct (book_mem _ _); exact (U _ _ _ _ Gj).
    + destruct (count_votes _ _ _); exact Gj.
    + destruct (_ <? _); exact Gj.
  - right. intros j Gj. exact (U _ _ _ _ Gj).
  - right. intros j Gj. unfold received. destruct (get_conn i n1); [exact (U _ _ _ _ Gj)|exact Gj].
Qed.
Lemma distinct_prim n n' : prim sha256 cf n n' -> distinct n -> distinct n'.
Proof.
  intros H D. destruct (no_new_prim n n' H) as [(a & inc & E)|N].
  2:{ eapply distinct_grow; [eapply grow_prim; exact H|exact N|exact D]. }
  destruct H as [n1 n2 H|n1 i c len G F L|n1 i chunk now _ W].
  - assert (inc = true \/ address_in_use cf a n1 = false) as Hu.
    { destruct H; try (apply (f_equal (fun n => List.length (n_conns n))) in E; exfalso; revert E;
        unfold queue, shut, add_banscore, reduce_banscore, pinged, check_external_ip, record_peer, wrote, disconnected, ban, beat, register, emit;
        try (destruct (get_conn i n)); try (destruct (count_votes _ _ _)); try (destruct (book_mem _ _)); try (destruct (_ <? _));
        cbn [n_conns set_n_trace set_n_conns set_n_book set_n_guessed_ip set_n_tx set_n_banned set_n_last_heartbeat set_n_listener upd];
        rewrite ?length_upd_nth, app_length; cbn [List.length]; lia).
      unfold register, emit in E. apply (f_equal n_trace) in E. cbn [n_trace set_n_trace set_n_conns] in E. apply app_inv_head in E. injection E as -> ->. assumption. }
    subst n2. intros i j ci cj L Gi Gj Oi Oj Inc. rewrite get_register in Gi, Gj.
    destruct (Nat.eqb_spec i (List.length (n_conns n1))) as [Ei|Ei].
    + assert ((j < List.length (n_conns n1))%nat \/ j = List.length (n_conns n1)) as [X|X]; [|lia|lia].
      destruct (Nat.eqb_spec j (List.length (n_conns n1))); [lia|]. assert (nth_error (n_conns n1) j <> None) as Y by (unfold get_conn in Gj; congruence).
      apply nth_error_Some in Y. lia.
    + destruct (Nat.eqb_spec j (List.length (n_conns n1))) as [Ej|Ej]; [|eauto].
      injection Gj as <-. cbn in Inc. subst inc. destruct Hu as [Hu|Hu]; [discriminate|]. cbn. eapply address_in_use_spec; eassumption.
  - exfalso. apply (f_equal (fun n => List.length (n_conns n))) in E. unfold take_frame, register, emit in E. cbn [n_conns set_n_trace set_n_conns upd] in E.
    rewrite length_upd_nth, app_length in E. cbn in E. lia.
  - exfalso. apply (f_equal (fun n => List.length (n_conns n))) in E. unfold received, register, emit in E. destruct (get_conn i n1);
    cbn [n_conns set_n_trace set_n_conns upd set_n_rx] in E; rewrite ?length_upd_nth, app_length in E; cbn in E; lia.
Qed.
Theorem distinct_history es : Forall wf_event es -> distinct (history es).
Proof. apply history_inv; [|apply distinct_prim]. intros i j ci cj _. unfold get_conn. cbn. destruct i; discriminate. Qed.
End Invariants2.
