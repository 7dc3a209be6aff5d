(** C133: a node that lacks peers looks for more. *)
From Coq Require Import String ZArith List Lia Bool.
From Verif Require Import PyBase PyVal FormatModel MessagesModel NodeModel NodeProofs NodeProofs2 NodeProofs4 NodeProofs5 PropsNode.
Import ListNotations.
Open Scope string_scope.
Open Scope list_scope.
Open Scope Z_scope.

(** ** Specification *)
(** The addresses the node knows, those it has an open connection to, and those
    it knows but is not connected to, in the order of the book. *)
Definition known (n : node) : list addr := map fst (n_book n).
Definition linked (n : node) : list addr := map c_address (filter c_open (n_conns n)).
Definition missing (l : list addr) (a : addr) : bool := negb (existsb (fun b => addr_eqb b a) l).
Definition untried (n : node) : list addr := filter (missing (linked n)) (known n).
(** [tried oks l]: the addresses of [l] whose connection succeeds. *)
Fixpoint reached (oks : nat -> bool) (k : nat) (l : list addr) : list addr :=
  match l with [] => [] | a :: r => if oks k then a :: reached oks (S k) r else reached oks (S k) r end.
Fixpoint failed (oks : nat -> bool) (k : nat) (l : list addr) : list addr :=
  match l with [] => [] | a :: r => if oks k then failed oks (S k) r else a :: failed oks (S k) r end.

Lemma reached_all oks l : (forall j, oks j = true) -> forall k, reached oks k l = l.
Proof. intro H. induction l as [|a l IH]; intro k; [reflexivity|]. cbn [reached]. now rewrite H, IH. Qed.
Lemma missing_in l a : missing l a = true <-> ~ In a l.
Proof.
  unfold missing. rewrite negb_true_iff. split.
  - intros H I. apply not_true_iff_false in H. apply H. apply existsb_exists. exists a. split; [exact I|]. now apply addr_eqb_eq.
  - intro H. apply not_true_iff_false. intro E. apply existsb_exists in E. destruct E as (b & I & E). apply addr_eqb_eq in E. congruence.
Qed.
Lemma missing_app l m a : missing (l ++ m) a = missing l a && missing m a.
Proof. unfold missing. now rewrite existsb_app, negb_orb. Qed.
Lemma zlen_linked n : zlen (peers n) = zlen (linked n).
Proof.
  unfold peers, linked, zlen. rewrite map_length. f_equal. generalize 0%nat. induction (n_conns n) as [|c l IH]; intro k; [reflexivity|]. cbn [open_from filter].
  destruct (c_open c); cbn [List.length]; now rewrite IH.
Qed.
Lemma linked_active n a : existsb (fun c => c_open c && addr_eqb (c_address c) a) (n_conns n) = negb (missing (linked n) a).
Proof.
  unfold missing, linked. rewrite negb_involutive. induction (n_conns n) as [|c l IH]; [reflexivity|]. cbn [existsb filter]. rewrite IH. now destruct (c_open c).
Qed.

(** ** What changes neither *)
Definition alike (n n' : node) : Prop := known n' = known n /\ linked n' = linked n /\ n_listener n' = n_listener n.
Lemma alike_refl n : alike n n. Proof. repeat split. Qed.
Lemma alike_trans a b c : alike a b -> alike b c -> alike a c.
Proof. intros (A & B & C) (A' & B' & C'). repeat split; congruence. Qed.
Lemma linked_upd i f n : (forall c, c_open (f c) = c_open c /\ c_address (f c) = c_address c) -> linked (upd i f n) = linked n.
Proof.
  intro H. unfold linked, upd. cbn [n_conns set_n_conns]. revert i. induction (n_conns n) as [|c l IH]; intros [|i]; [reflexivity|reflexivity| |].
  - cbn [upd_nth filter]. destruct (H c) as (-> & Ea). destruct (c_open c); cbn [map]; now rewrite ?Ea.
  - cbn [upd_nth filter]. destruct (c_open c); cbn [map]; now rewrite IH.
Qed.
Lemma alike_queue i m b n : alike n (queue i m b n).
Proof. unfold queue. destruct (get_conn i n); [|apply alike_refl]. split; [reflexivity|]. split; [|reflexivity]. apply (linked_upd i); intro; split; reflexivity. Qed.
Lemma alike_reduce i n : alike n (reduce_banscore i n).
Proof. unfold reduce_banscore. destruct (get_conn i n); [|apply alike_refl]. split; [reflexivity|]. split; [|reflexivity]. apply (linked_upd i); intro; split; reflexivity. Qed.
Lemma alike_reduces l : forall n, alike n (fst (for_each l (fun i => modM (reduce_banscore i)) n)).
Proof.
  induction l as [|k l IH]; intro n; [apply alike_refl|].
  change (for_each (k :: l) (fun i => modM (reduce_banscore i)) n) with (for_each l (fun i => modM (reduce_banscore i)) (reduce_banscore k n)).
  exact (alike_trans _ _ _ (alike_reduce k n) (IH _)).
Qed.

Lemma filter_keys a (b : list (addr * (pyval * option pyval))) : filter (fun k => negb (addr_eqb k a)) (map fst b) = map fst (filter (fun kv => negb (addr_eqb (fst kv) a)) b).
Proof. induction b as [|(k & v) b IH]; [reflexivity|]. cbn [map filter fst]. destruct (addr_eqb k a); cbn [negb map fst]; now rewrite IH. Qed.
Lemma book_mem_absent a (b : list (addr * (pyval * option pyval))) : book_mem a b = false -> map fst b = filter (fun k => negb (addr_eqb k a)) (map fst b).
Proof. induction b as [|(k & v) b IH]; [reflexivity|]. cbn [book_mem map filter fst]. destruct (addr_eqb k a); [discriminate|]. cbn [orb negb]. intro H. now rewrite <- IH. Qed.

Section Seek.
Variable sha256 : bytes -> bytes.
Variable py2 : bool.
Variable cf : config.
Notation step := (step sha256 py2 cf).

(** ** Dialling one address *)
Lemma linked_register a n : linked (register a false n) = linked n ++ [a].
Proof. unfold linked, register. cbn [n_conns emit set_n_trace set_n_conns]. now rewrite filter_app, map_app. Qed.
Lemma shut_new a n : let n' := shut (List.length (n_conns n)) (register a false n) in
  known n' = filter (fun b => negb (addr_eqb b a)) (known n) /\ linked n' = linked n /\ n_listener n' = n_listener n.
Proof.
  cbv zeta. unfold shut. rewrite get_register, Nat.eqb_refl. cbn [fresh_conn c_address]. set (n1 := emit _ (upd _ _ _)).
  assert (linked n1 = linked n) as L.
  { unfold n1, linked, upd, register. cbn [n_conns emit set_n_trace set_n_conns]. induction (n_conns n) as [|c l IH]; [reflexivity|]. cbn [List.length app upd_nth filter]. destruct (c_open c); cbn [map]; now rewrite IH. }
  assert (known n1 = known n) as K by reflexivity. assert (n_listener n1 = n_listener n) as B by reflexivity. clearbody n1. unfold disconnected. destruct (book_mem a (n_book n1)) eqn:M.
  - split; [|split; [exact L|exact B]]. unfold known in *. cbn [n_book set_n_book]. rewrite <- K. unfold book_del. symmetry. apply filter_keys.
  - split; [|split; [exact L|exact B]]. rewrite K. unfold known in *. rewrite <- K. apply book_mem_absent. exact M.
Qed.
(** What dialling gives: the address is connected, or it is dropped. *)
Definition dialled (a : addr) (ok : bool) (n n' : node) : Prop := n_listener n' = n_listener n /\
  if ok then known n' = known n /\ linked n' = linked n ++ [a] else known n' = filter (fun b => negb (addr_eqb b a)) (known n) /\ linked n' = linked n.
Lemma dial a e n : dialled a (ce_ok e) n (fst (new_connection sha256 cf a false e n)).
Proof.
  unfold new_connection. unfold bindM at 1, getM at 1. cbv beta iota zeta. unfold bindM at 1, modM at 1. cbv beta iota. cbn [negb andb]. destruct (ce_ok e) eqn:Ok; cbn [negb].
  - assert (dialled a true n (register a false n)) as D by (split; [reflexivity|split; [reflexivity|apply linked_register]]).
    unfold bindM at 1, getM at 1. cbv beta iota. unfold bindM, liftM. destruct (version_message _ _ _ _ _) as [m|]; [|exact D]. unfold send_message, bindM, liftM. destruct (msg_binary _ _ _) as [b|]; [|exact D].
    unfold modM. cbn [fst]. destruct (alike_queue (List.length (n_conns n)) m b (register a false n)) as (K & L & B). destruct D as (D1 & D2 & D3). split; [congruence|]. split; congruence.
  - unfold handle_close, bindM, modM, raiseM. cbn [fst]. destruct (shut_new a n) as (K & L & B). split; [exact B|]. now split.
Qed.
Lemma add_peer_run a force e n : fst (add_peer sha256 cf a force e n) =
  if negb force && (map_len n >=? cf_max_peers cf) then n else if address_in_use cf a n then n else fst (new_connection sha256 cf a false e n).
Proof.
  unfold add_peer. unfold bindM at 1, getM at 1. cbv beta iota. destruct (_ && _); [reflexivity|]. destruct (address_in_use cf a n); [reflexivity|].
  unfold tryM, bindM. destruct (new_connection sha256 cf a false e n) as (n' & [[]|er]); reflexivity.
Qed.
Lemma in_use a n : address_in_use cf a n = negb (missing (linked n) a) || (n_listener n && addr_eqb (cf_address cf) a).
Proof. unfold address_in_use. now rewrite linked_active. Qed.
Lemma find_untried (b : list (addr * (pyval * option pyval))) f : match find (fun kv => f (fst kv)) b with Some (a, _) => exists us, filter f (map fst b) = a :: us | None => filter f (map fst b) = [] end.
Proof. induction b as [|(k & v) b IH]; [reflexivity|]. cbn [find map filter fst]. destruct (f k); [now eexists|exact IH]. Qed.
(** One attempt. *)
Definition reserved (n : node) (a : addr) : Prop := n_listener n = true /\ a = cf_address cf.
Lemma attempt_next e n a us : untried n = a :: us -> ae_dice e <> 1 -> ~ reserved n a -> dialled a (ce_ok (ae_conn e)) n (fst (add_any_peer sha256 cf e n)).
Proof.
  intros U D O. unfold add_any_peer. unfold bindM at 1, getM at 1. cbv beta iota.
  assert ((match n_book n with [] => true | _ => false end) || (ae_dice e =? 1) = false) as ->.
  { apply orb_false_iff. split; [|lia]. unfold untried, known in U. destruct (n_book n); [discriminate U|reflexivity]. }
  cbv zeta. pose proof (find_untried (n_book n) (missing (linked n))) as F.
  assert (find (fun kv => negb (existsb (fun c => c_open c && addr_eqb (c_address c) (fst kv)) (n_conns n))) (n_book n) = find (fun kv => missing (linked n) (fst kv)) (n_book n)) as ->.
  { clear. induction (n_book n) as [|(k & v) l IH]; [reflexivity|]. cbn [find fst]. rewrite linked_active, negb_involutive. now rewrite IH. }
  unfold untried in U. destruct (find _ _) as [(a' & v)|]; [|unfold known in U; congruence]. destruct F as (us' & F). unfold known in U. assert (a' = a) as -> by congruence. clear F.
  assert (missing (linked n) a = true) as Ma. { assert (In a (a :: us)) as I by now left. rewrite <- U in I. apply filter_In in I. apply I. }
  unfold bindM. pose proof (add_peer_run a true (ae_conn e) n) as R. cbn [negb andb] in R.
  assert (address_in_use cf a n = false) as Hu. { rewrite in_use, Ma. cbn [negb orb]. apply not_true_iff_false. intro E. apply andb_true_iff in E. destruct E as (E1 & E2). apply addr_eqb_eq in E2. now apply O. }
  rewrite Hu in R. pose proof (dial a (ae_conn e) n) as Dl. rewrite <- R in Dl. destruct (add_peer sha256 cf a true (ae_conn e) n) as (n' & [x|x]); exact Dl.
Qed.
Lemma attempt_own e n us : untried n = cf_address cf :: us -> ae_dice e <> 1 -> n_listener n = true -> fst (add_any_peer sha256 cf e n) = n.
Proof.
  intros U D O. unfold add_any_peer. unfold bindM at 1, getM at 1. cbv beta iota.
  assert ((match n_book n with [] => true | _ => false end) || (ae_dice e =? 1) = false) as ->.
  { apply orb_false_iff. split; [|lia]. unfold untried, known in U. destruct (n_book n); [discriminate U|reflexivity]. }
  cbv zeta. pose proof (find_untried (n_book n) (missing (linked n))) as F.
  assert (find (fun kv => negb (existsb (fun c => c_open c && addr_eqb (c_address c) (fst kv)) (n_conns n))) (n_book n) = find (fun kv => missing (linked n) (fst kv)) (n_book n)) as ->.
  { clear. induction (n_book n) as [|(k & v) l IH]; [reflexivity|]. cbn [find fst]. rewrite linked_active, negb_involutive. now rewrite IH. }
  unfold untried in U. destruct (find _ _) as [(a' & v)|]; [|unfold known in U; congruence]. destruct F as (us' & F). unfold known in U. assert (a' = cf_address cf) as -> by congruence. clear F.
  unfold bindM. pose proof (add_peer_run (cf_address cf) true (ae_conn e) n) as R. cbn [negb andb] in R.
  rewrite in_use, O, addr_eqb_refl, orb_true_r in R. destruct (add_peer sha256 cf (cf_address cf) true (ae_conn e) n) as (n' & [x|x]); exact R.
Qed.
(** With nothing left to try nothing happens, or a seed is dialled if nothing is
    known at all. *)
Lemma attempt_none e n : untried n = [] -> ae_dice e <> 1 -> exists extra, known (fst (add_any_peer sha256 cf e n)) = known n /\ linked (fst (add_any_peer sha256 cf e n)) = linked n ++ extra /\
  n_listener (fst (add_any_peer sha256 cf e n)) = n_listener n /\ incl extra (cf_bootstrap cf) /\ (extra <> [] -> known n = []).
Proof.
  intros U D. unfold add_any_peer. unfold bindM at 1 4 7, getM at 1 2 3. cbv beta iota.
  assert (exists extra : list addr, known n = known n /\ linked n = linked n ++ extra /\ n_listener n = n_listener n /\ incl extra (cf_bootstrap cf) /\ (extra <> [] -> known n = [])) as Z.
  { exists []. rewrite app_nil_r. repeat split; try congruence. intros x []. }
  destruct (n_book n) as [|kv b] eqn:Eb.
  - cbn [orb]. destruct (cf_bootstrap cf) as [|s l] eqn:Es; [exact Z|]. rewrite <- Es in *. cbv zeta. set (a := nth _ (cf_bootstrap cf) s). assert (In a (cf_bootstrap cf)) as Ia.
    { unfold a. apply nth_In. apply Nat.mod_upper_bound. rewrite Es. discriminate. }
    clearbody a. unfold bindM. pose proof (add_peer_run a false (ae_conn e) n) as R. 
    assert (known n = []) as K by (unfold known; now rewrite Eb).
    assert (forall x : node * res bool, fst (let (n', y) := x in match y with Ok _ => retM tt n' | Raise ex => (n', Raise ex) end) = fst x) as Fx by (intros (n' & [x|x]); reflexivity). rewrite Fx, R.
    destruct (_ && _); [exact Z|]. destruct (address_in_use cf a n); [exact Z|]. pose proof (dial a (ae_conn e) n) as (B & Dl). destruct (ce_ok (ae_conn e)); destruct Dl as (D1 & D2).
    + exists [a]. split; [exact D1|]. split; [exact D2|]. split; [exact B|]. split; [intros x [<-|[]]; exact Ia|auto].
    + exists []. rewrite app_nil_r. split; [rewrite D1, K; reflexivity|]. split; [exact D2|]. split; [exact B|]. split; [intros x []|congruence].
  - rewrite <- Eb. assert (false || (ae_dice e =? 1) = false) as -> by (cbn [orb]; lia). cbv zeta. pose proof (find_untried (n_book n) (missing (linked n))) as F.
    assert (find (fun kv => negb (existsb (fun c => c_open c && addr_eqb (c_address c) (fst kv)) (n_conns n))) (n_book n) = find (fun kv => missing (linked n) (fst kv)) (n_book n)) as ->.
    { clear. induction (n_book n) as [|(k & v) l IH]; [reflexivity|]. cbn [find fst]. rewrite linked_active, negb_involutive. now rewrite IH. }
    unfold untried in U. destruct (find _ _) as [(a' & v)|]; [destruct F as (us' & F); unfold known in U; congruence|]. exact Z.
Qed.

(** ** Several attempts *)
(** After [m] attempts the first [m] of the addresses to be tried have been
    tried: those that answered are connected, the others are forgotten.  Seeds
    are dialled only when no address is left. *)
Definition sought (oks : nat -> bool) (k m : nat) (n n' : node) : Prop :=
  n_listener n' = n_listener n /\ untried n' = skipn m (untried n) /\ known n' = filter (missing (failed oks k (firstn m (untried n)))) (known n) /\
  exists extra, linked n' = linked n ++ reached oks k (firstn m (untried n)) ++ extra /\ incl extra (cf_bootstrap cf) /\ (extra <> [] -> known n' = []).
Lemma filter_filter {A} (f g : A -> bool) l : filter f (filter g l) = filter (fun x => g x && f x) l.
Proof. induction l as [|x l IH]; [reflexivity|]. cbn [filter]. destruct (g x); cbn [filter andb]; [destruct (f x)|]; now rewrite IH. Qed.
Lemma filter_true {A} (f : A -> bool) l : (forall x, In x l -> f x = true) -> filter f l = l.
Proof. induction l as [|x l IH]; intro H; [reflexivity|]. cbn [filter]. rewrite (H x (or_introl eq_refl)), IH; [reflexivity|]. intros y I. apply H. now right. Qed.
Lemma drop_first a us : NoDup (a :: us) -> filter (fun b => negb (addr_eqb b a)) (a :: us) = us.
Proof.
  intro N. inversion N as [|? ? Na _]; subst. cbn [filter]. rewrite addr_eqb_refl. cbn [negb]. apply filter_true. intros x I. destruct (addr_eqb x a) eqn:E; [|reflexivity]. apply addr_eqb_eq in E. congruence.
Qed.
Lemma dialled_untried a us ok n n' : NoDup (known n) -> untried n = a :: us -> dialled a ok n n' -> untried n' = us.
Proof.
  intros N U (_ & D). assert (NoDup (a :: us)) as Nu. { rewrite <- U. unfold untried. now apply NoDup_filter. }
  rewrite <- (drop_first a us Nu), <- U. unfold untried. rewrite filter_filter. destruct ok; destruct D as (-> & ->).
  - apply filter_ext. intro b. rewrite missing_app. f_equal. unfold missing. cbn [existsb]. rewrite orb_false_r. f_equal. destruct (addr_eqb a b) eqn:E; symmetry; [apply addr_eqb_eq in E; subst; apply addr_eqb_refl|].
    destruct (addr_eqb b a) eqn:E'; [|reflexivity]. apply addr_eqb_eq in E'. subst. now rewrite addr_eqb_refl in E.
  - rewrite filter_filter. apply filter_ext. intro b. apply andb_comm.
Qed.
Lemma attempts envs : (forall k, ae_dice (envs k) <> 1) -> forall m k n, NoDup (known n) -> (forall a, In a (untried n) -> ~ reserved n a) ->
  sought (fun j => ce_ok (ae_conn (envs j))) k m n (fst (for_each (seq k m) (fun j => add_any_peer sha256 cf (envs j)) n)).
Proof.
  intros D. set (oks := fun j => ce_ok (ae_conn (envs j))). induction m as [|m IH]; intros k n N O.
  - cbn [seq for_each]. unfold retM. cbn [fst]. split; [reflexivity|]. cbn [skipn firstn failed reached]. split; [reflexivity|]. split; [symmetry; apply filter_true; reflexivity|].
    exists []. rewrite !app_nil_r. split; [reflexivity|]. split; [intros x []|congruence].
  - cbn [seq for_each]. unfold bindM. pose proof (add_any_ok sha256 cf (envs k) n) as Ok1. remember (add_any_peer sha256 cf (envs k) n) as r eqn:Er. destruct r as (n1 & r). cbn [snd] in Ok1. subst r. assert (n1 = fst (add_any_peer sha256 cf (envs k) n)) as E1 by now rewrite <- Er. clear Er.
    destruct (untried n) as [|a us] eqn:U.
    + destruct (attempt_none (envs k) n U (D k)) as (extra & K1 & L1 & B1 & I1 & X1). rewrite <- E1 in *. assert (untried n1 = []) as U1.
      { unfold untried. rewrite K1, L1. destruct extra as [|x extra]; [rewrite app_nil_r; exact U|]. now rewrite (X1 ltac:(discriminate)). }
      destruct (IH (S k) n1) as (B & U2 & K2 & extra2 & L2 & I2 & X2); [now rewrite K1|intros a I; rewrite U1 in I; destruct I|]. rewrite U1 in U2, K2, L2. rewrite skipn_nil in U2. rewrite firstn_nil in K2, L2.
      split; [congruence|]. rewrite U. rewrite skipn_nil, firstn_nil. split; [exact U2|]. cbn [failed reached] in *. split; [rewrite K2, K1; reflexivity|].
      exists (extra ++ extra2). cbn [app]. cbn [app] in L2. split; [rewrite L2, L1; now rewrite <- app_assoc|]. split; [now apply incl_app|].
      intro Hx. destruct extra as [|x extra]; [apply X2; exact Hx|]. rewrite K2, K1, (X1 ltac:(discriminate)). reflexivity.
    + pose proof (attempt_next (envs k) n a us U (D k) (O a (or_introl eq_refl))) as Dl. rewrite <- E1 in Dl. pose proof (dialled_untried a us _ n n1 N U Dl) as U1. destruct Dl as (B1 & Dl). change (ce_ok (ae_conn (envs k))) with (oks k) in Dl.
      assert (NoDup (known n1)) as N1. { destruct (oks k); destruct Dl as (-> & _); [exact N|now apply NoDup_filter]. }
      destruct (IH (S k) n1 N1) as (B & U2 & K2 & extra2 & L2 & I2 & X2). { intros x I. rewrite U1 in I. intros (Y & Z). apply (O x); [now right|]. split; [congruence|exact Z]. }
      rewrite U1 in U2, K2, L2. unfold sought. rewrite U. cbn [skipn firstn failed reached]. split; [congruence|]. split; [exact U2|]. destruct (oks k); destruct Dl as (K1 & L1).
      * split; [rewrite K2, K1; reflexivity|]. exists extra2. split; [rewrite L2, L1, <- app_assoc; reflexivity|]. now split.
      * split. { rewrite K2, K1, filter_filter. apply filter_ext. intro b. unfold missing. cbn [existsb]. rewrite negb_orb. f_equal. f_equal. destruct (addr_eqb b a) eqn:E; symmetry; [apply addr_eqb_eq in E; subst; apply addr_eqb_refl|].
          destruct (addr_eqb a b) eqn:E'; [|reflexivity]. apply addr_eqb_eq in E'. subst. now rewrite addr_eqb_refl in E. }
        exists extra2. split; [rewrite L2, L1; reflexivity|]. now split.
Qed.
(** ** The heartbeat *)
Lemma heartbeat_rest envs pick n : alike (fst (for_each (seq 0 (Z.to_nat (Z.min (cf_seek_peers cf - zlen (peers n)) 5))) (fun k => add_any_peer sha256 cf (envs k)) n)) (fst (heartbeat sha256 cf envs pick n)).
Proof.
  unfold heartbeat. unfold bindM at 1, getM at 1. cbv beta iota zeta.
  set (att := for_each _ (fun k => add_any_peer sha256 cf (envs k))).
  assert (snd (att n) = Ok tt) as Ea. { apply for_each_ok. intros. apply add_any_ok. }
  unfold bindM at 1. destruct (att n) as (n1 & r). cbn [fst snd] in *. subst r. unfold bindM at 1, getM at 1. cbv beta iota. unfold bindM at 1.
  destruct (peers n) as [|p ps] eqn:Ep; [apply alike_reduces|].
  destruct (zlen (n_book n1) <? 50); [|apply alike_reduces].
  destruct (getaddr_sends sha256 cf (nth (Nat.modulo pick (List.length (p :: ps))) (p :: ps) p) n1) as (m & b & Em & Es).
  unfold bindM, liftM. rewrite Em. rewrite Es. exact (alike_trans _ _ _ (alike_queue _ _ _ _) (alike_reduces _ _)).
Qed.
Lemma alike_untried n n' : alike n n' -> untried n' = untried n.
Proof. intros (K & L & _). unfold untried. now rewrite K, L. Qed.
(** How many addresses a heartbeat tries. *)
Definition tries (n : node) : nat := Z.to_nat (Z.min (cf_seek_peers cf - zlen (linked n)) 5).
Lemma beat_sought n now envs pick : now - n_last_heartbeat n > 10 * SEC -> (forall k, ae_dice (envs k) <> 1) -> NoDup (known n) -> (forall a, In a (untried n) -> ~ reserved n a) ->
  sought (fun j => ce_ok (ae_conn (envs j))) 0 (tries n) n (step n (EvLoop now envs pick)) .
Proof.
  intros T D N O. rewrite items_step. assert (now - n_last_heartbeat n >? 10 * SEC = true) as -> by lia.
  assert (alike n (beat now n)) as A by (repeat split). assert (untried (beat now n) = untried n) as U by reflexivity. pose proof (heartbeat_rest envs pick (beat now n)) as H. rewrite zlen_linked in H. change (linked (beat now n)) with (linked n) in H. fold (tries n) in H.
  destruct (attempts envs D (tries n) 0 (beat now n) N O) as (B2 & U2 & K2 & extra & L2 & I2 & X2). pose proof (alike_untried _ _ H) as U3. destruct H as (K3 & L3 & B3).
  split; [rewrite B3; exact B2|]. split; [rewrite U3; exact U2|]. split; [rewrite K3; exact K2|]. exists extra. split; [rewrite L3; exact L2|]. split; [exact I2|]. intro X. rewrite K3. exact (X2 X).
Qed.
Lemma own_stays n now envs pick us : (forall k, ae_dice (envs k) <> 1) -> n_listener n = true -> untried n = cf_address cf :: us -> alike n (step n (EvLoop now envs pick)).
Proof.
  intros D B U. rewrite items_step. destruct (_ >? _); [|apply alike_refl]. apply (alike_trans _ (beat now n)); [repeat split|]. refine (alike_trans _ _ _ _ (heartbeat_rest envs pick (beat now n))).
  generalize (seq 0 (Z.to_nat (Z.min (cf_seek_peers cf - zlen (peers (beat now n))) 5))). change (untried (beat now n) = cf_address cf :: us) in U. change (n_listener (beat now n) = true) in B. generalize dependent (beat now n). clear n.
  intros n B U l. induction l as [|k l IH]; [apply alike_refl|]. cbn [for_each]. unfold bindM. pose proof (add_any_ok sha256 cf (envs k) n) as Ok1. pose proof (attempt_own (envs k) n us U (D k) B) as E. destruct (add_any_peer sha256 cf (envs k) n) as (n1 & r). cbn [fst snd] in *. subst r n1. exact IH.
Qed.
Lemma beat_time n now envs pick : now - n_last_heartbeat n > 10 * SEC -> n_last_heartbeat (step n (EvLoop now envs pick)) = now.
Proof.
  intro T. rewrite items_step. assert (now - n_last_heartbeat n >? 10 * SEC = true) as -> by lia.
  change now with (n_last_heartbeat (beat now n)) at 2. apply (presR_heartbeat sha256 cf (fun a b => n_last_heartbeat b = n_last_heartbeat a)); try congruence; try reflexivity.
  - intros a i m b _. unfold queue. now destruct (get_conn i a).
  - intros a i. unfold shut. destruct (get_conn i a); [|reflexivity]. unfold disconnected. now destruct (book_mem _ _).
  - intros a i. unfold reduce_banscore. now destruct (get_conn i a).
Qed.

(** ** C133 *)
(** The heartbeats of a node left to itself: each with the time, the draws and
    the outcomes of its attempts, the choice of the peer that is asked.  No draw
    selects a seed (1 in 200 does). *)
Definition pulse : Type := (Z * (nat -> attempt_env) * nat)%type.
Definition loop (b : pulse) : event := EvLoop (fst (fst b)) (snd (fst b)) (snd b).
Definition pulse_ok (b : pulse) (j : nat) : bool := ce_ok (ae_conn (snd (fst b) j)).
Fixpoint due (last : Z) (l : list pulse) : Prop :=
  match l with [] => True | b :: r => fst (fst b) - last > 10 * SEC /\ (forall k, ae_dice (snd (fst b) k) <> 1) /\ due (fst (fst b)) r end.
Definition after (n : node) (l : list pulse) : node := fold_left step (map loop l) n.

(** One heartbeat: [tries n] is the number of missing peers, at most 5.  The
    first so many of the addresses that are known and not connected are dialled,
    in order; those that answer are connected, the others forgotten. *)
Theorem C133_heartbeat_partial es b : Forall wf_event es -> let n := history sha256 py2 cf es in due (n_last_heartbeat n) [b] -> (forall a, In a (untried n) -> ~ reserved n a) ->
  sought (pulse_ok b) 0 (tries n) n (after n [b]).
Proof.
  intros W n (T & D & _) O. destruct b as ((now & envs) & pick). exact (beat_sought n now envs pick T D (proj2 (C21_book_bound_partial sha256 py2 cf es W)) O).
Qed.
Lemma after_inv l : forall n, due (n_last_heartbeat n) l -> NoDup (known n) -> (forall a, In a (untried n) -> ~ reserved n a) ->
  (zlen (linked n) <= zlen (linked (after n l))) /\
  (cf_seek_peers cf <= zlen (linked (after n l)) \/ zlen (untried (after n l)) <= Z.max 0 (zlen (untried n) - zlen l)) /\
  ((forall b j, In b l -> pulse_ok b j = true) -> Z.min (cf_seek_peers cf) (zlen (linked n) + Z.min (5 * zlen l) (zlen (untried n))) <= zlen (linked (after n l))).
Proof.
  induction l as [|b l IH]; intros n T N O.
  - cbn [after map fold_left]. change (zlen (@nil pulse)) with 0. pose proof (zlen_nonneg (untried n)). repeat split; try lia. 
  - destruct T as (T & D & T'). change (after n (b :: l)) with (after (step n (loop b)) l). unfold loop.
    pose proof (beat_time n (fst (fst b)) (snd (fst b)) (snd b) T) as L. destruct (beat_sought n (fst (fst b)) (snd (fst b)) (snd b) T D N O) as (B & U & K & extra & Lk & _). set (n1 := step n (EvLoop (fst (fst b)) (snd (fst b)) (snd b))) in *. clearbody n1.
    destruct (IH n1) as (A1 & A2 & A3).
    + now rewrite L.
    + rewrite K. now apply NoDup_filter.
    + intros a I (Y & Z). rewrite U in I. apply (O a). { rewrite <- (firstn_skipn (tries n) (untried n)). apply in_or_app. now right. } split; [congruence|exact Z].
    + assert (zlen (linked n) <= zlen (linked n1)) as M. { rewrite Lk, zlen_app. pose proof (zlen_nonneg (reached (fun j => ce_ok (ae_conn (snd (fst b) j))) 0 (firstn (tries n) (untried n)) ++ extra)). lia. }
      assert (zlen (untried n1) = Z.max 0 (zlen (untried n) - Z.of_nat (tries n))) as Un. { rewrite U. unfold zlen. rewrite skipn_length. lia. }
      assert (zlen (b :: l) = 1 + zlen l) as Zl by (unfold zlen; cbn [List.length]; lia). rewrite Zl. pose proof (zlen_nonneg l). pose proof (zlen_nonneg (untried n)).
      split; [lia|]. split.
      * destruct (Z.le_gt_cases (cf_seek_peers cf) (zlen (linked n))) as [S|S]; [left; lia|]. destruct A2 as [A2|A2]; [now left|]. right. unfold tries in Un. lia.
      * intro Hok. assert (zlen (linked n) + Z.min (Z.of_nat (tries n)) (zlen (untried n)) <= zlen (linked n1)) as G.
        { rewrite Lk, !zlen_app. assert (reached (fun j => ce_ok (ae_conn (snd (fst b) j))) 0 (firstn (tries n) (untried n)) = firstn (tries n) (untried n)) as ->.
          { apply reached_all. intro j. exact (Hok b j (or_introl eq_refl)). }
          pose proof (zlen_nonneg extra). assert (zlen (firstn (tries n) (untried n)) = Z.min (Z.of_nat (tries n)) (zlen (untried n))) as -> by (unfold zlen; rewrite firstn_length; lia). lia. }
        assert (forall b j, In b l -> pulse_ok b j = true) as Hok' by (intros b' j I; apply Hok; now right). specialize (A3 Hok'). unfold tries in *. lia.
Qed.
(** Connections are kept, and when everybody answers the number of peers grows
    by five in each heartbeat until the number sought is reached or every known
    address is connected. *)
Theorem C133_reaches_partial es l : Forall wf_event es -> let n := history sha256 py2 cf es in due (n_last_heartbeat n) l -> (forall a, In a (untried n) -> ~ reserved n a) ->
  (forall b j, In b l -> pulse_ok b j = true) -> Z.min (cf_seek_peers cf) (zlen (peers n) + Z.min (5 * zlen l) (zlen (untried n))) <= zlen (peers (after n l)).
Proof.
  intros W n T O A. rewrite !zlen_linked. exact (proj2 (proj2 (after_inv l n T (proj2 (C21_book_bound_partial sha256 py2 cf es W)) O)) A).
Qed.
(** Whoever answers: after as many heartbeats as there are addresses to try, the
    number sought is reached or all have been tried. *)
Theorem C133_exhausts_partial es l : Forall wf_event es -> let n := history sha256 py2 cf es in due (n_last_heartbeat n) l -> (forall a, In a (untried n) -> ~ reserved n a) ->
  zlen (untried n) <= zlen l -> zlen (peers n) <= zlen (peers (after n l)) /\ (cf_seek_peers cf <= zlen (peers (after n l)) \/ untried (after n l) = []).
Proof.
  intros W n T O A. rewrite !zlen_linked. destruct (after_inv l n T (proj2 (C21_book_bound_partial sha256 py2 cf es W)) O) as (A1 & A2 & _). split; [exact A1|]. destruct A2 as [A2|A2]; [now left|]. right.
  assert (zlen (untried (after n l)) <= 0) as Z by lia. destruct (untried (after n l)); [reflexivity|]. unfold zlen in Z. cbn [List.length] in Z. lia.
Qed.
(** If the next address to be tried is the node's own, nothing is ever tried. *)
Theorem C133_own_address l : forall n us, (forall b k, In b l -> ae_dice (snd (fst b) k) <> 1) -> n_listener n = true -> untried n = cf_address cf :: us -> known (after n l) = known n /\ linked (after n l) = linked n.
Proof.
  assert (forall n us, (forall b k, In b l -> ae_dice (snd (fst b) k) <> 1) -> n_listener n = true -> untried n = cf_address cf :: us -> alike n (after n l)) as H.
  { induction l as [|((now & envs) & pick) r IH]; intros n us D B U; [apply alike_refl|]. change (after n ((now, envs, pick) :: r)) with (after (step n (EvLoop now envs pick)) r).
    pose proof (own_stays n now envs pick us (fun k => D (now, envs, pick) k (or_introl eq_refl)) B U) as A. apply (alike_trans _ _ _ A). apply (IH _ us).
    - intros b k I. apply D. now right.
    - destruct A as (_ & _ & ->). exact B.
    - now rewrite (alike_untried _ _ A). }
  intros n us D B U. destruct (H n us D B U) as (K & L & _). now split.
Qed.
End Seek.

(** ** Cases *)
(** One peer; it announces one address, or first the node's own. *)
Definition sk_entry (ip : string) (port : Z) : pyval :=
  match construct "NetworkAddress" NetworkAddress_props [VInt 5; VInt 1; VStr (bs ip); VInt port] [] with Ok v => v | Raise _ => VNone end.
Definition sk_addr (l : list pyval) : bytes := nx_frame "Address" [VList l].
Definition sk_free : list event := [EvAccept nx_a (1000 * SEC) nx_env; EvRead 0 (RData (sk_addr [sk_entry "10.0.0.3" 4000; sk_entry "10.0.0.4" 4000])) 0 nx_clock].
Definition sk_own : list event := [EvAccept nx_a (1000 * SEC) nx_env; EvRead 0 (RData (sk_addr [sk_entry "127.0.0.1" 8333; sk_entry "10.0.0.4" 4000])) 0 nx_clock].
Definition sk_pulse : pulse := (5000 * SEC, fun k => mk_attempt 0 k nx_env, 0%nat).
Example C133_applies : Forall wf_event sk_free /\ let n := nx_hist sk_free in due (n_last_heartbeat n) [sk_pulse] /\ untried n = [(bs "10.0.0.3", 4000); (bs "10.0.0.4", 4000)] /\ (forall a, In a (untried n) -> ~ reserved nx_cf n a) /\
  zlen (peers n) = 1 /\ zlen (peers (after nx_sha false nx_cf n [sk_pulse])) = 3.
Proof.
  assert (untried (nx_hist sk_free) = [(bs "10.0.0.3", 4000); (bs "10.0.0.4", 4000)]) as U by (vm_compute; reflexivity).
  split. { constructor; [exact I|]. constructor; [|constructor]. apply all_bytes_wf. vm_compute. reflexivity. }
  cbv zeta. split. { assert (n_last_heartbeat (nx_hist sk_free) = 0) as -> by (vm_compute; reflexivity). split; [reflexivity|]. split; [discriminate|exact I]. }
  split; [exact U|]. split. { rewrite U. intros a [<-|[<-|[]]] (_ & E); discriminate E. }
  split; vm_compute; reflexivity.
Qed.
(** A node that lacks peers and knows a reachable address, and never dials it. *)
Theorem C133_refuted : Forall wf_event sk_own /\ let n := nx_hist sk_own in zlen (peers n) < cf_seek_peers nx_cf /\ In (bs "10.0.0.4", 4000) (untried n) /\
  forall l, (forall b k, In b l -> ae_dice (snd (fst b) k) <> 1) -> linked (after nx_sha false nx_cf n l) = linked n.
Proof.
  assert (untried (nx_hist sk_own) = [(bs "127.0.0.1", 8333); (bs "10.0.0.4", 4000)]) as U by (vm_compute; reflexivity).
  split. { constructor; [exact I|]. constructor; [|constructor]. apply all_bytes_wf. vm_compute. reflexivity. }
  cbv zeta. split; [vm_compute; reflexivity|]. split; [rewrite U; right; now left|]. assert (n_listener (nx_hist sk_own) = true) as B by (vm_compute; reflexivity). generalize dependent (nx_hist sk_own).
  intros n U B l D. destruct (C133_own_address nx_sha false nx_cf l n _ D B U) as (_ & L). exact L.
Qed.

(** ** Assumptions *)

Print Assumptions C133_heartbeat_partial.
Print Assumptions C133_reaches_partial.
Print Assumptions C133_exhausts_partial.
Print Assumptions C133_own_address.
Print Assumptions C133_refuted.
