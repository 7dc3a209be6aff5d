(** C97 to C102: port mappings, serving, DNS seeds, the guessed block height,
    numbers fetched from web pages and formatted numbers. *)
From Coq Require Import String ZArith List Lia Bool Permutation.
From Verif Require Import PyBase PyVal PyTextProofs OnlineModel.
Import ListNotations.
Open Scope string_scope.
Open Scope list_scope.
Open Scope Z_scope.

(** ** C97: port mappings *)
Lemma free_port_ok g n port : let e := free_port n g port in port <= e <= port + Z.of_nat n /\ (forall q, port <= q < e -> g q <> None) /\ (e < port + Z.of_nat n -> g e = None).
Proof.
  revert port. induction n as [|n IH]; intros port e; unfold e; cbn [free_port]; [split; [lia|]; split; [intros q Hq; lia|intro; lia]|].
  destruct (g port) as [t|] eqn:E; [|split; [lia|]; split; [intros q Hq; lia|intro; exact E]].
  destruct (IH (port + 1)) as (A & B & C). split; [lia|]. split; [|intro; apply C; lia].
  intros q Hq. destruct (Z.eq_dec q port) as [->|N]; [congruence|apply B; lia].
Qed.
(** A successful call redirects to us the first external port from [port] up
    that was free, and changes no other mapping; an unsuccessful one changes
    none. *)
Theorem C97_mapping : forall e ready g port ready' g', 1 <= port <= 65535 ->
  (add_portmap e ready g port = Ok (ready', g', true) ->
     exists eport, port <= eport <= 65536 /\ g' eport = Some (ue_lan e, port) /\ (forall q, q <> eport -> g' q = g q) /\
       (forall q, port <= q < eport -> g q <> None) /\ (eport <= 65535 -> g eport = None)) /\
  (add_portmap e ready g port = Ok (ready', g', false) -> forall q, g' q = g q).
Proof.
  intros e ready g port ready' g' Hp. unfold add_portmap. destruct (init_upnp e ready) as [r|x]; cbn [bind]; [|split; discriminate].
  destruct (negb (r && ue_gateway e)); [split; [discriminate|intros H q; injection H as _ <-; reflexivity]|].
  destruct (ue_accepts e) as [[|]|]; [|split; [discriminate|intros H q; injection H as _ <-; reflexivity]|split; [discriminate|intros H q; injection H as _ <-; reflexivity]].
  split; [|discriminate]. intro H. set (ep := free_port (Z.to_nat (65536 - port)) g port) in *. assert (g' = gw_set ep (Some (ue_lan e, port)) g) as -> by congruence. destruct (free_port_ok g (Z.to_nat (65536 - port)) port) as (A & B & C). fold ep in A, B, C. exists ep.
  split; [lia|]. split; [unfold gw_set; now rewrite Z.eqb_refl|]. split; [intros q Hq; unfold gw_set; now destruct (Z.eqb_spec q ep)|]. split; [exact B|]. intro. apply C. lia.
Qed.
(** The port is one of the 65535 if one of those from [port] up is free. *)
Theorem C97_free_port_partial : forall e ready g port ready' g', 1 <= port <= 65535 -> (exists q, port <= q <= 65535 /\ g q = None) ->
  add_portmap e ready g port = Ok (ready', g', true) -> exists eport, port <= eport <= 65535 /\ g eport = None /\ g' eport = Some (ue_lan e, port).
Proof.
  intros e ready g port ready' g' Hp (q & Hq & Q) H. destruct (C97_mapping e ready g port ready' g' Hp) as (A & _). destruct (A H) as (ep & R & S & _ & T & F). exists ep.
  assert (ep <= 65535). { destruct (Z_le_gt_dec ep 65535) as [L|L]; [exact L|]. exfalso. apply (T q); [lia|exact Q]. }
  split; [lia|]. split; [now apply F|exact S].
Qed.
(** Otherwise 65536 is mapped, which is no port. *)
Theorem C97_free_port_refuted : exists e g, add_portmap e false g 8333 = Ok (true, gw_set 65536 (Some (ue_lan e, 8333)) g, true) /\ forall q, 8333 <= q <= 65535 -> g q = Some (bs "10.0.0.7", q).
Proof.
  exists (mk_upnp true true true (bs "10.0.0.2") (Some true)), (fun q => Some (bs "10.0.0.7", q)). split; [|reflexivity].
  unfold add_portmap. cbn [init_upnp ue_library ue_discovers negb bind ue_gateway andb ue_accepts]. destruct (free_port_ok (fun q => Some (bs "10.0.0.7", q)) (Z.to_nat (65536 - 8333)) 8333) as (A & _ & C).
  assert (free_port (Z.to_nat (65536 - 8333)) (fun q => Some (bs "10.0.0.7", q)) 8333 = 65536) as ->; [|reflexivity].
  set (x := free_port _ _ _) in *. destruct (Z_lt_le_dec x 65536) as [L|L]; [|lia]. discriminate C. lia.
Qed.
(** A mapping is made exactly if the gateway has been found before or is found
    now, and it answers and accepts. *)
Theorem C97_when : forall e ready g port, (exists ready' g', add_portmap e ready g port = Ok (ready', g', true)) <->
  (ready = true \/ ue_library e = true /\ ue_discovers e = true) /\ ue_gateway e = true /\ ue_accepts e = Some true.
Proof.
  intros e ready g port. unfold add_portmap, init_upnp. split.
  - intros (r & g' & H). destruct ready; [|destruct (ue_library e); [|discriminate]; destruct (ue_discovers e); [|discriminate]]; cbn [negb bind andb] in H; (destruct (ue_gateway e); [|discriminate]); cbn [negb] in H; cbv zeta in H; (destruct (ue_accepts e) as [[|]|]; [|discriminate|discriminate]); repeat split; tauto.
  - intros ([-> | (-> & ->)] & -> & ->); [|destruct ready]; cbn [negb bind andb]; cbv zeta; do 2 eexists; reflexivity.
Qed.
Definition one_taken : gateway := fun q => if q =? 8333 then Some (bs "10.0.0.7", 80) else None.
Definition one_env : upnp_env := mk_upnp true true true (bs "10.0.0.2") (Some true).
Lemma one_free : free_port (Z.to_nat (65536 - 8333)) one_taken 8333 = 8334.
Proof. destruct (Z.to_nat (65536 - 8333)) as [|[|k]] eqn:K; [lia|lia|]. reflexivity. Qed.
Example C97_applies : exists g', add_portmap one_env false one_taken 8333 = Ok (true, g', true) /\ g' 8334 = Some (bs "10.0.0.2", 8333) /\ g' 8333 = Some (bs "10.0.0.7", 80).
Proof.
  exists (gw_set 8334 (Some (bs "10.0.0.2", 8333)) one_taken). split; [|split; reflexivity]. unfold add_portmap. cbn [one_env init_upnp ue_library ue_discovers negb bind ue_gateway andb ue_accepts]. cbv zeta. now rewrite one_free.
Qed.
(** Without the library, that is on every platform but darwin, the call raises. *)
Theorem C97_platform_refuted : forall e g port, ue_library e = false -> add_portmap e false g port = Raise NameError.
Proof. intros e g port E. unfold add_portmap, init_upnp. now rewrite E. Qed.

(** ** C98: serving *)

(** A node that has a port mapping or wants none serves until it is stopped,
    closes and then passes on any other exception; the mappings of the gateway
    are as before if its port was free. *)
Theorem C98_serves_partial : forall listen port e deletes ready g stop, listen = false \/ ready = true \/ ue_library e = true ->
  exists g', serve_forever listen port e deletes ready g stop = ([SLoop; SClose], g', match stop with StopNode => Ok tt | Failed x => Raise x end) /\
    (listen = false -> g' = g) /\
    (1 <= port <= 65535 -> g port = None -> deletes = true -> forall q, g' q = g q).
Proof.
  intros listen port e deletes ready g stop H. unfold serve_forever. destruct listen.
  - assert (exists r, init_upnp e ready = Ok r) as (r & E). { unfold init_upnp. destruct ready; [eauto|]. destruct H as [H|[H|H]]; [discriminate|discriminate|]. rewrite H. cbn. eauto. }
    destruct (add_portmap e ready g port) as [((r', g'), b)|x] eqn:A.
    + eexists. split; [reflexivity|]. split; [discriminate|]. intros Hp F D q. unfold remove_portmap. rewrite D.
      unfold add_portmap in A. rewrite E in A. cbn [bind] in A. destruct (negb (r && ue_gateway e)) eqn:N; [injection A as <- <- <-; destruct (r && true)%bool; [unfold gw_set; destruct (Z.eqb_spec q port) as [->|]; [now rewrite F|reflexivity]|reflexivity]|].
      assert (free_port (Z.to_nat (65536 - port)) g port = port) as Ep. { destruct (Z.to_nat (65536 - port)) eqn:K; [lia|]. cbn [free_port]. now rewrite F. } cbv zeta in A. rewrite Ep in A.
      assert (r = true) as -> by (destruct r; [reflexivity|discriminate N]).
      destruct (ue_accepts e) as [[|]|]; injection A as <- <- <-; cbn [andb]; unfold gw_set; (destruct (Z.eqb_spec q port) as [->|Nq]; [now rewrite F|reflexivity]).
    + unfold add_portmap in A. rewrite E in A. cbn [bind] in A. destruct (negb _); [discriminate|]. destruct (ue_accepts e) as [[|]|]; discriminate.
  - exists g. split; [reflexivity|]. split; [reflexivity|]. reflexivity.
Qed.
(** On every platform but darwin a listening node never serves. *)
Theorem C98_serves_refuted : forall port e deletes g stop, ue_library e = false -> serve_forever true port e deletes false g stop = ([], g, Raise NameError).
Proof. intros port e deletes g stop E. unfold serve_forever. now rewrite (C97_platform_refuted e g port E). Qed.
(** If the port was taken, our mapping is left behind and the mapping of the
    other host is removed. *)
Theorem C98_mappings_refuted : exists e g other, g 8333 = Some other /\ g 8334 = None /\
  exists g', serve_forever true 8333 e true false g StopNode = ([SLoop; SClose], g', Ok tt) /\ g' 8333 = None /\ g' 8334 = Some (ue_lan e, 8333).
Proof.
  exists (mk_upnp true true true (bs "10.0.0.2") (Some true)), (fun q => if q =? 8333 then Some (bs "10.0.0.7", 80) else None), (bs "10.0.0.7", 80). split; [reflexivity|]. split; [reflexivity|].
  set (g := fun q : Z => if q =? 8333 then Some (bs "10.0.0.7", 80) else None).
  assert (free_port (Z.to_nat (65536 - 8333)) g 8333 = 8334) as F. { destruct (Z.to_nat (65536 - 8333)) as [|[|k]] eqn:K; [lia|lia|]. reflexivity. }
  exists (gw_set 8333 None (gw_set 8334 (Some (bs "10.0.0.2", 8333)) g)). split; [|split; reflexivity].
  unfold serve_forever, add_portmap. cbn [init_upnp ue_library ue_discovers negb bind ue_gateway andb ue_accepts]. cbv zeta. now rewrite F.
Qed.
Example C98_applies : exists g', serve_forever true 8333 (mk_upnp true true true (bs "10.0.0.2") (Some true)) true false (fun _ => None) (Failed RuntimeError) = ([SLoop; SClose], g', Raise RuntimeError) /\ g' 8333 = None.
Proof. destruct (C98_serves_partial true 8333 (mk_upnp true true true (bs "10.0.0.2") (Some true)) true false (fun _ => None) (Failed RuntimeError)) as (g' & E & _ & F); [now right; right|]. exists g'. split; [exact E|]. apply F; [lia|reflexivity|reflexivity]. Qed.

(** ** C99: DNS seeds *)
Lemma pair_eqb_spec a b : reflect (a = b) (pair_eqb a b).
Proof.
  unfold pair_eqb. destruct a as [s x], b as [t y]. cbn [fst snd]. destruct (bytes_eqb_spec s t) as [->|N]; cbn [andb]; [|constructor; congruence]. destruct (Z.eqb_spec x y) as [->|N]; constructor; congruence.
Qed.
Lemma remove_first_perm a l : In a l -> Permutation l (a :: remove_first a l).
Proof.
  induction l as [|b l IH]; intros H; [destruct H|]. cbn [remove_first]. destruct (pair_eqb_spec b a) as [->|N]; [reflexivity|]. destruct H as [H|H]; [congruence|].
  rewrite (IH H) at 1. apply perm_swap.
Qed.
Lemma take_next_ok i l : match take_next i l with
  | (Some a, l') => exists p, nth_error l i = Some (a :: p) /\ nth_error l' i = Some p /\ forall j, j <> i -> nth_error l' j = nth_error l j
  | (None, l') => l' = l /\ (nth_error l i = Some [] \/ nth_error l i = None) end.
Proof.
  revert l. induction i as [|i IH]; intros [|[|a p] r]; cbn [take_next].
  - auto.
  - auto.
  - exists p. split; [reflexivity|]. split; [reflexivity|]. intros [|j] Hj; [congruence|reflexivity].
  - auto.
  - specialize (IH r). destruct (take_next i r) as [[a|] r'].
    + destruct IH as (p & A & B & C). exists p. split; [exact A|]. split; [exact B|]. intros [|j] Hj; [reflexivity|]. apply C. congruence.
    + destruct IH as (-> & B). auto.
  - specialize (IH r). destruct (take_next i r) as [[b|] r'].
    + destruct IH as (q & A & B & C). exists q. split; [exact A|]. split; [exact B|]. intros [|j] Hj; [reflexivity|]. apply C. congruence.
    + destruct IH as (-> & B). auto.
Qed.
(** The addresses that [pop] returned. *)
Definition popped (os : list seed_output) : list (text * Z) := flat_map (fun o => match o with OAddress a => [a] | _ => [] end) os.
Definition of_thread (i : nat) (l : list (nat * (text * Z))) : list (text * Z) := map snd (filter (fun x => Nat.eqb (fst x) i) l).
Lemma seed_run_ok evs : forall s, let (s', os) := seed_run s evs in
  exists found, Permutation (popped os ++ sd_found s') (sd_found s ++ map snd found) /\
    forall i, match nth_error (sd_pending s) i with
              | Some p => exists rest, nth_error (sd_pending s') i = Some rest /\ p = of_thread i found ++ rest
              | None => of_thread i found = [] /\ nth_error (sd_pending s') i = None end.
Proof.
  induction evs as [|ev evs IH]; intro s; cbn [seed_run].
  - exists []. split; [now rewrite app_nil_r|]. intro i. destruct (nth_error _ i) as [p|]; [exists p; auto|auto].
  - destruct (seed_step s ev) as [s1 o] eqn:E. specialize (IH s1). destruct (seed_run s1 evs) as [s' os]. destruct IH as (found & P & T). destruct ev as [i|k|]; cbn [seed_step] in E.
    + pose proof (take_next_ok i (sd_pending s)) as K. destruct (take_next i (sd_pending s)) as [[a|] p'].
      * injection E as <- <-. cbn [sd_found sd_pending] in *. destruct K as (p & K1 & K2 & K3). exists ((i, a) :: found). cbn [popped flat_map map snd app]. fold (popped os). split.
        -- rewrite P. rewrite <- app_assoc. reflexivity.
        -- intro j. specialize (T j). unfold of_thread. cbn [filter fst]. destruct (Nat.eqb_spec i j) as [->|N].
           ++ rewrite K2 in T. rewrite K1. destruct T as (rest & T1 & T2). exists rest. split; [exact T1|]. cbn [map snd]. unfold of_thread in T2. now rewrite T2.
           ++ rewrite K3 in T by congruence. exact T.
      * injection E as <- <-. exists found. split; [exact P|exact T].
    + destruct (sd_found s) as [|d l] eqn:F.
      * injection E as <- <-. exists found. rewrite F in P. split; [exact P|exact T].
      * injection E as <- <-. cbn [sd_found sd_pending] in *. set (a := nth (k mod length (d :: l)) (d :: l) d) in *. exists found. split; [|exact T].
        assert (In a (d :: l)) as Ha by (apply nth_In, Nat.mod_upper_bound; cbn; lia). cbn [popped flat_map app]. fold (popped os). rewrite P. symmetry. exact (Permutation_app_tail (map snd found) (remove_first_perm a (d :: l) Ha)).
    + injection E as <- <-. exists found. split; [exact P|exact T].
Qed.
(** Whatever the schedule of the seeds' threads and of any number of threads
    calling [pop] and [len]: what was returned and what is still there is what
    the seeds' threads have appended, each address as often as it was found. *)
Theorem C99_no_loss : forall programs evs, let (s, os) := seed_run (mk_seeder programs []) evs in
  exists found, Permutation (popped os ++ sd_found s) (map snd found) /\
    forall i p, nth_error programs i = Some p -> exists rest, nth_error (sd_pending s) i = Some rest /\ p = of_thread i found ++ rest.
Proof.
  intros programs evs. pose proof (seed_run_ok evs (mk_seeder programs [])) as H. destruct (seed_run _ evs) as [s os]. destruct H as (found & P & T). exists found. split; [exact P|].
  intros i p Hp. specialize (T i). cbn [sd_pending] in T. now rewrite Hp in T.
Qed.
(** [pop] raises IndexError exactly when there is no address. *)
Theorem C99_pop : forall s k, match snd (seed_step s (SPop k)) with
  | OAddress a => In a (sd_found s) /\ Permutation (sd_found s) (a :: sd_found (fst (seed_step s (SPop k))))
  | OIndexError => sd_found s = [] | _ => False end.
Proof.
  intros s k. cbn [seed_step]. destruct (sd_found s) as [|d l]; [reflexivity|]. cbn [snd fst sd_found]. set (a := nth _ _ _). assert (In a (d :: l)) as Ha by (apply nth_In, Nat.mod_upper_bound; cbn; lia). split; [exact Ha|]. now apply remove_first_perm.
Qed.
(** Every choice of random.choice gives one of the addresses, and every address
    can be chosen. *)
Theorem C99_any_address : forall s a, In a (sd_found s) -> exists k, snd (seed_step s (SPop k)) = OAddress a.
Proof.
  intros s a H. apply (In_nth _ _ a) in H. destruct H as (k & L & E). exists k. cbn [seed_step]. destruct (sd_found s) as [|d l]; [inversion L|]. cbn [snd]. f_equal. rewrite Nat.mod_small by exact L. rewrite (nth_indep _ d a) by exact L. exact E.
Qed.
(** One consumer: after a [len] above zero its next [pop] succeeds, whatever
    the seeds' threads do in between. *)
Theorem C99_one_consumer : forall s n finds k, snd (seed_step s SLen) = OLen n -> 0 < n ->
  exists a, snd (seed_step (fst (seed_run s (map SFound finds))) (SPop k)) = OAddress a.
Proof.
  intros s n finds k E H. cbn in E. injection E as <-. assert (0 < zlen (sd_found (fst (seed_run s (map SFound finds))))) as L.
  { revert s H. induction finds as [|i finds IH]; intros s H; [exact H|]. cbn [map seed_run]. destruct (seed_step s (SFound i)) as [s1 o] eqn:E. specialize (IH s1). destruct (seed_run s1 _) as [s' os]. cbn [fst] in *. apply IH.
    cbn [seed_step] in E. destruct (take_next i (sd_pending s)) as [[a|] p]; injection E as <- _; [|exact H]. cbn [sd_found]. unfold zlen in *. rewrite app_length. lia. }
  pose proof (C99_pop (fst (seed_run s (map SFound finds))) k) as P. destruct (snd (seed_step _ (SPop k))) as [|a| |]; [destruct P|eauto| |destruct P]. rewrite P in L. discriminate L.
Qed.
Example C99_applies : let (s, os) := seed_run (mk_seeder [[(bs "10.0.0.1", 8333); (bs "10.0.0.2", 8333)]; [(bs "10.0.0.3", 18333)]] []) [SFound 0; SFound 1; SPop 1; SFound 0; SLen] in
  popped os = [(bs "10.0.0.3", 18333)] /\ sd_found s = [(bs "10.0.0.1", 8333); (bs "10.0.0.2", 8333)] /\ last os ONothing = OLen 2.
Proof. repeat split. Qed.
(** Two consumers that both see one address: the second [pop] raises. *)
Theorem C99_two_consumers_refuted : snd (seed_run (mk_seeder [[(bs "10.0.0.1", 8333)]] []) [SFound 0; SLen; SLen; SPop 0; SPop 0]) = [ONothing; OLen 1; OLen 1; OAddress (bs "10.0.0.1", 8333); OIndexError].
Proof. reflexivity. Qed.

(** ** C100: guessing the block height *)
Lemma join_all_ok timeout l : forall now, 0 <= now <= timeout -> let t := join_all timeout now l in
  now <= t <= timeout /\ (forall s f, In s l -> so_end s = Some f -> f <= timeout -> f <= t) /\
  (t = now \/ t = timeout \/ exists s, In s l /\ so_end s = Some t) /\
  (Forall (fun s => exists f, so_end s = Some f /\ f <= timeout) l -> t = now \/ exists s, In s l /\ so_end s = Some t).
Proof.
  induction l as [|s l IH]; intros now Hn t; unfold t; cbn [join_all].
  - split; [lia|]. split; [intros s f []|]. split; auto.
  - replace (timeout <? 0) with false by lia. set (m := join_until now (timeout - now) (so_end s)).
    assert (now <= m <= timeout /\ (forall f, so_end s = Some f -> f <= timeout -> f <= m) /\ (m = now \/ m = timeout \/ so_end s = Some m) /\ (forall f, so_end s = Some f -> f <= timeout -> m = now \/ so_end s = Some m)) as (A & B & C & D).
    { unfold m, join_until. destruct (so_end s) as [f|].
      - destruct (Z.leb_spec f now) as [L|L]; [repeat split; try lia; auto; intros g E; injection E as <-; intros; auto|]. rewrite Z.max_l by lia. replace (now + (timeout - now)) with timeout by lia.
        repeat split; try lia.
        + intros g E; injection E as <-. lia.
        + destruct (Z.min_spec f timeout) as [(? & ->)|(? & ->)]; auto.
        + intros g E; injection E as <-. intro. right. rewrite Z.min_l by lia. reflexivity.
      - rewrite Z.max_l by lia. repeat split; try lia; try discriminate. }
    destruct (IH m ltac:(lia)) as (A' & B' & C' & D'). split; [lia|]. split; [|split].
    + intros s' f [<-|H] E L; [specialize (B f E L); lia|now apply (B' s' f)].
    + destruct C' as [->|[->|(s' & H & E)]]; [|auto|right; right; exists s'; split; [now right|exact E]].
      destruct C as [->|[->|E]]; [auto|auto|right; right; exists s; split; [now left|exact E]].
    + intro F. inversion F as [|? ? (f & Ef & Lf) F']; subst. destruct (D' F') as [->|(s' & H & E)]; [|right; exists s'; split; [now right|exact E]].
      destruct (D f Ef Lf) as [->|E]; [now left|right; exists s; split; [now left|exact E]].
Qed.
(** The call returns within [timeout]; before that only when the last source
    has ended.  The result has exactly the sources whose functions returned by
    then, which includes all that did so within [timeout]. *)
Theorem C100_guess : forall timeout l, 0 <= timeout -> let (t, entries) := guess_block_height timeout l in
  0 <= t <= timeout /\
  (forall s f v, In s l -> so_end s = Some f -> so_result s = Ok v -> f <= timeout -> In (so_name s, v) entries) /\
  (forall name v, In (name, v) entries -> exists s f, In s l /\ so_name s = name /\ so_result s = Ok v /\ so_end s = Some f /\ f <= t) /\
  (Forall (fun s => exists f, so_end s = Some f /\ f <= timeout) l -> t = 0 \/ exists s, In s l /\ so_end s = Some t).
Proof.
  intros timeout l H. unfold guess_block_height. destruct (join_all_ok timeout l 0 ltac:(lia)) as (A & B & _ & D). split; [exact A|]. split; [|split; [|exact D]].
  - intros s f v Hs Ef Er L. unfold entries_at. apply in_flat_map. exists s. split; [exact Hs|]. rewrite Er. unfold ended_by. rewrite Ef. specialize (B s f Hs Ef L). destruct (Z.leb_spec f (join_all timeout 0 l)); [now left|lia].
  - intros name v Hi. unfold entries_at in Hi. apply in_flat_map in Hi. destruct Hi as (s & Hs & Hi). destruct (so_result s) as [w|] eqn:Er; [|destruct Hi]. unfold ended_by in Hi. destruct (so_end s) as [f|] eqn:Ef; [|destruct Hi]. destruct (Z.leb_spec f (join_all timeout 0 l)); [|destruct Hi].
    destruct Hi as [E|[]]. injection E as <- <-. exists s, f. auto.
Qed.
(** Sources with different names give one entry each at most. *)
Theorem C100_one_entry : forall timeout l, NoDup (map so_name l) -> NoDup (map fst (snd (guess_block_height timeout l))).
Proof.
  intros timeout l. unfold guess_block_height. cbn [snd]. set (t := join_all timeout 0 l). clearbody t. induction l as [|s l IH]; intro H; [constructor|]. cbn [map] in H. inversion H as [|? ? N H']; subst.
  unfold entries_at. cbn [flat_map]. fold (entries_at t l). rewrite map_app. specialize (IH H').
  assert (forall n, In n (map fst (entries_at t l)) -> In n (map so_name l)) as K.
  { intros n Hn. apply in_map_iff in Hn. destruct Hn as ((n', v) & <- & Hi). unfold entries_at in Hi. apply in_flat_map in Hi. destruct Hi as (s' & Hs & Hi). apply in_map_iff. exists s'. split; [|exact Hs]. destruct (so_result s'); [|destruct Hi]. destruct (ended_by t s'); [|destruct Hi]. destruct Hi as [E|[]]. injection E as <- _. reflexivity. }
  destruct (so_result s) as [v|]; [|exact IH]. destruct (ended_by t s); [|exact IH]. cbn [map app fst]. constructor; [|exact IH]. intro Hi. apply N. now apply K.
Qed.
(** A negative timeout waits for nothing. *)
Theorem C100_negative : forall timeout l, timeout < 0 -> fst (guess_block_height timeout l) = 0.
Proof. intros timeout [|s l] H; [reflexivity|]. cbn. now replace (timeout <? 0) with true by lia. Qed.
Example C100_applies : guess_block_height 5 [mk_source (bs "a") (Some 3) (Ok (Some 700)); mk_source (bs "b") None (Ok None); mk_source (bs "c") (Some 4) (Raise ValueError); mk_source (bs "d") (Some 2) (Ok None)] =
  (5, [(bs "a", Some 700); (bs "d", None)]).
Proof. reflexivity. Qed.

(** ** C101: numbers from web pages *)

(** The value at a path: through objects by key and through arrays by index. *)
Inductive value_at : jtree -> list text -> jtree -> Prop :=
| at_end t : value_at t [] t
| at_key pre k v post r w : ~ In k (map fst pre) -> value_at v r w -> value_at (TDict (pre ++ (k, v) :: post)) (k :: r) w
| at_index l c i v r w : int_of_text 10 c = Some i -> 0 <= i -> nth_error l (Z.to_nat i) = Some v -> value_at v r w -> value_at (TList l) (c :: r) w.
(** Through objects only. *)
Inductive key_path : jtree -> list text -> jtree -> Prop :=
| key_end t : key_path t [] t
| key_key pre k v post r w : ~ In k (map fst pre) -> key_path v r w -> key_path (TDict (pre ++ (k, v) :: post)) (k :: r) w.
(** [t] stands for the integer [z]. *)
Inductive stands_for : jtree -> Z -> Prop :=
| int_int z : stands_for (TInt z) z
| int_bool b : stands_for (TBool b) (if b then 1 else 0)
| int_text s z : int_of_text 10 s = Some z -> stands_for (TStr s) z
| int_float f z : float_trunc f = Ok z -> stands_for (TFloat f) z.
Lemma stands_iff t z : tree_int t = Ok z <-> stands_for t z.
Proof.
  split.
  - destruct t as [|b|z'|f|s|l|d]; cbn; intro H; try discriminate.
    + injection H as <-. constructor.
    + injection H as <-. constructor.
    + now constructor.
    + destruct (int_of_text 10 s) eqn:E; [|discriminate]. injection H as <-. now constructor.
  - destruct 1 as [z|b|s z E|f z E]; cbn; [reflexivity|reflexivity|now rewrite E|exact E].
Qed.
Lemma dict_get_iff k d v : dict_get k d = Ok v <-> exists pre post, d = pre ++ (k, v) :: post /\ ~ In k (map fst pre).
Proof.
  split.
  - induction d as [|(k', v') d IH]; cbn [dict_get]; [discriminate|]. destruct (bytes_eqb_spec k' k) as [->|N].
    + intro E. injection E as ->. exists [], d. split; [reflexivity|intros []].
    + intro E. destruct (IH E) as (pre & post & -> & Hn). exists ((k', v') :: pre), post. split; [reflexivity|]. cbn. intros [H|H]; [congruence|now apply Hn].
  - intros (pre & post & -> & Hn). induction pre as [|(k', v') pre IH]; cbn [app dict_get].
    + destruct (bytes_eqb_spec k k) as [_|N]; [reflexivity|congruence].
    + destruct (bytes_eqb_spec k' k) as [->|N]; [elim Hn; now left|]. apply IH. intro H. apply Hn. now right.
Qed.
Lemma follow_iff path : forall data v, follow path data = Ok v <-> key_path data path v.
Proof.
  induction path as [|c r IH]; intros data v; cbn [follow].
  - split; [intro E; injection E as ->; constructor|intro H; inversion H; reflexivity].
  - split.
    + destruct data as [|b|z|f|s|l|d]; try discriminate. intro E. destruct (dict_get c d) as [w|] eqn:G; [|discriminate]. apply dict_get_iff in G. destruct G as (pre & post & -> & Hn). constructor; [exact Hn|]. now apply IH.
    + intro H. inversion H as [|pre k w post r' x Hn Hp E1 E2]; subst. assert (dict_get c (pre ++ (c, w) :: post) = Ok w) as -> by (apply dict_get_iff; exists pre, post; now split). now apply IH.
Qed.
(** Full statement: the answer is the integer at the path ([value_at]).  What
    holds: the answer is the integer at the path if the page is read, the path leads
    through objects only and there is an integer at its end; None if the page
    is read but this is not so. *)
Theorem C101_json_partial : forall loads payload path z,
  fetch_json_path loads (Ok payload) path = Ok (Some z) <-> exists data v, loads payload = Ok data /\ key_path data (split_on 47 path) v /\ stands_for v z.
Proof.
  intros loads payload path z. unfold fetch_json_path. cbn [bind]. split.
  - intro H. destruct (loads payload) as [data|] eqn:L; [|discriminate]. cbn [bind] in H. destruct (follow (split_on 47 path) data) as [v|] eqn:F; [|discriminate]. cbn [bind] in H. destruct (tree_int v) as [y|] eqn:T; [|discriminate]. injection H as ->.
    exists data, v. split; [reflexivity|]. split; [now apply follow_iff|now apply stands_iff].
  - intros (data & v & L & K & T). rewrite L. cbn [bind]. apply follow_iff in K. rewrite K. cbn [bind]. apply stands_iff in T. now rewrite T.
Qed.
Theorem C101_otherwise : forall loads payload path, (~ exists z, fetch_json_path loads (Ok payload) path = Ok (Some z)) -> fetch_json_path loads (Ok payload) path = Ok None.
Proof.
  intros loads payload path N. unfold fetch_json_path in *. cbn [bind] in *. destruct (bind (loads payload) _) as [z|]; [|reflexivity]. elim N. now exists z.
Qed.
(** Paths through arrays, which the code provides for, give None. *)
Theorem C101_json_refuted : forall loads payload path data v z keys l c rest, loads payload = Ok data -> split_on 47 path = keys ++ c :: rest -> key_path data keys (TList l) ->
  value_at (TList l) (c :: rest) v -> stands_for v z -> fetch_json_path loads (Ok payload) path = Ok None.
Proof.
  intros loads payload path data v z keys l c rest L P K _ _. apply C101_otherwise. intros (y & H). apply C101_json_partial in H. destruct H as (d & w & L' & K' & _). assert (d = data) as -> by congruence. rewrite P in K'. clear - K K'.
  revert data K K'. induction keys as [|k keys IH]; intros data K K'; [inversion K; subst; inversion K'|]. cbn [app] in K'.
  inversion K as [|pre k1 v1 post r1 w1 N1 P1 E1 E2]; subst. inversion K' as [|pre' k2 v2 post' r2 w2 N2 P2 E1 E2]; subst.
  assert (Ok v1 = Ok v2) as E. { transitivity (dict_get k (pre' ++ (k, v2) :: post')); [symmetry; apply dict_get_iff; exists pre, post; split; [assumption|exact N1]|apply dict_get_iff; exists pre', post'; split; [reflexivity|exact N2]]. }
  injection E as ->. now apply (IH v2).
Qed.
Example C101_applies : forall loads payload, loads payload = Ok (TDict [(bs "status", TStr (bs "ok")); (bs "data", TDict [(bs "blocks", TInt 530000); (bs "nb", TList [TInt 7])])]) ->
  fetch_json_path loads (Ok payload) (bs "data/blocks") = Ok (Some 530000) /\ fetch_json_path loads (Ok payload) (bs "data/nb/0") = Ok None.
Proof. intros loads payload E. unfold fetch_json_path. cbn [bind]. rewrite E. split; reflexivity. Qed.
(** Errors: the plain number's function gives None for them all; the other one
    passes on the errors of the connection. *)
Theorem C101_number : forall page z, (fetch_int page = Ok (Some z) <-> exists s, page = Ok s /\ int_of_text 10 s = Some z) /\ ((~ exists s z, page = Ok s /\ int_of_text 10 s = Some z) -> fetch_int page = Ok None).
Proof.
  intros [s|e] z; cbn.
  - split; [split; [|intros (s' & E & H); injection E as <-; now rewrite H]|].
    + destruct (int_of_text 10 s) as [y|] eqn:E; [|discriminate]. intro H. injection H as ->. now exists s.
    + intro N. destruct (int_of_text 10 s) as [y|] eqn:E; [elim N; now exists s, y|reflexivity].
  - split; [split; [discriminate|intros (s & E & _); discriminate]|reflexivity].
Qed.
Theorem C101_unreachable : forall loads e path, fetch_json_path loads (Raise e) path = Raise e.
Proof. reflexivity. Qed.

(** ** C102: numbers with commas *)
Lemma group_digits_ok : forall n r, (length r <= n)%nat -> r <> [] -> exists head groups, rev (group_digits r 3) = head ++ concat (map (cons 44) groups) /\ rev r = head ++ concat groups /\ (1 <= length head <= 3)%nat /\ Forall (fun g => length g = 3%nat) groups.
Proof.
  induction n as [|n IH]; intros r L N; [destruct r; [congruence|cbn in L; lia]|].
  destruct r as [|a [|b [|c [|d r]]]]; [congruence|exists [a], []|exists [b; a], []|exists [c; b; a], []|]; try (split; [reflexivity|]; split; [reflexivity|]; split; [cbn; lia|constructor]).
  destruct (IH (d :: r)) as (head & groups & E1 & E2 & E3 & E4); [cbn in L |- *; lia|discriminate|].
  exists head, (groups ++ [[c; b; a]]). rewrite map_app, !concat_app. cbn [map concat app]. split; [|split; [|split; [exact E3|apply Forall_app; split; [exact E4|constructor; [reflexivity|constructor]]]]].
  - assert (group_digits (a :: b :: c :: d :: r) 3 = [a; b; c; 44] ++ group_digits (d :: r) 3) as -> by reflexivity. rewrite rev_app_distr, E1. cbn [rev app]. now rewrite <- app_assoc.
  - change (a :: b :: c :: d :: r) with ([a; b; c] ++ d :: r). rewrite rev_app_distr, E2. cbn [rev app]. now rewrite <- app_assoc.
Qed.
(** The decimal digits of the absolute value, after the sign, are cut from the
    right into groups of three with commas between. *)
Theorem C102_commify : forall z, exists head groups, commify z = (if z <? 0 then [45] else []) ++ head ++ concat (map (cons 44) groups) /\
  text_of_int 10 (Z.abs z) = head ++ concat groups /\ (1 <= length head <= 3)%nat /\ Forall (fun g => length g = 3%nat) groups /\
  int_of_text 10 (head ++ concat groups) = Some (Z.abs z).
Proof.
  intro z. set (t := text_of_int 10 (Z.abs z)). assert (int_of_text 10 t = Some (Z.abs z)) as I by (apply int_of_text_of_int; [now left|lia]).
  assert (t <> []) as N by (intro E; rewrite E in I; discriminate I).
  destruct (group_digits_ok (length (rev t)) (rev t) ltac:(lia)) as (head & groups & E1 & E2 & E3 & E4); [intro E; apply N; rewrite <- (rev_involutive t), E; reflexivity|].
  rewrite rev_involutive in E2. exists head, groups. split; [unfold commify; fold t; now rewrite E1|]. split; [exact E2|]. split; [exact E3|]. split; [exact E4|]. now rewrite <- E2.
Qed.
Example C102_case : commify (-1234567) = bs "-1,234,567" /\ commify 1000 = bs "1,000" /\ commify 999 = bs "999" /\ commify 0 = bs "0".
Proof. repeat split; vm_compute; reflexivity. Qed.

(** ** Assumptions *)

Print Assumptions C97_mapping.
Print Assumptions C97_free_port_partial.
Print Assumptions C97_free_port_refuted.
Print Assumptions C97_when.
Print Assumptions C97_platform_refuted.
Print Assumptions C98_serves_partial.
Print Assumptions C98_serves_refuted.
Print Assumptions C98_mappings_refuted.
Print Assumptions C99_no_loss.
Print Assumptions C99_pop.
Print Assumptions C99_any_address.
Print Assumptions C99_one_consumer.
Print Assumptions C99_two_consumers_refuted.
Print Assumptions C100_guess.
Print Assumptions C100_one_entry.
Print Assumptions C100_negative.
Print Assumptions C101_json_partial.
Print Assumptions C101_otherwise.
Print Assumptions C101_json_refuted.
Print Assumptions C101_number.
Print Assumptions C101_unreachable.
Print Assumptions C102_commify.
