(** Feeders: whatever the chunks, decrypting what was encrypted gives the data
    back (Python 2). *)
From Coq Require Import ZArith List Lia Bool.
From Verif Require Import PyBase PyVal AesTables AesModel AesSpec AesProofs AesModes ModesUse ModesSpec ModesProofs ModesProofs2.
Import ListNotations.
Open Scope list_scope.
Open Scope Z_scope.

Lemma run_app call l1 : forall m l2, run call m (l1 ++ l2) = (let! x := run call m l1 in let! y := run call (snd x) l2 in Ok (fst x ++ fst y, snd y)).
Proof.
  induction l1 as [|c l1 IH]; intros m l2.
  - cbn. destruct (run call m l2) as [[? ?]|]; reflexivity.
  - cbn [app run]. destruct (call m c) as [x|e]; [|reflexivity]. cbn [bind fst snd]. rewrite IH. destruct (run call (snd x) l1) as [y|e]; [|reflexivity].
    cbn [bind fst snd]. destruct (run call (snd y) l2) as [z|e]; reflexivity.
Qed.
Lemma run_app_ok call l1 l2 m o1 m1 o2 m2 : run call m l1 = Ok (o1, m1) -> run call m1 l2 = Ok (o2, m2) -> run call m (l1 ++ l2) = Ok (o1 ++ o2, m2).
Proof. intros H1 H2. rewrite run_app, H1. cbn [bind fst snd]. rewrite H2. reflexivity. Qed.
Lemma concat_app_ {A} (l1 l2 : list (list A)) : concat (l1 ++ l2) = concat l1 ++ concat l2.
Proof. apply concat_app. Qed.

Definition call_of (enc : bool) (a : aes) : mode -> bytes -> res (bytes * mode) := if enc then mode_encrypt a else mode_decrypt a.
Section Feed.
  Variables (enc : bool) (a : aes).
  Let call := call_of enc a.
  Variable P : mode -> Prop.
  Variable good : bytes -> Prop.
  Variable CC : Z -> Z.
  Hypothesis Hcall : forall m c, P m -> wf_bytes c -> good c -> exists o m', call m c = Ok (o, m') /\ P m'.
  Hypothesis Hcc : forall m size, P m -> can_consume m size = CC size.
  Hypothesis Hcc1 : forall size, 0 < size -> 0 <= CC size <= size.
  Hypothesis Hgood : forall c size, 0 < size -> CC size <> 0 -> zlen c = CC size -> good c.
  Definition small (buf : bytes) : Prop := zlen buf <= 16 \/ CC (zlen buf - 16) = 0.
  Lemma feeder_call_of f c : f_enc f = enc -> f_aes f = a -> feeder_call f c = call (f_mode f) c.
  Proof. intros <- <-. unfold feeder_call, call, call_of. destruct (f_enc f); reflexivity. Qed.
  Lemma feed_loop_spec fuel : forall f buf, f_enc f = enc -> f_aes f = a -> P (f_mode f) -> wf_bytes buf -> (List.length buf <= fuel)%nat ->
    exists calls outs m' buf', feed_loop fuel f buf = Ok (concat outs, (m', buf')) /\ run call (f_mode f) calls = Ok (outs, m') /\
      concat calls ++ buf' = buf /\ Forall good calls /\ Forall wf_bytes calls /\ wf_bytes buf' /\ P m' /\ (calls = [] \/ 16 <= zlen buf') /\ small buf'.
  Proof.
    induction fuel as [|fuel IH]; intros f buf He Ha HP Hw Hl; cbn [feed_loop].
    - assert (buf = []) as -> by (destruct buf; [reflexivity|cbn in Hl; lia]). cbn. exists [], [], (f_mode f), []. cbn.
      split; [reflexivity|]; split; [reflexivity|]; split; [reflexivity|]; split; [constructor|]; split; [constructor|]; split; [constructor|]; split; [exact HP|]; split; [left; reflexivity|left; unfold zlen; cbn; lia].
    - destruct (Z.ltb_spec 16 (zlen buf)) as [H16|H16].
      2:{ exists [], [], (f_mode f), buf. cbn. split; [reflexivity|]; split; [reflexivity|]; split; [reflexivity|]; split; [constructor|]; split; [constructor|]; split; [exact Hw|]; split; [exact HP|]; split; [left; reflexivity|left; exact H16]. }
      rewrite Hcc by exact HP. destruct (Z.eqb_spec (CC (zlen buf - 16)) 0) as [H0|H0].
      + exists [], [], (f_mode f), buf. cbn. split; [reflexivity|]; split; [reflexivity|]; split; [reflexivity|]; split; [constructor|]; split; [constructor|]; split; [exact Hw|]; split; [exact HP|]; split; [left; reflexivity|right; exact H0].
      + pose proof (Hcc1 (zlen buf - 16) ltac:(lia)) as Hn. set (n := CC (zlen buf - 16)) in *.
        assert (zlen (ztake n buf) = n) as Lt by (rewrite ztake_firstn; unfold zlen in *; rewrite firstn_length; lia).
        assert (wf_bytes (ztake n buf) /\ wf_bytes (zdrop n buf)) as [W1 W2].
        { rewrite ztake_firstn, zdrop_skipn. rewrite <- (firstn_skipn (Z.to_nat n) buf) in Hw. now apply Forall_app in Hw. }
        assert (good (ztake n buf)) as Hg by (apply (Hgood _ (zlen buf - 16)); [lia|exact H0|exact Lt]).
        rewrite feeder_call_of by assumption. destruct (Hcall (f_mode f) (ztake n buf) HP W1 Hg) as (o & m1 & E1 & P1). rewrite E1. cbn [bind fst snd].
        destruct (IH (with_mode f m1) (zdrop n buf)) as (calls & outs & m' & buf' & A & B & C & D & D2 & W & P' & F & G); try assumption.
        { rewrite zdrop_skipn, skipn_length. unfold zlen in *. lia. }
        rewrite A. cbn [bind fst snd]. exists (ztake n buf :: calls), (o :: outs), m', buf'. split; [reflexivity|].
        split; [cbn [run]; rewrite E1; cbn [bind fst snd]; cbn [f_mode with_mode] in B; now rewrite B|].
        split; [cbn [concat]; rewrite <- app_assoc, C; rewrite ztake_firstn, zdrop_skipn; apply firstn_skipn|].
        split; [constructor; assumption|]. split; [constructor; assumption|]. split; [exact W|]. split; [exact P'|]. split; [|exact G].
        right. destruct F as [->|F]; [|exact F]. cbn in C. subst buf'. rewrite zdrop_skipn. unfold zlen in *. rewrite skipn_length. lia.
  Qed.
  Lemma feed_all_spec chunks : Forall wf_bytes chunks -> Forall (fun c => c <> []) chunks -> forall m buf, P m -> wf_bytes buf -> small buf ->
    exists calls outs m' buf', feed_all true (mk_feeder enc a m (Some buf)) chunks = Ok (concat outs, mk_feeder enc a m' (Some buf')) /\
      run call m calls = Ok (outs, m') /\ concat calls ++ buf' = buf ++ concat chunks /\ Forall good calls /\ Forall wf_bytes calls /\ wf_bytes buf' /\ P m' /\
      (calls = [] \/ 16 <= zlen buf') /\ small buf'.
  Proof.
    induction chunks as [|c chunks IH]; intros HW HN m buf HP Hb Hs.
    - exists [], [], m, buf. cbn. rewrite app_nil_r. split; [reflexivity|]; split; [reflexivity|]; split; [reflexivity|]; split; [constructor|]; split; [constructor|]; split; [exact Hb|]; split; [exact HP|]; split; [left; reflexivity|exact Hs].
    - inversion HW as [|? ? Wc Wr]; subst. inversion HN as [|? ? Nc Nr]; subst. cbn [feed_all]. unfold feeder_feed at 1. cbn [f_buffer negb].
      destruct c as [|x c0] eqn:Ec; [easy|]. rewrite <- Ec in *. clear Ec x c0.
      destruct (feed_loop_spec (List.length (buf ++ c)) (mk_feeder enc a m (Some buf)) (buf ++ c)) as (calls & outs & m1 & buf1 & A & B & C & D & D2 & W & P' & F & G); try assumption; try reflexivity.
      { apply Forall_app; now split. }
      rewrite A. cbn [bind fst snd f_enc f_aes].
      destruct (IH Wr Nr m1 buf1 P' W G) as (calls2 & outs2 & m2 & buf2 & A2 & B2 & C2 & D3 & D4 & W3 & P3 & F3 & G3). rewrite A2. cbn [bind fst snd].
      exists (calls ++ calls2), (outs ++ outs2), m2, buf2. rewrite !concat_app_. split; [reflexivity|].
      split; [now apply (run_app_ok call _ _ _ outs m1)|]. split; [cbn [concat]; unfold bytes in *; rewrite ?concat_app, <- app_assoc, C2, !app_assoc; now rewrite C|].
      split; [apply Forall_app; now split|]. split; [apply Forall_app; now split|]. split; [exact W3|]. split; [exact P3|]. split; [|exact G3].
      destruct F3 as [->|F3]; [|now right]. cbn [concat app] in C2. destruct F as [->|F]; [now left|right]. subst buf2. rewrite zlen_app. pose proof (zlen_nonneg (concat chunks)). unfold bytes in *. lia.
  Qed.
End Feed.

(** ** Padding *)
Lemma append_length data : exists k, zlen (append_padding data) = 16 * k /\ zlen data < 16 * k <= zlen data + 16.
Proof.
  unfold append_padding. rewrite zlen_app, zlen_repeat. exists (zlen data / 16 + 1). 
  pose proof (Z.mod_pos_bound (zlen data) 16). pose proof (Z.div_mod (zlen data) 16). lia.
Qed.
Lemma append_app x data : zlen x mod 16 = 0 -> append_padding (x ++ data) = x ++ append_padding data.
Proof.
  intro H. unfold append_padding. rewrite zlen_app. rewrite (Z.add_mod (zlen x)), H, Z.add_0_l, Z.mod_mod by lia. now rewrite <- app_assoc.
Qed.
Lemma strip_block x l data : zlen x mod 16 = 0 -> zlen l = 16 -> x ++ l = append_padding data -> exists l', strip_padding true l = Ok l' /\ x ++ l' = data.
Proof.
  intros Hx Hl E. set (pad := 16 - zlen data mod 16). pose proof (Z.mod_pos_bound (zlen data) 16 ltac:(lia)) as Hm.
  assert (1 <= pad <= 16) as Hp by (unfold pad; lia).
  unfold append_padding in E. fold pad in E. 
  assert (zlen x + 16 = zlen data + pad) as HL.
  { apply (f_equal (@zlen Z)) in E. rewrite !zlen_app, zlen_repeat, Hl in E. lia. }
  (* data = x ++ d1, l = d1 ++ pad *)
  assert (exists d1, data = x ++ d1 /\ l = d1 ++ repeat pad (Z.to_nat pad)) as (d1 & -> & ->).
  { exists (skipn (List.length x) data). unfold zlen in HL.
    assert (data = x ++ skipn (List.length x) data) as Ed.
    { rewrite <- (firstn_skipn (List.length x) data) at 1. f_equal. apply (f_equal (firstn (List.length x))) in E.
      rewrite !firstn_app in E. replace (List.length x - List.length data)%nat with 0%nat in E by lia. rewrite Nat.sub_diag, !firstn_O, !app_nil_r, firstn_all in E. now symmetry. }
    split; [exact Ed|]. rewrite Ed in E at 1. rewrite <- app_assoc in E. now apply app_inv_head in E. }
  unfold strip_padding. rewrite Hl. cbn [Z.modulo Z.div_eucl Z.eqb negb].
  rewrite rev_app_distr. destruct (Z.to_nat pad) as [|p] eqn:Ep; [lia|]. 
  assert (rev (repeat pad (S p)) = pad :: repeat pad p) as ->.
  { clear. induction p as [|p IH]; [reflexivity|]. cbn [repeat rev] in *. rewrite IH. cbn. now rewrite <- repeat_cons. }
  cbn [app]. change (16 mod 16 =? 0) with true. cbn [negb]. destruct (Z.ltb_spec 16 pad); [lia|]. destruct (Z.eqb_spec pad 0); [lia|].
  exists d1. split; [|reflexivity]. f_equal. rewrite zlen_app, zlen_repeat in Hl.
  apply ztake_app_exact. lia.
Qed.

(** ** The modes as feeders see them *)
Definition mode_inv (args : mode_args) (m : mode) : Prop :=
  match args with
  | NewECB => m = ECB
  | NewCBC _ => exists b, block_ok b /\ m = CBC b
  | NewCFB _ n => exists b, block_ok b /\ m = CFB (segment_of n) b
  | NewOFB _ => exists r l, block_ok (l ++ r) /\ m = OFB r l
  | NewCTR _ => exists v r, in_range v /\ m = CTR (block_of v) r
  end.
Definition consume (args : mode_args) (size : Z) : Z :=
  match args with
  | NewECB | NewCBC _ => if 16 <=? size then 16 else 0
  | NewCFB _ n => segment_of n * (size / segment_of n)
  | NewOFB _ | NewCTR _ => size
  end.
Section Roundtrip.
  Variables (key : bytes) (args : mode_args) (a : aes) (m : mode).
  Hypothesis Hkey : wf_bytes key.
  Hypothesis Hargs : args_ok args.
  Hypothesis Hinit : mode_init true key args = Ok (a, m).
  Lemma inv_init : mode_inv args m.
  Proof.
    destruct (init_facts true key args a m Hargs Hinit) as [_ H]. destruct args as [|iv|iv n|iv|v]; cbn [mode_inv].
    - exact H.
    - destruct H as (b & _ & Hb & ->). now exists b.
    - destruct H as (b & _ & Hb & ->). now exists b.
    - destruct H as (b & _ & Hb & ->). exists [], b. now rewrite app_nil_r.
    - subst m. eexists _, _. split; [|reflexivity]. unfold in_range. apply Z.mod_pos_bound. lia.
  Qed.
  Lemma seg_range n iv : args = NewCFB iv n -> 1 <= segment_of n <= 16.
  Proof. intros ->. destruct Hargs as [_ Hn]. unfold segment_of. destruct (Z.eqb_spec n 0); lia. Qed.
  Lemma inv_call enc mm c : mode_inv args mm -> wf_bytes c -> accepts args c -> exists o m', call_of enc a mm c = Ok (o, m') /\ mode_inv args m'.
  Proof.
    intros HI Hw Hacc. destruct (obj_facts true key args a m Hkey Hargs Hinit) as (HE & HD & OE & DE & HK).
    pose proof seg_range as SR. destruct args as [|iv|iv n|iv|v]; cbn [mode_inv accepts] in *.
    - subst mm. pose proof (block_ok_of c Hw Hacc) as Hc. unfold call_of. destruct enc; cbn [mode_encrypt mode_decrypt]; rewrite Hacc; cbn [Z.eqb Pos.eqb negb].
      + rewrite HE by exact Hc. cbn [bind]. eauto.
      + rewrite HD by exact Hc. cbn [bind]. eauto.
    - destruct HI as (b & Hb & ->). pose proof (block_ok_of c Hw Hacc) as Hc. unfold call_of. destruct enc; cbn [mode_encrypt mode_decrypt]; rewrite Hacc; cbn [Z.eqb Pos.eqb negb].
      + change xor_zip with xor_bytes. pose proof (block_xor c b Hc Hb) as Hx. rewrite HE by exact Hx. cbn [bind]. eexists _, _. split; [reflexivity|]. eexists. split; [|reflexivity]. now apply OE.
      + rewrite HD by exact Hc. cbn [bind]. eexists _, _. split; [reflexivity|]. eexists. split; [|reflexivity]. exact Hc.
    - destruct HI as (b & Hb & ->). specialize (SR n iv eq_refl). set (seg := Z.to_nat (segment_of n)). assert (segment_of n = Z.of_nat seg) as Es by lia.
      rewrite Es in *. assert (1 <= seg <= 16)%nat as Hs by lia.
      destruct (cfb_run a _ _ HE HD OE DE seg Hs enc [c]) with (reg := b) as (k & outs & Hk & E1 & E2 & E3); [now constructor|now constructor|exact Hb|].
      cbn [run] in E1. change (cfb_call a enc) with (call_of enc a) in E1. destruct (call_of enc a (CFB (Z.of_nat seg) b) c) as [[o m']|e]; [|discriminate E1]. cbn [bind run fst snd] in E1.
      exists o, m'. split; [reflexivity|]. cbn [concat] in Hk. rewrite app_nil_r in Hk.
      destruct (cfb_fun_reg a _ _ HE HD OE DE seg Hs enc k b c Hb Hw Hk) as [R _]. eexists. split; [exact R|]. cbn [concat] in E1. rewrite app_nil_r in E1. congruence.
    - destruct HI as (r & l & Hb & ->). destruct (ofb_loop_spec a _ _ HE HD OE DE c r l (List.length c) Hb) as (r' & l' & E1 & B'); [lia|].
      unfold call_of. destruct enc; cbn [mode_encrypt mode_decrypt]; rewrite E1; cbn [bind fst snd]; eexists _, _; (split; [reflexivity|]); now exists r', l'.
    - destruct HI as (v0 & r & Hv & ->). destruct (ctr_call a _ _ HE HD OE DE c v0 r (List.length c) Hv) as (k & r' & E1 & _); [lia|].
      unfold call_of. destruct enc; cbn [mode_encrypt mode_decrypt]; rewrite E1; eexists _, _; (split; [reflexivity|]); eexists _, _; (split; [|reflexivity]); now apply nexts_range.
  Qed.
  Lemma inv_consume mm size : mode_inv args mm -> can_consume mm size = consume args size.
  Proof.
    destruct args as [|iv|iv n|iv|v]; cbn [mode_inv consume]; intro H.
    - now subst.
    - now destruct H as (b & _ & ->).
    - now destruct H as (b & _ & ->).
    - now destruct H as (r & l & _ & ->).
    - now destruct H as (r & l & _ & ->).
  Qed.
  Lemma consume_range size : 0 < size -> 0 <= consume args size <= size.
  Proof.
    pose proof seg_range as SR. intro H. destruct args as [|iv|iv n|iv|v]; cbn [consume]; try lia.
    - destruct (Z.leb_spec 16 size); lia.
    - destruct (Z.leb_spec 16 size); lia.
    - specialize (SR n iv eq_refl). pose proof (Z.div_mod size (segment_of n) ltac:(lia)). pose proof (Z.mod_pos_bound size (segment_of n) ltac:(lia)).
      pose proof (Z.div_pos size (segment_of n) ltac:(lia) ltac:(lia)). nia.
  Qed.
  Lemma consume_good c size : 0 < size -> consume args size <> 0 -> zlen c = consume args size -> accepts args c.
  Proof.
    pose proof seg_range as SR. intros H H0 E. destruct args as [|iv|iv n|iv|v]; cbn [consume accepts] in *; try exact I.
    - destruct (Z.leb_spec 16 size); [exact E|lia].
    - destruct (Z.leb_spec 16 size); [exact E|lia].
    - rewrite E, Z.mul_comm. apply Z.mod_mul. specialize (SR n iv eq_refl). lia.
  Qed.
  (** What feeding chunks does: calls on pieces the mode accepts, and a rest in
      the buffer. *)
  Lemma fed enc chunks : Forall wf_bytes chunks -> Forall (fun c => c <> []) chunks ->
    exists calls outs m' buf, feed_all true (feeder_init enc a m) chunks = Ok (concat outs, mk_feeder enc a m' (Some buf)) /\
      run (call_of enc a) m calls = Ok (outs, m') /\ concat calls ++ buf = concat chunks /\ Forall (accepts args) calls /\ Forall wf_bytes calls /\ wf_bytes buf /\ mode_inv args m' /\
      (calls = [] \/ 16 <= zlen buf) /\ (zlen buf <= 16 \/ consume args (zlen buf - 16) = 0).
  Proof.
    intros HW HN. pose proof (feed_all_spec enc a (mode_inv args) (accepts args) (consume args) (inv_call enc) inv_consume consume_range consume_good chunks HW HN m [] inv_init) as X.
    apply X; [constructor|]. left. cbn. lia.
  Qed.
  Definition is_block : Prop := match args with NewECB | NewCBC _ => True | _ => False end.
  Lemma block_run blocks : is_block -> Forall block_ok blocks -> exists outs m1 m2,
    run (mode_encrypt a) m blocks = Ok (outs, m1) /\ run (mode_decrypt a) m outs = Ok (blocks, m2) /\ Forall block_ok outs.
  Proof.
    intros HB F. unfold is_block in HB. destruct (obj_facts true key args a m Hkey Hargs Hinit) as (HE & HD & OE & DE & HK).
    destruct (init_facts true key args a m Hargs Hinit) as [_ H]. destruct args as [|iv|iv n|iv|v]; try contradiction HB.
    - subst m. eexists _, _, _. split; [now apply (ecb_enc a _ HE)|]. split; [now apply (ecb_dec a _ _ HD OE DE)|].
      clear - F OE. induction F; constructor; [now apply OE|assumption].
    - destruct H as (b & _ & Hb & ->). destruct (cbc_both a _ _ HE HD OE DE blocks F b Hb) as (last & E1 & E2 & G & _). eexists _, _, _. split; [exact E1|]. split; [exact E2|exact G].
  Qed.
  Lemma final_block enc m' buf data : is_block -> mode_inv args m' ->
    feeder_final true (mk_feeder enc a m' (Some buf)) data =
    (if enc then let padded := append_padding data in
        if zlen padded =? 32 then let! x := mode_encrypt a m' (ztake 16 padded) in let! y := mode_encrypt a (snd x) (zdrop 16 padded) in Ok (fst x ++ fst y)
        else let! x := mode_encrypt a m' padded in Ok (fst x)
     else let! x := mode_decrypt a m' data in strip_padding true (fst x)).
  Proof.
    intros HB HI. unfold is_block in HB. destruct args; try contradiction HB; cbn [mode_inv] in HI; [subst m'|destruct HI as (b & _ & ->)]; unfold feeder_final, feeder_call, with_mode;
      cbn [f_enc f_aes f_mode f_buffer]; destruct enc; reflexivity.
  Qed.
  Lemma wf_append data : wf_bytes data -> wf_bytes (append_padding data).
  Proof.
    intro H. unfold append_padding. apply Forall_app. split; [exact H|]. apply Forall_forall. intros x Hx. apply repeat_spec in Hx. subst x.
    unfold is_byte. pose proof (Z.mod_pos_bound (zlen data) 16). lia.
  Qed.
  Lemma concat_16_length (l : list bytes) : Forall (fun c => List.length c = 16%nat) l -> zlen (concat l) = 16 * zlen l.
  Proof. induction 1 as [|c l Hc Hl IH]; [reflexivity|]. cbn [concat]. rewrite zlen_app, zlen_cons, IH. unfold zlen. rewrite Hc. lia. Qed.
  Theorem feeders_block chunks : is_block -> Forall wf_bytes chunks -> Forall (fun c => c <> []) chunks ->
    exists c, feed_and_flush true (feeder_init true a m) chunks = Ok c /\
      forall chunks', Forall (fun c => c <> []) chunks' -> concat chunks' = c -> feed_and_flush true (feeder_init false a m) chunks' = Ok (concat chunks).
  Proof.
    intros HB HW HN. destruct (fed true chunks HW HN) as (calls & outs & m' & buf & A & R & C & HA & Hw & Wb & HI & F & G).
    assert (forall c, accepts args c <-> zlen c = 16) as ACC by (intro c; unfold is_block in HB; destruct args; try contradiction HB; cbn; reflexivity).
    assert (forall size, consume args size = if 16 <=? size then 16 else 0) as CON by (intro c; unfold is_block in HB; destruct args; try contradiction HB; cbn; reflexivity).
    assert (Forall block_ok calls) as FB.
    { clear - HA Hw ACC. induction HA as [|c l Hc Hl IH]; [constructor|]. inversion Hw; subst. constructor; [apply block_ok_of; [assumption|now apply ACC]|now apply IH]. }
    assert (zlen buf < 32) as B32. { destruct G as [G|G]; [lia|]. rewrite CON in G. destruct (Z.leb_spec 16 (zlen buf - 16)); lia. }
    pose proof (wf_append buf Wb) as Wp. pose proof (zlen_nonneg buf) as B0. destruct (append_length buf) as (k & Lp & Hk).
    (* the final calls *)
    assert (exists fc, concat fc = append_padding buf /\ Forall block_ok fc /\ fc <> [] /\
      forall oo mm, run (mode_encrypt a) m' fc = Ok (oo, mm) -> feeder_final true (mk_feeder true a m' (Some buf)) buf = Ok (concat oo)) as (fc & C2 & FB2 & NE & FIN).
    { rewrite final_block by assumption. cbv zeta. destruct (Z.eqb_spec (zlen (append_padding buf)) 32) as [H32|H32].
      - exists [ztake 16 (append_padding buf); zdrop 16 (append_padding buf)].
        assert (firstn 16 (append_padding buf) ++ skipn 16 (append_padding buf) = append_padding buf) as FS by apply firstn_skipn.
        assert (wf_bytes (firstn 16 (append_padding buf)) /\ wf_bytes (skipn 16 (append_padding buf))) as [W1 W2] by (rewrite <- FS in Wp; now apply Forall_app in Wp).
        rewrite ztake_firstn, zdrop_skipn. change (Z.to_nat 16) with 16%nat. unfold zlen in H32. split; [cbn [concat]; now rewrite app_nil_r|].
        split; [repeat constructor; try assumption; [rewrite firstn_length; lia|rewrite skipn_length; lia]|]. split; [discriminate|].
        intros oo mm HR. cbn [run] in HR. destruct (mode_encrypt a m' (firstn 16 (append_padding buf))) as [x|e]; [|discriminate HR]. cbn [bind fst snd] in *.
        destruct (mode_encrypt a (snd x) (skipn 16 (append_padding buf))) as [y|e]; [|discriminate HR]. cbn [bind fst snd] in *.
        assert (oo = [fst x; fst y]) as -> by congruence. cbn [concat]. now rewrite app_nil_r.
      - exists [append_padding buf]. cbn [concat]. rewrite app_nil_r. split; [reflexivity|]. split; [repeat constructor; [exact Wp|unfold zlen in *; lia]|]. split; [discriminate|].
        intros oo mm HR. cbn [run] in HR. destruct (mode_encrypt a m' (append_padding buf)) as [x|e]; [|discriminate HR]. cbn [bind fst snd] in *.
        assert (oo = [fst x]) as -> by congruence. cbn [concat]. now rewrite app_nil_r. }
    assert (Forall block_ok (calls ++ fc)) as FBall by (apply Forall_app; now split).
    destruct (block_run (calls ++ fc) HB FBall) as (all & m1 & m2 & RE & RD & FO).
    pose proof RE as RE2. rewrite run_app in RE2. change (call_of true a) with (mode_encrypt a) in R. rewrite R in RE2. cbn [bind fst snd] in RE2.
    destruct (run (mode_encrypt a) m' fc) as [[oo mm]|e] eqn:RF; [|discriminate RE2]. cbn [bind fst snd] in RE2. assert (all = outs ++ oo) as Eall by (unfold bytes in *; congruence).
    exists (concat all). split.
    - unfold feed_and_flush. rewrite A. cbn [bind fst snd]. unfold feeder_feed. cbn [f_buffer negb]. rewrite (FIN _ _ eq_refl). cbn [bind fst snd]. now rewrite Eall, concat_app.
    - intros chunks' HN' HC'.
      assert (Forall (fun c => List.length c = 16%nat) all) as L16 by (eapply Forall_impl; [|exact FO]; cbv beta; intros c0 Hc0; apply Hc0).
      assert (Forall wf_bytes chunks') as HW'.
      { assert (wf_bytes (concat chunks')) as W by (rewrite HC'; clear - FO; induction FO as [|c0 l0 Hc0 Hl0 IH]; cbn; [constructor|]; apply Forall_app; split; [apply Hc0|exact IH]).
        clear - W. induction chunks' as [|c0 r IH]; [constructor|]. cbn in W. apply Forall_app in W. constructor; [apply W|apply IH, W]. }
      destruct (fed false chunks' HW' HN') as (calls' & outs' & m'' & buf' & A' & R' & C' & HA' & Hw' & Wb' & HI' & F' & G').
      assert (Forall (fun c => List.length c = 16%nat) calls') as L16'.
      { eapply Forall_impl; [|exact HA']. cbv beta. intros c0 Hc0. apply ACC in Hc0. unfold zlen in Hc0. lia. }
      assert (zlen buf' = 16) as B16.
      { assert (zlen buf' < 32) as B'. { destruct G' as [G'|G']; [lia|]. rewrite CON in G'. destruct (Z.leb_spec 16 (zlen buf' - 16)); lia. }
        pose proof (concat_16_length calls' L16') as X1. pose proof (concat_16_length all L16) as X2. rewrite HC' in C'. apply (f_equal (@zlen Z)) in C'. rewrite zlen_app in C'.
        assert (1 <= zlen all). { destruct all as [|? ?]; [|rewrite zlen_cons; pose proof (zlen_nonneg all); lia]. destruct outs; [|discriminate Eall]. destruct oo; [|discriminate Eall].
          destruct fc as [|fb ?]; [contradiction|]. cbn [run] in RF. destruct (mode_encrypt a m' fb) as [?|?]; [|discriminate RF]. cbn [bind] in RF. match type of RF with context [run ?f ?s ?l] => destruct (run f s l) end; cbn [bind] in RF; discriminate RF. }
        pose proof (zlen_nonneg calls'). pose proof (zlen_nonneg buf'). unfold bytes in *. destruct F' as [F'|F']; [assert (zlen calls' = 0) by (now rewrite F'); unfold bytes in *; lia|lia]. }
      assert (calls' ++ [buf'] = all) as Eall'.
      { apply concat_16_inj; [apply Forall_app; split; [exact L16'|constructor; [unfold zlen in B16; lia|constructor]] | exact L16 |]. rewrite concat_app. cbn [concat]. rewrite app_nil_r. congruence. }
      rewrite <- Eall', run_app in RD. change (call_of false a) with (mode_decrypt a) in R'. rewrite R' in RD. cbn [bind fst snd run] in RD.
      destruct (mode_decrypt a m'' buf') as [x|e] eqn:Q; [|discriminate RD]. cbn [bind fst snd] in RD. assert (outs' ++ [fst x] = calls ++ fc) as EQ by (unfold bytes in *; congruence).
      assert (concat outs' ++ fst x = append_padding (concat chunks)) as EP.
      { apply (f_equal (@concat Z)) in EQ. rewrite !concat_app in EQ. cbn [concat] in EQ. rewrite app_nil_r in EQ. rewrite EQ, C2, <- C. symmetry. apply append_app.
        assert (Forall (fun c => List.length c = 16%nat) calls) as Lc by (eapply Forall_impl; [|exact FB]; cbv beta; intros c0 Hc0; apply Hc0).
        rewrite (concat_16_length calls Lc), Z.mul_comm. apply Z.mod_mul. lia. }
      assert (Forall block_ok (outs' ++ [fst x])) as FX by (now rewrite EQ).
      apply Forall_app in FX. destruct FX as [FX1 FX2]. inversion FX2 as [|? ? FX3 _]; subst.
      destruct (strip_block (concat outs') (fst x) (concat chunks)) as (l' & S1 & S2).
      { assert (Forall (fun c => List.length c = 16%nat) outs') as Lc by (eapply Forall_impl; [|exact FX1]; cbv beta; intros c0 Hc0; apply Hc0).
        rewrite (concat_16_length outs' Lc), Z.mul_comm. apply Z.mod_mul. lia. }
      { unfold zlen. destruct FX3 as [_ ->]. reflexivity. } { exact EP. }
      unfold feed_and_flush. rewrite A'. cbn [bind fst snd]. unfold feeder_feed. cbn [f_buffer negb]. rewrite final_block by assumption. rewrite Q. cbn [bind fst snd]. rewrite S1. cbn [bind fst snd]. now rewrite S2.
  Qed.
  Definition is_stream : Prop := match args with NewOFB _ | NewCTR _ => True | _ => False end.
  Lemma final_stream enc m' buf data : is_stream -> mode_inv args m' ->
    feeder_final true (mk_feeder enc a m' (Some buf)) data = (let! x := call_of enc a m' data in Ok (fst x)).
  Proof.
    intros HB HI. unfold is_stream in HB. destruct args; try contradiction HB; cbn [mode_inv] in HI; destruct HI as (x & y & _ & ->); unfold feeder_final, feeder_call, call_of;
      cbn [f_enc f_aes f_mode f_buffer]; destruct enc; reflexivity.
  Qed.
  Lemma wf_concat_inv (l : list bytes) : wf_bytes (concat l) -> Forall wf_bytes l.
  Proof. induction l as [|c0 r IH]; intro W; [constructor|]. cbn in W. apply Forall_app in W. constructor; [apply W|apply IH, W]. Qed.
  Lemma wf_concat (l : list bytes) : Forall wf_bytes l -> wf_bytes (concat l).
  Proof. induction 1; cbn; [constructor|]. apply Forall_app. now split. Qed.
  Theorem feeders_stream chunks : is_stream -> Forall wf_bytes chunks -> Forall (fun c => c <> []) chunks ->
    exists c, feed_and_flush true (feeder_init true a m) chunks = Ok c /\
      forall chunks', Forall (fun c => c <> []) chunks' -> concat chunks' = c -> feed_and_flush true (feeder_init false a m) chunks' = Ok (concat chunks).
  Proof.
    intros HB HW HN. destruct (fed true chunks HW HN) as (calls & outs & m' & buf & A & R & C & HA & Hw & Wb & HI & F & G).
    assert (forall c, accepts args c) as ACC by (intro c; unfold is_stream in HB; destruct args; try contradiction HB; exact I).
    change (call_of true a) with (mode_encrypt a) in R.
    assert (Forall wf_bytes (calls ++ [buf])) as Wall by (apply Forall_app; split; [assumption|now constructor]).
    assert (Forall (accepts args) (calls ++ [buf])) as Aall by (apply Forall_forall; intros; apply ACC).
    destruct (modes_spec true key args a m Hkey Hargs Hinit (calls ++ [buf]) Wall Aall) as (all & m1 & RE & _ & WO).
    pose proof RE as RE2. rewrite run_app, R in RE2. cbn [bind fst snd run] in RE2.
    destruct (mode_encrypt a m' buf) as [x|e] eqn:Q; [|discriminate RE2]. cbn [bind fst snd] in RE2. assert (all = outs ++ [fst x]) as Eall by (unfold bytes in *; congruence).
    exists (concat all). split.
    - unfold feed_and_flush. rewrite A. cbn [bind fst snd]. unfold feeder_feed. cbn [f_buffer negb]. rewrite final_stream by assumption.
      change (call_of true a) with (mode_encrypt a). rewrite Q. cbn [bind fst snd]. rewrite Eall, concat_app. cbn [concat]. now rewrite app_nil_r.
    - intros chunks' HN' HC'. assert (Forall wf_bytes chunks') as HW' by (apply wf_concat_inv; now rewrite HC').
      destruct (fed false chunks' HW' HN') as (calls' & outs' & m'' & buf' & A' & R' & C' & HA' & Hw' & Wb' & HI' & F' & G').
      change (call_of false a) with (mode_decrypt a) in R'.
      destruct (modes_roundtrip true key args a m Hkey Hargs Hinit (calls ++ [buf]) all m1 Wall Aall RE (calls' ++ [buf'])) as (o2 & m2 & RD & E2).
      { apply Forall_forall; intros; apply ACC. } { rewrite concat_app. cbn [concat]. rewrite app_nil_r. congruence. }
      rewrite run_app, R' in RD. cbn [bind fst snd run] in RD. destruct (mode_decrypt a m'' buf') as [y|e] eqn:Q'; [|discriminate RD]. cbn [bind fst snd] in RD.
      assert (o2 = outs' ++ [fst y]) as -> by (unfold bytes in *; congruence).
      unfold feed_and_flush. rewrite A'. cbn [bind fst snd]. unfold feeder_feed. cbn [f_buffer negb]. rewrite final_stream by assumption.
      change (call_of false a) with (mode_decrypt a). rewrite Q'. cbn [bind fst snd].
      rewrite !concat_app in E2. cbn [concat] in E2. rewrite !app_nil_r in E2. rewrite E2. now rewrite C.
  Qed.

  (** *** CFB *)
  Lemma cfb_prefix E seg (OE : forall b, block_ok b -> block_ok (E b)) (Hs : (1 <= seg <= 16)%nat) k : forall reg c c' n,
    block_ok reg -> wf_bytes c -> wf_bytes c' -> List.length c = (seg * k)%nat -> List.length c' = (seg * k)%nat -> firstn n c = firstn n c' ->
    firstn n (fst (cfb_fun E seg false k reg c)) = firstn n (fst (cfb_fun E seg false k reg c')).
  Proof.
    induction k as [|k IH]; intros reg c c' n Hr Wc Wc' HL HL' HF; [reflexivity|]. cbn [cfb_fun]. cbv zeta. cbn [fst].
    assert (forall n (l l' x : list Z), List.length l = List.length l' -> firstn n l = firstn n l' -> firstn n (xor_bytes l x) = firstn n (xor_bytes l' x)) as XF.
    { clear. induction n as [|n IH]; intros l l' x HL HF; [reflexivity|]. destruct l as [|a l], l' as [|a' l']; try discriminate HL; [reflexivity|].
      destruct x as [|z x]; [reflexivity|]. cbn in *. assert (a = a') as -> by congruence. f_equal. apply IH; [lia|congruence]. }
    destruct (OE reg Hr) as [_ LE].
    assert (List.length (firstn seg c) = seg) as L1 by (rewrite firstn_length; nia). assert (List.length (firstn seg c') = seg) as L1' by (rewrite firstn_length; nia).
    assert (List.length (xor_bytes (firstn seg c) (E reg)) = seg) as L2 by (rewrite xor_bytes_length; lia).
    assert (List.length (xor_bytes (firstn seg c') (E reg)) = seg) as L2' by (rewrite xor_bytes_length; lia).
    rewrite !firstn_app, L2, L2'. destruct (Nat.le_gt_cases n seg) as [Hn|Hn].
    - replace (n - seg)%nat with 0%nat by lia. rewrite !firstn_O, !app_nil_r. apply XF; [lia|]. rewrite !firstn_firstn. replace (Nat.min n seg) with n by lia. exact HF.
    - assert (firstn seg c = firstn seg c') as E1.
      { apply (f_equal (firstn seg)) in HF. rewrite !firstn_firstn in HF. now replace (Nat.min seg n) with seg in HF by lia. }
      rewrite E1. f_equal. rewrite <- (firstn_skipn seg c) in Wc. rewrite <- (firstn_skipn seg c') in Wc'. apply Forall_app in Wc. apply Forall_app in Wc'.
      apply IH; [split; [apply Forall_app; split; [rewrite <- (firstn_skipn seg reg) in Hr; destruct Hr as [Hr _]; apply Forall_app in Hr; apply Hr|apply Wc']|rewrite app_length, skipn_length; destruct Hr; unfold bytes in *; lia] | apply Wc | apply Wc' | rewrite skipn_length; nia | rewrite skipn_length; nia |].
      apply (f_equal (skipn seg)) in HF. now rewrite !skipn_firstn_comm in HF.
  Qed.
  Lemma final_cfb iv n enc m' buf data : args = NewCFB iv n -> mode_inv args m' ->
    feeder_final true (mk_feeder enc a m' (Some buf)) data =
    (let! x := call_of enc a m' (data ++ repeat 0 (Z.to_nat (segment_of n - zlen data mod segment_of n))) in Ok (ztake (zlen data) (fst x))).
  Proof.
    intros EA HI. rewrite EA in HI. cbn [mode_inv] in HI. destruct HI as (b & _ & ->). unfold feeder_final, feeder_call, call_of. cbn [f_enc f_aes f_mode f_buffer]. destruct enc; reflexivity.
  Qed.
  Lemma zeros_wf n : wf_bytes (repeat 0 n).
  Proof. apply Forall_forall. intros x Hx. apply repeat_spec in Hx. subst. unfold is_byte. lia. Qed.
  Lemma pad_mod s x : 0 < s -> (x + Z.of_nat (Z.to_nat (s - x mod s))) mod s = 0.
  Proof.
    intro H. pose proof (Z.mod_pos_bound x s H) as B. rewrite Z2Nat.id by lia. pose proof (Z.div_mod x s ltac:(lia)) as D.
    replace (x + (s - x mod s)) with ((x / s + 1) * s) by nia. apply Z.mod_mul. lia.
  Qed.
  Theorem feeders_cfb iv n chunks : args = NewCFB iv n -> Forall wf_bytes chunks -> Forall (fun c => c <> []) chunks ->
    exists c, feed_and_flush true (feeder_init true a m) chunks = Ok c /\
      forall chunks', Forall (fun c => c <> []) chunks' -> concat chunks' = c -> feed_and_flush true (feeder_init false a m) chunks' = Ok (concat chunks).
  Proof.
    intros EA HW HN. pose proof (seg_range n iv EA) as SR.
    destruct (obj_facts true key args a m Hkey Hargs Hinit) as (HE & HD & OE & DE & HK). destruct (init_facts true key args a m Hargs Hinit) as [_ Hm].
    assert (exists reg, block_ok reg /\ m = CFB (segment_of n) reg) as (reg & Hreg & Em) by (rewrite EA in Hm; destruct Hm as (b & _ & Hb & E0); now exists b).
    assert (forall c, accepts args c <-> zlen c mod segment_of n = 0) as ACC by (intro c; rewrite EA; reflexivity).
    set (seg := Z.to_nat (segment_of n)). assert (segment_of n = Z.of_nat seg) as Es by lia. assert (1 <= seg <= 16)%nat as Hs by lia.
    assert (forall l, Forall (accepts args) l -> Forall (fun c => zlen c mod Z.of_nat seg = 0) l) as ACC2 by (intros l Hl; eapply Forall_impl; [|exact Hl]; cbv beta; intros c0 Hc0; rewrite <- Es; now apply ACC).
    assert (forall l : list bytes, Forall (accepts args) l -> zlen (concat l) mod segment_of n = 0) as CM.
    { intros l Hl. induction Hl as [|c0 l Hc0 Hl IH]; [apply Z.mod_0_l; lia|]. cbn [concat]. rewrite zlen_app, Z.add_mod, IH by lia. apply ACC in Hc0. rewrite Hc0. apply Z.mod_0_l; lia. }
    assert (forall (l : list bytes) b, Forall (accepts args) l -> zlen (concat l ++ b) mod segment_of n = zlen b mod segment_of n) as CM2.
    { intros l b Hl. rewrite zlen_app, Z.add_mod, (CM l Hl), Z.add_0_l, Z.mod_mod by lia. reflexivity. }
    destruct (fed true chunks HW HN) as (calls & outs & m' & buf & A & R & C & HA & Hw & Wb & HI & F & G).
    set (z := fun b : bytes => repeat 0 (Z.to_nat (segment_of n - zlen b mod segment_of n))).
    assert (forall b : bytes, zlen (b ++ z b) mod segment_of n = 0) as ZM by (intro b; unfold z; rewrite zlen_app, zlen_repeat; apply pad_mod; lia).
    set (T := concat chunks) in *.
    (* encryption *)
    assert (Forall wf_bytes (calls ++ [buf ++ z buf])) as Wall by (apply Forall_app; split; [assumption|]; constructor; [apply Forall_app; split; [assumption|apply zeros_wf]|constructor]).
    assert (Forall (accepts args) (calls ++ [buf ++ z buf])) as Aall by (apply Forall_app; split; [assumption|]; constructor; [apply ACC, ZM|constructor]).
    destruct (cfb_run a _ _ HE HD OE DE seg Hs true _ Wall (ACC2 _ Aall) reg Hreg) as (k & all & Hk & RE & EC & EL).
    change (cfb_call a true) with (call_of true a) in RE. rewrite <- Es, <- Em, run_app, R in RE. cbn [bind fst snd run] in RE.
    destruct (call_of true a m' (buf ++ z buf)) as [x|e] eqn:Q; [|discriminate RE]. cbn [bind fst snd] in RE. assert (all = outs ++ [fst x]) as -> by (unfold bytes in *; congruence).
    assert (concat (calls ++ [buf ++ z buf]) = T ++ z buf) as ET by (rewrite concat_app; cbn [concat]; rewrite app_nil_r, app_assoc; unfold bytes in *; now rewrite C).
    rewrite ET in *.
    assert (List.length (concat outs) = List.length (concat calls)) as Lo.
    { rewrite !map_app in EL. apply app_inj_tail in EL. destruct EL as [EL _]. clear - EL. revert calls EL. induction outs as [|o outs IH]; intros [|c0 calls] EL; try discriminate EL; [reflexivity|].
      cbn in *. rewrite !app_length. rewrite (IH calls) by congruence. f_equal. congruence. }
    assert (concat outs ++ firstn (List.length buf) (fst x) = firstn (List.length T) (concat outs ++ fst x)) as EOUT.
    { rewrite <- C, app_length, firstn_app, Lo. rewrite (@firstn_all2 _ _ (concat outs)) by (rewrite Lo; apply Nat.le_add_r). now rewrite Nat.add_comm, Nat.add_sub. }
    assert (concat outs ++ fst x = fst (cfb_fun (cipher key) seg true k reg (T ++ z buf))) as EC' by (rewrite concat_app in EC; cbn [concat] in EC; rewrite app_nil_r in EC; exact EC).
    assert (wf_bytes T) as WT by (unfold T; now apply wf_concat).
    assert (wf_bytes (T ++ z buf)) as WTz by (apply Forall_app; split; [exact WT|apply zeros_wf]).
    destruct (cfb_fun_inverse a _ _ HE HD OE DE seg Hs k reg (T ++ z buf) Hreg WTz Hk) as [INV WC]. cbv zeta in INV, WC. rewrite <- EC' in INV, WC.
    set (CT := concat outs ++ fst x) in *.
    assert (List.length CT = List.length (T ++ z buf)) as LCT by (rewrite EC'; apply (cfb_fun_reg a _ _ HE HD OE DE seg Hs true k reg (T ++ z buf) Hreg WTz Hk)).
    exists (firstn (List.length T) CT). split.
    - unfold feed_and_flush. rewrite A. cbn [bind fst snd]. unfold feeder_feed. cbn [f_buffer negb]. rewrite (final_cfb iv n) by assumption. fold (z buf). rewrite Q. cbn [bind fst snd].
      rewrite ztake_firstn. unfold zlen at 1. rewrite Nat2Z.id. now rewrite EOUT.
    - intros chunks' HN' HC'.
      assert (wf_bytes (firstn (List.length T) CT)) as WcT by (rewrite <- (firstn_skipn (List.length T) CT) in WC; apply Forall_app in WC; apply WC).
      assert (Forall wf_bytes chunks') as HW' by (apply wf_concat_inv; now rewrite HC').
      destruct (fed false chunks' HW' HN') as (calls' & outs' & m'' & buf' & A' & R' & C' & HA' & Hw' & Wb' & HI' & F' & G').
      assert (List.length (concat chunks') = List.length T) as LT by (rewrite HC', firstn_length, LCT, app_length; lia).
      assert (z buf' = z buf) as EZ.
      { unfold z. do 2 f_equal. f_equal. rewrite <- (CM2 calls' buf' HA'), <- (CM2 calls buf HA). unfold bytes in *. rewrite C', C. unfold zlen. now rewrite LT. }
      assert (Forall wf_bytes (calls' ++ [buf' ++ z buf'])) as Wall' by (apply Forall_app; split; [assumption|]; constructor; [apply Forall_app; split; [assumption|apply zeros_wf]|constructor]).
      assert (Forall (accepts args) (calls' ++ [buf' ++ z buf'])) as Aall' by (apply Forall_app; split; [assumption|]; constructor; [apply ACC, ZM|constructor]).
      destruct (cfb_run a _ _ HE HD OE DE seg Hs false _ Wall' (ACC2 _ Aall') reg Hreg) as (k' & all' & Hk' & RE' & EC2 & EL').
      change (cfb_call a false) with (call_of false a) in RE'. rewrite <- Es, <- Em, run_app, R' in RE'. cbn [bind fst snd run] in RE'.
      destruct (call_of false a m'' (buf' ++ z buf')) as [y|e] eqn:Q'; [|discriminate RE']. cbn [bind fst snd] in RE'. assert (all' = outs' ++ [fst y]) as -> by (unfold bytes in *; congruence).
      assert (concat (calls' ++ [buf' ++ z buf']) = concat chunks' ++ z buf') as ET' by (rewrite concat_app; cbn [concat]; rewrite app_nil_r, app_assoc; unfold bytes in *; now rewrite C').
      rewrite ET' in *.
      assert (List.length (concat outs') = List.length (concat calls')) as Lo'.
      { rewrite !map_app in EL'. apply app_inj_tail in EL'. destruct EL' as [EL' _]. clear - EL'. revert calls' EL'. induction outs' as [|o outs' IH]; intros [|c0 calls'] EL'; try discriminate EL'; [reflexivity|].
        cbn in *. rewrite !app_length. rewrite (IH calls') by congruence. f_equal. congruence. }
      assert (concat outs' ++ firstn (List.length buf') (fst y) = firstn (List.length T) (concat outs' ++ fst y)) as EOUT'.
      { rewrite <- LT, <- C', app_length, firstn_app, Lo'. rewrite (@firstn_all2 _ _ (concat outs')) by (rewrite Lo'; apply Nat.le_add_r). now rewrite Nat.add_comm, Nat.add_sub. }
      assert (k' = k) as -> by (rewrite EZ, app_length in Hk'; rewrite app_length in Hk; unfold bytes in *; nia).
      assert (firstn (List.length T) (concat outs' ++ fst y) = T) as FIN.
      { assert (concat outs' ++ fst y = fst (cfb_fun (cipher key) seg false k reg (concat chunks' ++ z buf'))) as -> by (rewrite concat_app in EC2; cbn [concat] in EC2; rewrite app_nil_r in EC2; exact EC2).
        rewrite (cfb_prefix (cipher key) seg OE Hs k reg (concat chunks' ++ z buf') CT (List.length T) Hreg).
        - rewrite INV. cbn [fst]. rewrite firstn_app, Nat.sub_diag, firstn_O, app_nil_r. apply firstn_all.
        - apply Forall_app. split; [rewrite HC'; exact WcT|apply zeros_wf].
        - exact WC.
        - exact Hk'.
        - rewrite LCT. exact Hk.
        - rewrite <- LT at 1. rewrite firstn_app, Nat.sub_diag, firstn_O, app_nil_r, firstn_all. exact HC'. }
      unfold feed_and_flush. rewrite A'. cbn [bind fst snd]. unfold feeder_feed. cbn [f_buffer negb]. rewrite (final_cfb iv n) by assumption. fold (z buf'). rewrite Q'. cbn [bind fst snd].
      rewrite ztake_firstn. unfold zlen at 1. rewrite Nat2Z.id. now rewrite EOUT', FIN.
  Qed.
  Theorem feeders_roundtrip chunks : Forall wf_bytes chunks -> Forall (fun c => c <> []) chunks ->
    exists c, feed_and_flush true (feeder_init true a m) chunks = Ok c /\
      forall chunks', Forall (fun c => c <> []) chunks' -> concat chunks' = c -> feed_and_flush true (feeder_init false a m) chunks' = Ok (concat chunks).
  Proof.
    intros HW HN.
    assert (is_block \/ is_stream \/ exists iv n, args = NewCFB iv n) as [H|[H|(iv & n & H)]].
    { unfold is_block, is_stream. destruct args as [|iv|iv n|iv|v]; [left|left|right; right; eauto|right; left|right; left]; exact I. }
    - now apply feeders_block.
    - now apply feeders_stream.
    - now apply (feeders_cfb iv n).
  Qed.
End Roundtrip.
