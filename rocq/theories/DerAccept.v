(** What the decoders of DerModel.v accept. *)
From Coq Require Import ZArith List Lia Bool.
From Verif Require Import PyBase PyVal UtilModel Base58Proofs DerModel DerProofs DerSpec.
Import ListNotations.
Open Scope list_scope.
Open Scope Z_scope.

Lemma byte_top x : is_byte x -> Z.land x 128 = (if x <? 128 then 0 else 128) /\ Z.land x 127 = if x <? 128 then x else x - 128.
Proof. intro B. destruct (byte_bits x B) as (L & H). destruct (Z.ltb_spec x 128) as [Q|Q]; [destruct (L Q) as (A & C & _)|destruct (H Q) as (A & C)]; now split. Qed.
Lemma be_val_nonneg s : wf_bytes s -> 0 <= be_val s. Proof. intro W. apply (be_val_bound s W). Qed.
Lemma read_length_iff s l k : wf_bytes s -> read_length s = Ok (l, k) <-> exists h rest, s = h ++ rest /\ zlen h = k /\ length_octets h l.
Proof.
  intro W. split.
  - unfold read_length. destruct s as [|num r]; [discriminate|]. pose proof (Forall_inv W) as B. destruct (byte_top num B) as (B3 & B4).
    destruct (Z.eqb_spec (Z.land num 128) 0) as [E|E].
    + intro H. assert (l = Z.land num 127 /\ k = 1) as (-> & ->) by (split; congruence). exists [num], r. split; [reflexivity|]. split; [reflexivity|].
      rewrite B3 in E. rewrite B4. destruct (Z.ltb_spec num 128); [|discriminate E]. apply length_short. unfold is_byte in B. lia.
    + destruct (Z.ltb_spec (zlen r) (Z.land num 127)) as [|L]; [discriminate|]. intro H. destruct (ztake (Z.land num 127) r) as [|x t] eqn:T; [discriminate|]. cbn [bytes_int bind] in H.
      assert (l = be_val (x :: t) /\ k = 1 + Z.land num 127) as (-> & ->) by (split; congruence). exists (num :: x :: t), (zdrop (Z.land num 127) r).
      assert (r = (x :: t) ++ zdrop (Z.land num 127) r) as Er by (rewrite <- T; symmetry; apply ztake_zdrop).
      assert (zlen (x :: t) = Z.land num 127) as Z1. { rewrite <- T, zlen_ztake; [lia|]. rewrite B4. destruct (Z.ltb_spec num 128); lia. }
      split; [cbn [app]; f_equal; exact Er|]. split; [rewrite zlen_cons, Z1; reflexivity|].
      rewrite B4 in Z1. destruct (Z.ltb_spec num 128) as [Q|Q]; [exfalso; apply E; rewrite B3; destruct (Z.ltb_spec num 128); lia|].
      assert (num = 128 + zlen (x :: t)) as -> by lia. apply length_long. pose proof (zlen_nonneg t). rewrite zlen_cons in *. unfold is_byte in B. lia.
  - intros (h & rest & -> & <- & L). destruct L as [n B|ds B].
    + cbn [app]. unfold read_length. assert (is_byte n) as Bn by (unfold is_byte; lia). destruct (byte_top n Bn) as (B3 & B4). rewrite B3, B4. destruct (Z.ltb_spec n 128); [|lia]. reflexivity.
    + cbn [app]. unfold read_length. assert (is_byte (128 + zlen ds)) as Bn by (unfold is_byte; lia). destruct (byte_top _ Bn) as (B3 & B4). rewrite B3, B4.
      destruct (Z.ltb_spec (128 + zlen ds) 128); [lia|]. change (128 =? 0) with false. cbv iota. replace (128 + zlen ds - 128) with (zlen ds) by lia.
      rewrite zlen_app. pose proof (zlen_nonneg rest). destruct (Z.ltb_spec (zlen ds + zlen rest) (zlen ds)); [lia|]. rewrite ztake_app_exact by reflexivity.
      destruct ds as [|x t]; [cbn in B; lia|]. cbn [bytes_int bind]. rewrite (zlen_cons (128 + zlen (x :: t))). reflexivity.
Qed.

Lemma wf_app_r a b : wf_bytes (a ++ b) -> wf_bytes b. Proof. intro W. now apply Forall_app in W. Qed.
Lemma length_pos h l : wf_bytes h -> length_octets h l -> 0 <= l.
Proof. intros W L. destruct L as [n B|ds B]; [lia|]. apply be_val_nonneg. inversion W; assumption. Qed.
Lemma body_rest_iff tag s c rest : wf_bytes s -> body_rest (tag :: s) = Ok (c, rest) <-> tlv tag c rest (tag :: s) \/ (rest = [] /\ cut_tlv tag c (tag :: s)).
Proof.
  intro W. unfold body_rest. assert (zdrop 1 (tag :: s) = s) as -> by (destruct s; reflexivity). split.
  - destruct (read_length s) as [[l k]|] eqn:R; cbn [bind fst snd]; [|discriminate]. intro H. apply read_length_iff in R; [|exact W]. destruct R as (h & r & -> & <- & L).
    pose proof (length_pos h l (proj1 (proj1 (Forall_app _ _ _) W)) L) as Pl. pose proof (zlen_nonneg h) as Ph.
    assert (slice (1 + zlen h) (1 + zlen h + l) (tag :: h ++ r) = ztake l r) as E1. { unfold slice. replace (1 + zlen h + l - (1 + zlen h)) with l by lia. f_equal. change (tag :: h ++ r) with ((tag :: h) ++ r). apply zdrop_app_exact. now rewrite zlen_cons. }
    assert (zdrop (1 + zlen h + l) (tag :: h ++ r) = zdrop l r) as E2. { change (tag :: h ++ r) with ((tag :: h) ++ r). rewrite zdrop_app_ge by (rewrite zlen_cons; lia). f_equal. rewrite zlen_cons. lia. }
    rewrite E1, E2 in H. assert (c = ztake l r /\ rest = zdrop l r) as (-> & ->) by (split; congruence).
    destruct (Z.le_gt_cases l (zlen r)) as [Q|Q].
    + left. exists h. rewrite zlen_ztake by exact Pl. rewrite Z.min_l by exact Q. split; [exact L|]. now rewrite ztake_zdrop.
    + right. rewrite zdrop_all by lia. split; [reflexivity|]. exists h, l. rewrite ztake_all by lia. split; [exact L|]. split; [exact Q|reflexivity].
  - assert (forall h l r, s = h ++ r -> length_octets h l -> read_length s = Ok (l, zlen h)) as K by (intros h l r E L; apply read_length_iff; [exact W|]; exists h, r; auto).
    intros [(h & L & E)|(-> & h & n & L & Q & E)]; pose proof (f_equal (@tl Z) E) as E'; cbn [tl] in E'; clear E.
    + rewrite (K h (zlen c) (c ++ rest) E' L). cbn [bind fst snd]. rewrite E'. f_equal. f_equal; [|].
      * change (tag :: h ++ c ++ rest) with ((tag :: h) ++ c ++ rest). apply slice_app_mid; rewrite zlen_cons; lia.
      * replace (tag :: h ++ c ++ rest) with ((tag :: h ++ c) ++ rest) by (cbn [app]; now rewrite <- app_assoc). apply zdrop_app_exact. rewrite zlen_cons, zlen_app. lia.
    + rewrite (K h n c E' L). cbn [bind fst snd]. rewrite E'. pose proof (zlen_nonneg h). f_equal. f_equal.
      * unfold slice. change (tag :: h ++ c) with ((tag :: h) ++ c). rewrite zdrop_app_exact by (rewrite zlen_cons; lia). apply ztake_all. lia.
      * apply zdrop_all. rewrite zlen_cons, zlen_app. lia.
Qed.
Lemma tlv_hd tag c rest s : tlv tag c rest s -> exists s', s = tag :: s'.
Proof. intros (h & _ & ->). eauto. Qed.
Lemma cut_hd tag c s : cut_tlv tag c s -> exists s', s = tag :: s'.
Proof. intros (h & n & _ & _ & ->). eauto. Qed.
Lemma tagged_iff tag s c rest : wf_bytes s -> (let! _ := expect tag s in body_rest s) = Ok (c, rest) <-> tlv tag c rest s \/ (rest = [] /\ cut_tlv tag c s).
Proof.
  intro W. destruct s as [|x s]; cbn [expect bind].
  - split; [discriminate|]. intros [(h & _ & E)|(_ & h & n & _ & _ & E)]; discriminate E.
  - destruct (Z.eqb_spec x tag) as [->|N]; cbn [bind]; [apply body_rest_iff; now inversion W|]. split; [discriminate|].
    intros [(h & _ & E)|(_ & h & n & _ & _ & E)]; congruence.
Qed.
Lemma tlv_wf tag c rest s : wf_bytes s -> tlv tag c rest s -> wf_bytes c /\ wf_bytes rest.
Proof. intros W (h & _ & ->). inversion W as [|? ? _ W']; subst. apply wf_app_r in W'. now apply Forall_app. Qed.
Lemma cut_wf tag c s : wf_bytes s -> cut_tlv tag c s -> wf_bytes c.
Proof. intros W (h & n & _ & _ & ->). inversion W as [|? ? _ W']; subst. now apply wf_app_r in W'. Qed.
Lemma remove_integer_iff s v rest : wf_bytes s -> remove_integer s = Ok (v, rest) <->
  exists c, (tlv 2 c rest s \/ (rest = [] /\ cut_tlv 2 c s)) /\ integer_octets c v /\ 0 <= v.
Proof.
  intro W. unfold remove_integer.
  assert (forall c, tlv 2 c rest s \/ (rest = [] /\ cut_tlv 2 c s) -> wf_bytes c) as Wc by (intros c [T|(_ & T)]; [now destruct (tlv_wf _ _ _ _ W T)|exact (cut_wf _ _ _ W T)]).
  pose proof (fun c => tagged_iff 2 s c rest W) as K. destruct (expect 2 s) as [u|e]; cbn [bind] in *.
  2: { split; [discriminate|]. intros (c & T & _). apply K in T. discriminate T. }
  destruct (body_rest s) as [[c r]|]; cbn [bind fst snd].
  2: { split; [discriminate|]. intros (c & T & _). apply K in T. discriminate T. }
  split.
  - destruct c as [|x c]; [discriminate|]. destruct (Z.ltb_spec x 128) as [B|]; cbn [negb bytes_int bind]; [|discriminate]. intro H. assert (v = be_val (x :: c) /\ r = rest) as (-> & ->) by (split; congruence).
    exists (x :: c). assert (tlv 2 (x :: c) rest s \/ (rest = [] /\ cut_tlv 2 (x :: c) s)) as T by (now apply K). split; [exact T|]. pose proof (Wc _ T) as Wx. split; [|now apply be_val_nonneg].
    apply integer_nonnegative. pose proof (Forall_inv Wx) as Bx. unfold is_byte in Bx. lia.
  - intros (c' & T & I & P). pose proof (Wc _ T) as Wx. pose proof (proj2 (K _) T) as T'. assert (c = c' /\ r = rest) as (-> & ->) by (split; congruence).
    destruct I as [x c' B|x c' B].
    + destruct (Z.ltb_spec x 128); [|lia]. reflexivity.
    + pose proof (be_val_bound (x :: c') Wx). lia.
Qed.

Lemma tlv_not_nil tag c rest : ~ tlv tag c rest []. Proof. intros (h & _ & E). discriminate E. Qed.
Lemma cut_not_nil tag c : ~ cut_tlv tag c []. Proof. intros (h & n & _ & _ & E). discriminate E. Qed.
Theorem sigdecode_der_iff sig r s : wf_bytes sig -> sigdecode_der sig = Ok (r, s) <-> cut_signature_octets r s sig /\ 0 <= r /\ 0 <= s.
Proof.
  intro W. unfold sigdecode_der, remove_sequence. pose proof (fun c rest => tagged_iff 48 sig c rest W) as K.
  assert (forall c rest, tlv 48 c rest sig \/ (rest = [] /\ cut_tlv 48 c sig) -> wf_bytes c) as Wc by (intros c rest [T|(_ & T)]; [now destruct (tlv_wf _ _ _ _ W T)|exact (cut_wf _ _ _ W T)]).
  split.
  - destruct (let! _ := expect 48 sig in body_rest sig) as [[body x]|] eqn:E; cbn [bind fst snd]; [|discriminate]. destruct x; [|discriminate].
    pose proof (proj1 (K body []) eq_refl) as T. pose proof (Wc _ _ T) as Wb.
    destruct (remove_integer body) as [[r' b]|] eqn:R; cbn [bind fst snd]; [|discriminate]. apply remove_integer_iff in R; [|exact Wb]. destruct R as (cr & Tr & Ir & Pr).
    destruct (remove_integer b) as [[s' j]|] eqn:S; cbn [bind fst snd]; [|discriminate]. destruct j; [|discriminate]. intro H. assert (r' = r /\ s' = s) as (-> & ->) by (split; congruence).
    destruct Tr as [Tr|(-> & _)]; [|discriminate S]. apply remove_integer_iff in S; [|now destruct (tlv_wf _ _ _ _ Wb Tr)]. destruct S as (cs & Ts & Is & Ps).
    split; [|now split]. exists body, cr, cs, b. split; [tauto|]. split; [exact Tr|]. split; [tauto|]. now split.
  - intros ((body & cr & cs & b & T & Tr & Ts & Ir & Is) & Pr & Ps). assert (tlv 48 body [] sig \/ ([] = @nil Z /\ cut_tlv 48 body sig)) as T' by tauto.
    pose proof (Wc _ _ T') as Wb. rewrite (proj2 (K body []) T'). cbn [bind fst snd].
    assert (remove_integer body = Ok (r, b)) as ->. { apply remove_integer_iff; [exact Wb|]. exists cr. auto. } cbn [bind fst snd].
    assert (remove_integer b = Ok (s, [])) as ->. { apply remove_integer_iff; [now destruct (tlv_wf _ _ _ _ Wb Tr)|]. exists cs. tauto. } reflexivity.
Qed.

(** The liberal decoder reads the content as an unsigned number and ignores
    what follows. *)
Lemma ecc_remove_integer_iff s v rest : wf_bytes s -> ecc_remove_integer s = Ok (v, rest) <->
  exists c, (tlv 2 c rest s \/ (rest = [] /\ cut_tlv 2 c s)) /\ c <> [] /\ v = be_val c.
Proof.
  intro W. unfold ecc_remove_integer. destruct s as [|x s].
  - split; [discriminate|]. intros (c & [(h & _ & E)|(_ & h & n & _ & _ & E)] & _); discriminate E.
  - destruct (Z.eqb_spec x 2) as [->|N].
    + pose proof (fun c => body_rest_iff 2 s c rest ltac:(now inversion W)) as K. destruct (body_rest (2 :: s)) as [[c r]|]; cbn [bind fst snd].
      * split; [destruct c as [|y c]; cbn [bytes_int bind]; [discriminate|]; intro H; assert (v = be_val (y :: c) /\ r = rest) as (-> & ->) by (split; congruence)|].
        -- exists (y :: c). split; [now apply K|]. now split.
        -- intros (c' & T & N & ->). apply K in T. assert (c = c' /\ r = rest) as (-> & ->) by (split; congruence). destruct c'; [now elim N|reflexivity].
      * split; [discriminate|]. intros (c & T & _). apply K in T. discriminate T.
    + split; [discriminate|]. intros (c & [(h & _ & E)|(_ & h & n & _ & _ & E)] & _); congruence.
Qed.
Theorem ecc_sigdecode_der_iff sig r s : wf_bytes sig -> ecc_sigdecode_der sig = Ok (r, s) <->
  exists body cr cs rest junk1 junk2, (tlv 48 body junk1 sig \/ cut_tlv 48 body sig) /\ tlv 2 cr rest body /\ (tlv 2 cs junk2 rest \/ cut_tlv 2 cs rest) /\
    cr <> [] /\ cs <> [] /\ r = be_val cr /\ s = be_val cs.
Proof.
  intro W. unfold ecc_sigdecode_der, remove_sequence. pose proof (fun c rest => tagged_iff 48 sig c rest W) as K.
  assert (forall c rest, tlv 48 c rest sig \/ (rest = [] /\ cut_tlv 48 c sig) -> wf_bytes c) as Wc by (intros c rest [T|(_ & T)]; [now destruct (tlv_wf _ _ _ _ W T)|exact (cut_wf _ _ _ W T)]).
  split.
  - destruct (let! _ := expect 48 sig in body_rest sig) as [[body x]|] eqn:E; cbn [bind fst snd]; [|discriminate].
    pose proof (proj1 (K body x) eq_refl) as T. pose proof (Wc _ _ T) as Wb.
    destruct (ecc_remove_integer body) as [[r' b]|] eqn:R; cbn [bind fst snd]; [|discriminate]. apply ecc_remove_integer_iff in R; [|exact Wb]. destruct R as (cr & Tr & Nr & ->).
    destruct (ecc_remove_integer b) as [[s' j]|] eqn:S; cbn [bind fst snd]; [|discriminate]. intro H. assert (be_val cr = r /\ s' = s) as (<- & ->) by (split; congruence).
    destruct Tr as [Tr|(-> & _)]; [|discriminate S]. apply ecc_remove_integer_iff in S; [|now destruct (tlv_wf _ _ _ _ Wb Tr)]. destruct S as (cs & Ts & Ns & ->).
    exists body, cr, cs, b, x, j. split; [tauto|]. split; [exact Tr|]. split; [tauto|]. auto.
  - intros (body & cr & cs & b & x & j & T & Tr & Ts & Nr & Ns & -> & ->).
    assert (exists x', tlv 48 body x' sig \/ (x' = [] /\ cut_tlv 48 body sig)) as (x' & T') by (destruct T; [now exists x; left|now exists []; right]).
    pose proof (Wc _ _ T') as Wb. rewrite (proj2 (K body x') T'). cbn [bind fst snd].
    assert (ecc_remove_integer body = Ok (be_val cr, b)) as ->. { apply ecc_remove_integer_iff; [exact Wb|]. exists cr. auto. } cbn [bind fst snd].
    assert (exists j', tlv 2 cs j' b \/ (j' = [] /\ cut_tlv 2 cs b)) as (j' & Ts') by (destruct Ts; [now exists j; left|now exists []; right]).
    assert (ecc_remove_integer b = Ok (be_val cs, j')) as ->. { apply ecc_remove_integer_iff; [now destruct (tlv_wf _ _ _ _ Wb Tr)|]. exists cs. auto. } reflexivity.
Qed.
