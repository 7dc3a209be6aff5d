(** Proofs about PieceModel.v. *)
From Coq Require Import String ZArith List Lia Bool Permutation.
From Verif Require Import PyBase PyVal FormatModel Base58Model Base58Proofs DerModel DerProofs NtModel EcModel KeyModel KeySpec KeyProofs PieceModel.
Import ListNotations.
Open Scope string_scope.
Open Scope list_scope.
Open Scope Z_scope.

Lemma each_ok {A B} (f : A -> res B) l r : each f l = Ok r <-> Forall2 (fun a b => f a = Ok b) l r.
Proof.
  unfold each. revert r. induction l as [|a l IH]; intro r; cbn [map sequence].
  - split; [intro H; injection H as <-; constructor|intro H; inversion H; reflexivity].
  - split.
    + intro H. bind_inv H. bind_inv H. injection H as <-. constructor; [assumption|]. now apply IH.
    + intro H. inversion H as [|? b ? r' E F]; subst. rewrite E. cbn [bind]. apply IH in F. rewrite F. reflexivity.
Qed.
Lemma each_total {A B} (f : A -> res B) (g : A -> B) l : (forall a, In a l -> f a = Ok (g a)) -> each f l = Ok (map g l).
Proof. intro H. apply each_ok. induction l as [|a l IH]; [constructor|]. cbn [map]. constructor; [apply H; now left|]. apply IH. intros b Hb. apply H. now right. Qed.
Lemma each_perm {A B} (f : A -> res B) l l' r : Permutation l l' -> each f l = Ok r -> exists r', each f l' = Ok r' /\ Permutation r r'.
Proof.
  intros P E. apply each_ok in E. revert r E. induction P as [|x l l' P IH|x y l|l l' l'' P IH P' IH']; intros r E.
  - inversion E; subst. exists []. split; [reflexivity|constructor].
  - inversion E as [|? b ? r0 Eb F]; subst. destruct (IH _ F) as (r' & E' & Pr). exists (b :: r'). split; [|now constructor]. apply each_ok. constructor; [exact Eb|now apply each_ok].
  - inversion E as [|? b ? r0 Eb F]; subst. inversion F as [|? c ? r1 Ec G]; subst. exists (c :: b :: r1). split; [|constructor]. apply each_ok. repeat constructor; assumption.
  - destruct (IH _ E) as (r' & E' & Pr). apply each_ok in E'. destruct (IH' _ E') as (r'' & E'' & Pr'). exists r''. split; [exact E''|]. now transitivity r'.
Qed.
Lemma forall2_len {A B} (R : A -> B -> Prop) l r : Forall2 R l r -> List.length l = List.length r.
Proof. induction 1; cbn [List.length]; congruence. Qed.
Lemma zsum_app a b : zsum (a ++ b) = zsum a + zsum b. Proof. induction a as [|x a IH]; [reflexivity|]. cbn [app zsum fold_right]. fold (zsum (a ++ b)). fold (zsum a). lia. Qed.
Lemma zsum_perm a b : Permutation a b -> zsum a = zsum b. Proof. unfold zsum. induction 1; cbn [fold_right]; lia. Qed.

Section Shares.
  Variable sha256 : bytes -> bytes.
  Hypothesis Hsha : forall d, wf_bytes (sha256 d) /\ zlen (sha256 d) = 32.
  Variable cv : curve_info.
  Hypothesis Hord : 1 < cv_order cv.
  Hypothesis Hlen : cv_baselen cv = 32.
  Notation order := (cv_order cv).
  Let sha_len x : 4 <= zlen (sha256 x). Proof. destruct (Hsha x). lia. Qed.
  Let sha_wf x : wf_bytes (sha256 x). Proof. apply Hsha. Qed.
  (** The WIF text [w] of the number [d]. *)
  Definition reads (w : bytes) (d : Z) : Prop := exists k, privkey_from_wif sha256 w 0x80 = Ok k /\ octets32 k d.
  Definition wif (d : Z) : bytes := privkey_to_wif sha256 (be_bytes 32 d) [0x80].
  Lemma order_256 : order < 256 ^ 32. Proof. destruct (orderlen_spec order ltac:(lia)) as (_ & B & _). unfold cv_baselen in Hlen. now rewrite Hlen in B. Qed.
  Lemma octets_32 d : 0 <= d < 256 ^ 32 -> octets32 (be_bytes 32 d) d. Proof. apply octets_of. Qed.
  Lemma text_of_number d : 0 <= d < order -> number_to_string d order = Ok (be_bytes 32 d).
  Proof.
    intro H. pose proof order_256. rewrite number_to_string_spec by lia. unfold cv_baselen in Hlen. rewrite Hlen. destruct (Z.ltb_spec d 0); [lia|]. destruct (Z.ltb_spec d (256 ^ 32)); [reflexivity|lia].
  Qed.
  Lemma reads_wif d : 0 <= d < 256 ^ 32 -> reads (wif d) d.
  Proof. intro H. exists (be_bytes 32 d). destruct (octets_32 d H) as (W & L & V). split; [|now repeat split]. now apply wif_roundtrip. Qed.
  Lemma reads_range w d : reads w d -> 0 <= d < 256 ^ 32.
  Proof. intros (k & _ & W & L & <-). pose proof (be_val_bound k W) as B. now rewrite L in B. Qed.
  Lemma reads_fun w d d' : reads w d -> reads w d' -> d = d'.
  Proof. intros (k & E & _ & _ & <-) (k' & E' & _ & _ & <-). congruence. Qed.
  Lemma reads_text w d : reads w d -> w = wif d \/ w = privkey_to_wif sha256 (be_bytes 32 d ++ [1]) [0x80].
  Proof.
    intros (k & E & W & L & <-). apply (wif_inverse sha256 sha_len) in E. destruct E as (_ & _ & E). unfold wif.
    assert (be_bytes 32 (be_val k) = k) as ->; [|exact E]. rewrite <- (be_bytes_be_val k W) at 2. f_equal. unfold zlen in L. lia.
  Qed.
  Lemma reads_ok w k : privkey_from_wif sha256 w 0x80 = Ok k -> reads w (be_val k) /\ string_to_number k = Ok (be_val k).
  Proof.
    intro E. pose proof (wif_inverse sha256 sha_len w k E) as (W & L & _). split; [exists k; now repeat split|]. apply string_to_number_spec. intros ->. discriminate L.
  Qed.
  Lemma combine_spec ws ds : Forall2 reads ws ds -> combine_private_keys sha256 cv ws = Ok (wif (zsum ds mod order)).
  Proof.
    intro F. assert (exists ks, each (fun k => privkey_from_wif sha256 k 0x80) ws = Ok ks /\ each string_to_number ks = Ok ds) as (ks & E1 & E2).
    { induction F as [|w d ws ds (k & E & W & L & V) F (ks & E1 & E2)]; [exists []; now split|]. exists (k :: ks). apply each_ok in E1, E2. split; apply each_ok; constructor; try assumption.
      rewrite string_to_number_spec by (intros ->; discriminate L). now rewrite V. }
    unfold combine_private_keys. rewrite E1. cbn [bind]. rewrite E2. cbn [bind]. cbv zeta. rewrite text_of_number by (apply Z.mod_pos_bound; lia). reflexivity.
  Qed.
  Lemma combine_inv ws r : combine_private_keys sha256 cv ws = Ok r -> exists ds, Forall2 reads ws ds /\ r = wif (zsum ds mod order).
  Proof.
    intro H. pose proof H as H'. unfold combine_private_keys in H. bind_inv H. rename H0 into E. apply each_ok in E. assert (exists ds, Forall2 reads ws ds) as (ds & F).
    { clear - E Hsha sha_len. induction E as [|w k ws ks E F (ds & IH)]; [exists []; constructor|]. exists (be_val k :: ds). constructor; [now apply reads_ok|exact IH]. }
    exists ds. split; [exact F|]. rewrite (combine_spec ws ds F) in H'. congruence.
  Qed.
  (** The shares of a key: numbers below the order, all but the last of them
      drawn, that add up to the key. *)
  Definition shares (d count : Z) (draw : nat -> nat -> Z -> bytes) (ds : list Z) : Prop :=
    exists rs, each (fun i => randrange order (draw i)) (upto (count - 1)) = Ok rs /\ ds = rs ++ [(d - zsum rs) mod order].
  Lemma shares_facts d count draw ds : shares d count draw ds -> zsum ds mod order = d mod order /\ zlen ds = Z.max 1 count /\ ds <> [].
  Proof.
    intros (rs & E & ->). rewrite zsum_app. cbn [zsum fold_right]. split.
    - rewrite Z.add_0_r. rewrite Zplus_mod_idemp_r. f_equal. lia.
    - split; [|intro B; now apply app_eq_nil in B]. apply each_ok in E. rewrite zlen_app. change (zlen [(d - zsum rs) mod order]) with 1. apply forall2_len in E. unfold upto in E. rewrite seq_length in E. unfold zlen. lia.
  Qed.
  Lemma shares_range d count draw ds : (forall i k, randrange order (draw i) = Ok k -> 1 <= k < order) -> shares d count draw ds -> Forall (fun e => 0 <= e < order) ds.
  Proof.
    intros R (rs & E & ->). apply each_ok in E. apply Forall_app. split; [|constructor; [apply Z.mod_pos_bound; lia|constructor]]. clear - E R.
    induction E as [|i k l rs E F IH]; [constructor|]. constructor; [apply R in E; lia|exact IH].
  Qed.
  Lemma split_spec w d count draw ws : reads w d -> (forall i k, randrange order (draw i) = Ok k -> 1 <= k < order) ->
    split_private_key sha256 cv true w count draw = Ok ws <-> exists ds, shares d count draw ds /\ ws = map wif ds.
  Proof.
    intros (k & E & W & L & V) R. unfold split_private_key. rewrite E. cbn [bind]. rewrite string_to_number_spec by (intros ->; discriminate L). cbn [bind negb]. rewrite V.
    assert (forall rs, each (fun i => randrange order (draw i)) (upto (count - 1)) = Ok rs -> each (fun s => number_to_string s order) (rs ++ [(d - zsum rs) mod order]) = Ok (map (be_bytes 32) (rs ++ [(d - zsum rs) mod order]))) as N.
    { intros rs Er. apply each_total. intros s Hs. apply text_of_number. assert (shares d count draw (rs ++ [(d - zsum rs) mod order])) as Sh by (exists rs; now split). apply (shares_range _ _ _ _ R) in Sh. rewrite Forall_forall in Sh. now apply Sh. }
    split.
    - intro H. bind_inv H. cbv zeta in H. rewrite (N _ H0) in H. cbn [bind] in H. injection H as <-. eexists. split; [exists x; split; [exact H0|reflexivity]|]. rewrite map_map. reflexivity.
    - intros (ds & (rs & Er & ->) & ->). rewrite Er. cbn [bind]. cbv zeta. rewrite (N _ Er). cbn [bind]. now rewrite map_map.
  Qed.
  Lemma reads_wifs ds : Forall (fun e => 0 <= e < order) ds -> Forall2 reads (map wif ds) ds.
  Proof. pose proof order_256. induction 1 as [|e ds He F IH]; [constructor|]. constructor; [|exact IH]. apply reads_wif. lia. Qed.

  (** ** Partial keys *)
  Section Partial.
  (** The number of keys of a set and the checksum of the key. *)
  Variables (required : Z) (c : bytes).
  Hypothesis Hreq : 0 <= required < 256.
  Hypothesis Hc : wf_bytes c /\ zlen c = 4.
  Definition raw (i : nat) (s : bytes) : bytes := [0x10; 0x01] ++ [Z.of_nat i] ++ [required] ++ c ++ s.
  (** The text of the partial key with the number [e] of the set [i]. *)
  Definition ptext (p : nat * Z) : bytes := encode_check sha256 (raw (fst p) (be_bytes 32 (snd p))).
  Definition fits (p : nat * Z) : Prop := (fst p < 256)%nat /\ 0 <= snd p < 256 ^ 32.
  Lemma raw_wf i s : (i < 256)%nat -> wf_bytes s -> wf_bytes (raw i s).
  Proof. intros Hi W. unfold raw. do 2 (constructor; [unfold is_byte; lia|]). constructor; [unfold is_byte; lia|]. constructor; [exact Hreq|]. apply wf_bytes_app. now split. Qed.
  Lemma ptext_decode p : fits p -> decode_check sha256 (ptext p) = Ok (Some (raw (fst p) (be_bytes 32 (snd p)))).
  Proof. intros (Hi & He). apply check_roundtrip; [exact sha_len|exact sha_wf|]. apply raw_wf; [exact Hi|apply wf_be_bytes]. Qed.
  Lemma raw_inj i s j t : raw i s = raw j t -> i = j /\ s = t.
  Proof. unfold raw. cbn [app]. intro E. injection E as E1 E2. split; [lia|]. now apply app_inv_head in E2. Qed.
  Lemma be32_inj e f : 0 <= e < 256 ^ 32 -> 0 <= f < 256 ^ 32 -> be_bytes 32 e = be_bytes 32 f -> e = f.
  Proof. intros He Hf E. destruct (octets_32 e He) as (_ & _ & <-), (octets_32 f Hf) as (_ & _ & <-). now rewrite E. Qed.
  Lemma ptext_inj p q : fits p -> fits q -> ptext p = ptext q -> p = q.
  Proof.
    intros Hp Hq E. pose proof (ptext_decode p Hp) as D. rewrite E, (ptext_decode q Hq) in D. assert (raw (fst p) (be_bytes 32 (snd p)) = raw (fst q) (be_bytes 32 (snd q))) as D' by congruence. clear D. apply raw_inj in D'. destruct D' as (D1 & D2), p as [i e], q as [j f], Hp as (? & He), Hq as (? & Hf). cbn [fst snd] in *. apply be32_inj in D2; [|assumption|assumption]. congruence.
  Qed.
  (** What the loop over the keys collects. *)
  Definition collected (ks : list (nat * Z)) (parts : list (Z * list bytes)) : Prop :=
    NoDup (map fst parts) /\ (forall i s, In (i, s) parts -> NoDup s /\ forall x, In x s <-> exists k e, In (k, e) ks /\ i = Z.of_nat k /\ x = be_bytes 32 e) /\ (forall k e, In (k, e) ks -> In (Z.of_nat k) (map fst parts)).
  Lemma set_add_in x s : forall y, In y (set_add x s) <-> y = x \/ In y s.
  Proof.
    intro y. unfold set_add. destruct (existsb (bytes_eqb x) s) eqn:E.
    - apply existsb_exists in E. destruct E as (z & Hz & E). destruct (bytes_eqb_spec x z) as [->|]; [|discriminate]. split; [now right|]. intros [->|H]; assumption.
    - rewrite in_app_iff. cbn [In]. split; [intros [H|[<-|[]]]; auto|intros [->|H]; auto].
  Qed.
  Lemma set_add_nodup x s : NoDup s -> NoDup (set_add x s).
  Proof.
    intro N. unfold set_add. destruct (existsb (bytes_eqb x) s) eqn:E; [exact N|]. apply (Permutation_NoDup (Permutation_cons_append s x)). constructor; [|exact N]. intro H.
    assert (existsb (bytes_eqb x) s = true) as B; [|congruence]. apply existsb_exists. exists x. split; [exact H|]. destruct (bytes_eqb_spec x x); congruence.
  Qed.
  Lemma parts_fst i x parts : forall j, In j (map fst (parts_add i x parts)) <-> j = i \/ In j (map fst parts).
  Proof.
    intro j. induction parts as [|(k & s) parts IH]; cbn [parts_add]; [cbn; intuition congruence|]. destruct (Z.eqb_spec k i) as [->|N]; cbn [map fst In]; [|rewrite IH]; intuition congruence.
  Qed.
  Lemma parts_nodup i x parts : NoDup (map fst parts) -> NoDup (map fst (parts_add i x parts)).
  Proof.
    induction parts as [|(k & s) parts IH]; cbn [parts_add map fst]; intro N; [repeat constructor; intros []|]. inversion N as [|? ? N1 N2]; subst. destruct (Z.eqb_spec k i) as [->|Nk]; cbn [map fst]; [now constructor|]. constructor; [|now apply IH].
    rewrite parts_fst. intros [B|B]; contradiction.
  Qed.
  Lemma parts_in i x parts j s : NoDup (map fst parts) -> In (j, s) (parts_add i x parts) <->
    (j = i /\ (exists s0, In (i, s0) parts /\ s = set_add x s0)) \/ (j = i /\ ~ In i (map fst parts) /\ s = [x]) \/ (j <> i /\ In (j, s) parts).
  Proof.
    induction parts as [|(k & t) parts IH]; cbn [parts_add map fst]; intro N.
    - cbn. split.
      + intros [E|[]]. injection E as <- <-. right. left. auto.
      + intros [(_ & s0 & [] & _)|[(-> & _ & ->)|(_ & [])]]. now left.
    - inversion N as [|? ? N1 N2]; subst. specialize (IH N2). destruct (Z.eqb_spec k i) as [->|Nk].
      + cbn [In]. split.
        * intros [E|H]; [injection E as <- <-; left; split; [reflexivity|]; exists t; split; [now left|reflexivity]|].
          right. right. split; [|now right]. intros ->. apply N1. apply (in_map fst) in H. exact H.
        * intros [(-> & s0 & [E|H] & ->)|[(-> & B & _)|(Nj & [E|H])]]; [injection E as <-; now left|exfalso; apply N1; now apply (in_map fst) in H|exfalso; apply B; now left|injection E as <- _; congruence|now right].
      + cbn [In]. rewrite IH. split.
        * intros [E|[(-> & s0 & H & ->)|[(-> & B & ->)|(Nj & H)]]].
          -- injection E as <- <-. right. right. split; [exact Nk|now left].
          -- left. split; [reflexivity|]. exists s0. split; [now right|reflexivity].
          -- right. left. split; [reflexivity|]. split; [|reflexivity]. intros [E|H]; contradiction.
          -- right. right. split; [exact Nj|now right].
        * intros [(-> & s0 & [E|H] & ->)|[(-> & B & ->)|(Nj & [E|H])]].
          -- injection E as E1 _. contradiction.
          -- right. left. split; [reflexivity|]. now exists s0.
          -- right. right. left. split; [reflexivity|]. split; [|reflexivity]. intro H. apply B. now right.
          -- left. exact E.
          -- right. right. right. now split.
  Qed.
  Lemma collected_add ks parts i e : fits (i, e) -> collected ks parts -> collected (ks ++ [(i, e)]) (parts_add (Z.of_nat i) (be_bytes 32 e) parts).
  Proof.
    intros Hf (N & C1 & C2). split; [now apply parts_nodup|]. split.
    - intros j s H. apply (parts_in _ _ _ _ _ N) in H. destruct H as [(-> & s0 & H & ->)|[(-> & B & ->)|(Nj & H)]].
      + destruct (C1 _ _ H) as (N0 & I0). split; [now apply set_add_nodup|]. intro x. rewrite set_add_in, I0. split.
        * intros [->|(k & f & Hk & Ek & ->)]; [exists i, e; split; [apply in_or_app; right; now left|auto]|exists k, f; split; [apply in_or_app; now left|auto]].
        * intros (k & f & Hk & Ek & ->). apply in_app_or in Hk. destruct Hk as [Hk|[E|[]]]; [right; exists k, f; auto|left; congruence].
      + split; [repeat constructor; intros []|]. intro x. cbn [In]. split.
        * intros [<-|[]]. exists i, e. split; [apply in_or_app; right; now left|auto].
        * intros (k & f & Hk & Ek & ->). left. apply in_app_or in Hk. destruct Hk as [Hk|[E|[]]]; [|congruence]. exfalso. apply B. rewrite Ek. now apply (C2 k f).
      + destruct (C1 _ _ H) as (N0 & I0). split; [exact N0|]. intro x. rewrite I0. split.
        * intros (k & f & Hk & Ek & ->). exists k, f. split; [apply in_or_app; now left|auto].
        * intros (k & f & Hk & Ek & ->). apply in_app_or in Hk. destruct Hk as [Hk|[E|[]]]; [exists k, f; auto|]. exfalso. apply Nj. congruence.
    - intros k f Hk. apply parts_fst. apply in_app_or in Hk. destruct Hk as [Hk|[E|[]]]; [right; now apply (C2 k f)|left; congruence].
  Qed.
  Lemma gather_step ign ks p parts st : fits p -> collected ks parts -> st = (None, parts) \/ st = (Some (required, c), parts) ->
    exists parts', gather_key sha256 true ign st (ptext p) = Ok (Some (required, c), parts') /\ collected (ks ++ [p]) parts'.
  Proof.
    intros Hp C Hst. destruct p as [i e]. exists (parts_add (Z.of_nat i) (be_bytes 32 e) parts). split; [|now apply collected_add].
    unfold gather_key. rewrite (ptext_decode _ Hp). cbn [bind fst snd negb]. unfold raw. set (s := be_bytes 32 e).
    assert (ztake 2 ([16; 1] ++ [Z.of_nat i] ++ [required] ++ c ++ s) = [16; 1]) as -> by reflexivity. change (bytes_eqb [16; 1] [16; 1]) with true. cbn [negb]. unfold item. cbn [app nth_error bind].
    assert (slice 4 8 (16 :: 1 :: Z.of_nat i :: required :: c ++ s) = c) as ->. { unfold slice. assert (zdrop 4 ([16; 1; Z.of_nat i; required] ++ c ++ s) = c ++ s) as H4 by (apply zdrop_app_exact; reflexivity). cbn [app] in H4. rewrite H4. apply ztake_app_exact. destruct Hc. lia. }
    assert (zdrop 8 (16 :: 1 :: Z.of_nat i :: required :: c ++ s) = s) as ->. { assert (16 :: 1 :: Z.of_nat i :: required :: c ++ s = (16 :: 1 :: Z.of_nat i :: required :: c) ++ s) as -> by reflexivity. apply zdrop_app_exact. rewrite !zlen_cons. destruct Hc. lia. }
    destruct Hst as [-> | ->]; cbn [fst snd]; [reflexivity|]. rewrite Z.eqb_refl. destruct (bytes_eqb_spec c c); [|congruence]. reflexivity.
  Qed.
  Lemma gather_spec ign ks : Forall fits ks -> ks <> [] -> exists parts, gather sha256 true ign (map ptext ks) (None, []) = Ok (Some (required, c), parts) /\ collected ks parts.
  Proof.
    assert (forall ks done parts st, Forall fits ks -> ks <> [] -> collected done parts -> st = (None, parts) \/ st = (Some (required, c), parts) -> exists parts', gather sha256 true ign (map ptext ks) st = Ok (Some (required, c), parts') /\ collected (done ++ ks) parts') as L.
    { clear ks. induction ks as [|p ks IH]; intros done parts st F N C Hst; [congruence|]. inversion F as [|? ? Hp F']; subst. cbn [map gather]. destruct (gather_step ign done p parts st Hp C Hst) as (parts' & -> & C'). cbn [bind].
      destruct ks as [|q ks]; [exists parts'; now split|]. destruct (IH (done ++ [p]) parts' (Some (required, c), parts') F' ltac:(discriminate) C' ltac:(now right)) as (parts'' & E & C''). exists parts''. split; [exact E|]. now rewrite <- app_assoc in C''. }
    intros F N. apply (L ks [] [] (None, []) F N); [|now left]. split; [constructor|]. split; [intros i s []|intros k e []].
  Qed.
  Lemma values_of g es : Permutation g (map (be_bytes 32) es) -> Forall (fun e => 0 <= e < 256 ^ 32) es -> exists vs, each string_to_number g = Ok vs /\ zsum vs = zsum es.
  Proof.
    intros P F. assert (each string_to_number (map (be_bytes 32) es) = Ok es) as E.
    { apply each_ok. clear P. induction F as [|e es He F IH]; [constructor|]. cbn [map]. constructor; [|exact IH]. destruct (octets_32 e He) as (_ & L & V). rewrite string_to_number_spec by (intro B; rewrite B in L; discriminate L). now rewrite V. }
    destruct (each_perm string_to_number _ g _ (Permutation_sym P) E) as (vs & Ev & Pv). exists vs. split; [exact Ev|]. symmetry. now apply zsum_perm.
  Qed.
  Lemma complete_spec d gs : 0 <= d < order -> c = ztake 4 (sha256d sha256 (be_bytes 32 d)) ->
    (forall g, In g gs -> zlen g = required -> exists es, Permutation g (map (be_bytes 32) es) /\ Forall (fun e => 0 <= e < 256 ^ 32) es /\ zsum es mod order = d) ->
    complete sha256 cv required c gs = Ok (if existsb (fun g => zlen g =? required) gs then Some (wif d) else None).
  Proof.
    intros Hd Ec. induction gs as [|g gs IH]; intro H; [reflexivity|]. cbn [complete existsb]. destruct (Z.eqb_spec (zlen g) required) as [L|L]; [|apply IH; intros g' Hg'; apply H; now right].
    destruct (H g ltac:(now left) L) as (es & P & F & Es). destruct (values_of g es P F) as (vs & -> & Ev). cbn [bind orb]. cbv zeta. rewrite Ev, Es, (text_of_number d Hd). cbn [bind]. rewrite <- Ec. destruct (bytes_eqb_spec c c); [|congruence]. reflexivity.
  Qed.
  Section Table.
  Variables (total : nat) (table : nat -> list Z) (d : Z).
  Hypothesis Htot : (total <= 256)%nat.
  Hypothesis Hd : 0 <= d < order.
  Hypothesis Ec : c = ztake 4 (sha256d sha256 (be_bytes 32 d)).
  Hypothesis Hreq1 : 1 <= required.
  Hypothesis Ht : forall i, (i < total)%nat -> zlen (table i) = required /\ Forall (fun e => 0 <= e < 256 ^ 32) (table i) /\ zsum (table i) mod order = d.
  Definition of_table (p : nat * Z) : Prop := (fst p < total)%nat /\ In (snd p) (table (fst p)).
  Lemma of_table_fits p : of_table p -> fits p.
  Proof. intros (Hi & H). split; [lia|]. destruct (Ht _ Hi) as (_ & F & _). rewrite Forall_forall in F. now apply F. Qed.
  Lemma nodup_map es : Forall (fun e => 0 <= e < 256 ^ 32) es -> NoDup es -> NoDup (map (be_bytes 32) es).
  Proof.
    induction 1 as [|e es He F IH]; intro N; [constructor|]. inversion N as [|? ? N1 N2]; subst. cbn [map]. constructor; [|now apply IH]. intro B. apply in_map_iff in B. destruct B as (f & Ef & Hf). rewrite Forall_forall in F. apply be32_inj in Ef; [|now apply F|exact He]. now subst f.
  Qed.
  Lemma nodup_unmap es : NoDup (map (be_bytes 32) es) -> NoDup es. Proof. apply NoDup_map_inv. Qed.
  (** The keys of the set [i] are all there, and different. *)
  Definition whole (ks : list (nat * Z)) (i : nat) : Prop := (i < total)%nat /\ NoDup (table i) /\ forall e, In e (table i) -> In (i, e) ks.
  Lemma part_whole ks parts i s : Forall of_table ks -> collected ks parts -> In (i, s) parts -> zlen s = required -> exists k, i = Z.of_nat k /\ whole ks k /\ Permutation s (map (be_bytes 32) (table k)).
  Proof.
    intros F (N & C1 & _) H L. destruct (C1 i s H) as (Ns & Is). rewrite Forall_forall in F.
    assert (exists k e, In (k, e) ks /\ i = Z.of_nat k) as (k & e0 & Hk & ->). { destruct s as [|x s]; [change (zlen (@nil bytes)) with 0 in L; lia|]. destruct (proj1 (Is x) ltac:(now left)) as (k & e & Hk & Ek & _). now exists k, e. }
    pose proof (F _ Hk) as (Hk256 & _). cbn [fst] in Hk256. destruct (Ht k Hk256) as (Lt & Ft & _). exists k. split; [reflexivity|].
    assert (incl s (map (be_bytes 32) (table k))) as I. { intros x Hx. apply Is in Hx. destruct Hx as (k' & e & Hk' & E & ->). assert (k' = k) as -> by lia. destruct (F _ Hk') as (_ & H'). cbn [fst snd] in H'. now apply in_map. }
    assert (Permutation s (map (be_bytes 32) (table k))) as P. { apply NoDup_Permutation_bis; [exact Ns| |exact I]. rewrite map_length. unfold zlen in L, Lt. lia. }
    split; [|exact P]. split; [exact Hk256|]. split; [apply nodup_unmap; exact (Permutation_NoDup P Ns)|]. intros e He. assert (In (be_bytes 32 e) s) as H' by (apply (Permutation_in _ (Permutation_sym P)); now apply in_map).
    apply Is in H'. destruct H' as (k' & f & Hk' & E & Ef). assert (k' = k) as -> by lia. destruct (F _ Hk') as (_ & H'). cbn [fst snd] in H'. rewrite Forall_forall in Ft. apply be32_inj in Ef; [now subst|now apply Ft|now apply Ft].
  Qed.
  Lemma whole_part ks parts k : Forall of_table ks -> collected ks parts -> whole ks k -> exists s, In (Z.of_nat k, s) parts /\ zlen s = required.
  Proof.
    intros F (N & C1 & C2) (Hk & Nt & W). destruct (Ht k Hk) as (Lt & Ft & _). assert (exists e, In e (table k)) as (e & He). { destruct (table k) as [|e l]; [change (zlen (@nil Z)) with 0 in Lt; lia|]. exists e. now left. }
    pose proof (C2 k e (W e He)) as H. apply in_map_iff in H. destruct H as ((i & s) & Ei & H). cbn [fst] in Ei. subst i. exists s. split; [exact H|]. destruct (C1 _ _ H) as (Ns & Is).
    rewrite Forall_forall in F.
    assert (Permutation s (map (be_bytes 32) (table k))) as P.
    { apply NoDup_Permutation; [exact Ns|now apply nodup_map|]. intro x. rewrite Is, in_map_iff. split.
      - intros (k' & f & Hf & E & ->). assert (k' = k) as -> by lia. destruct (F _ Hf) as (_ & H'). now exists f.
      - intros (f & <- & Hf). exists k, f. auto. }
    apply Permutation_length in P. rewrite map_length in P. unfold zlen in *. lia.
  Qed.
  Lemma combine_exact ign arrange ks : (forall l, Permutation (arrange l) l) -> Forall of_table ks ->
    ((exists i, whole ks i) -> partial_combine_private_keys sha256 cv true arrange (map ptext ks) ign = Ok (Some (wif d))) /\
    ((~ exists i, whole ks i) -> partial_combine_private_keys sha256 cv true arrange (map ptext ks) ign = Ok None).
  Proof.
    intros Ha F. destruct ks as [|p ks].
    { split; [|reflexivity]. intros (i & Hi & _ & W). destruct (Ht i Hi) as (Lt & _). destruct (table i) as [|e l]; [change (zlen (@nil Z)) with 0 in Lt; lia|]. destruct (W e). now left. }
    destruct (gather_spec ign (p :: ks)) as (parts & E & C); [eapply Forall_impl; [|exact F]; exact of_table_fits|discriminate|]. unfold partial_combine_private_keys. rewrite E. cbn [bind fst snd].
    assert (forall g, In g (map snd (arrange parts)) <-> exists i, In (i, g) parts) as In'.
    { intro g. rewrite in_map_iff. split; [intros ((i & s) & <- & H); exists i; now apply (Permutation_in _ (Ha parts))|intros (i & H); exists (i, g); split; [reflexivity|]; now apply (Permutation_in _ (Permutation_sym (Ha parts)))]. }
    rewrite (complete_spec d); [|exact Hd|exact Ec|].
    - split.
      + intros (i & W). destruct (whole_part _ _ i F C W) as (s & H & L). assert (existsb (fun g => zlen g =? required) (map snd (arrange parts)) = true) as ->; [|reflexivity]. apply existsb_exists. exists s. split; [apply In'; now exists (Z.of_nat i)|]. now apply Z.eqb_eq.
      + intro NW. destruct (existsb _ _) eqn:B; [|reflexivity]. exfalso. apply NW. apply existsb_exists in B. destruct B as (s & H & L). apply Z.eqb_eq in L. apply In' in H. destruct H as (i & H). destruct (part_whole _ _ i s F C H L) as (k & _ & W & _). now exists k.
    - intros g H L. apply In' in H. destruct H as (i & H). destruct (part_whole _ _ i g F C H L) as (k & _ & (Hk & _) & P). destruct (Ht k Hk) as (_ & Ft & St). exists (table k). auto.
  Qed.
  End Table.
  End Partial.
  (** The groups of a split. *)
  Definition group (required : Z) (total : nat) (table : nat -> list Z) (i : nat) : list (nat * Z) :=
    map (fun j => ((i + j) mod total, nth j (table ((i + j) mod total)) 0%Z)%nat) (upto required).
  Lemma partial_encode_spec c required i e : wf_bytes c -> zlen c = 4 -> 0 <= e < 256 ^ 32 ->
    partial_encode_key sha256 c required i (wif e) = if ((i <? 256)%nat && ((0 <=? required) && (required <? 256)))%bool then Ok (ptext required c (i, e)) else Raise ValueError.
  Proof.
    intros Wc Lc He. destruct (reads_wif e He) as (k & E & O). unfold partial_encode_key. rewrite E. cbn [bind]. unfold chr. assert (0 <=? Z.of_nat i = true) as -> by (apply Z.leb_le; lia). cbn [andb].
    assert ((Z.of_nat i <? 256) = (i <? 256)%nat) as ->. { destruct (Nat.ltb_spec i 256), (Z.ltb_spec (Z.of_nat i) 256); try reflexivity; exfalso; lia. }
    destruct (i <? 256)%nat; [|reflexivity]. cbn [bind andb]. destruct ((0 <=? required) && (required <? 256))%bool; [|reflexivity]. cbn [bind]. unfold ptext, raw. cbn [fst snd].
    assert (k = be_bytes 32 e) as ->; [|reflexivity]. destruct O as (W & L & <-). rewrite <- (be_bytes_be_val k W) at 1. f_equal. unfold zlen in L. lia.
  Qed.
  Lemma each_seq {B} (f : nat -> res B) (dflt : B) n r : each f (seq 0 n) = Ok r -> List.length r = n /\ forall i, (i < n)%nat -> f i = Ok (nth i r dflt).
  Proof.
    intro E. apply each_ok in E. assert (forall l s, Forall2 (fun a b => f a = Ok b) (seq s n) l -> List.length l = n /\ forall i, (i < n)%nat -> f (s + i)%nat = Ok (nth i l dflt)) as G.
    { clear. induction n as [|n IH]; intros l s F; cbn [seq] in F; inversion F as [|? b ? l' Eb F']; subst; [split; [reflexivity|lia]|]. destruct (IH l' (S s) F') as (L & H). split; [cbn; lia|]. intros [|i] Hi; [now rewrite Nat.add_0_r|]. rewrite <- Nat.add_succ_comm. cbn [nth]. apply H. lia. }
    exact (G r 0%nat E).
  Qed.
  Lemma partial_split_spec w d required total draw groups : reads w d -> (forall i j k, randrange order (draw i j) = Ok k -> 1 <= k < order) -> 1 <= required <= total ->
    let c := ztake 4 (sha256d sha256 (be_bytes 32 d)) in
    partial_split_private_key sha256 cv true w required total draw = Ok groups ->
    total <= 256 /\ required < 256 /\ exists table, (forall i, (i < Z.to_nat total)%nat -> shares d required (draw i) (table i)) /\
      groups = map (fun i => map (ptext required c) (group required (Z.to_nat total) table i)) (upto total).
  Proof.
    intros Hr R Ht c H. unfold partial_split_private_key in H. destruct (Z.ltb_spec total required); [lia|]. pose proof Hr as (k & Ek & Wk & Lk & Vk). rewrite Ek in H. cbn [bind negb] in H. cbv zeta in H.
    assert (ztake 4 (sha256d sha256 k) = c) as Hc. { unfold c. rewrite <- Vk. do 2 f_equal. rewrite <- (be_bytes_be_val k Wk) at 1. f_equal. unfold zlen in Lk. lia. }
    rewrite Hc in H.
    assert (wf_bytes c) as Wc by (apply Forall_ztake; apply sha_wf). assert (zlen c = 4) as Lc. { unfold c, sha256d. rewrite zlen_ztake by lia. destruct (Hsha (sha256 (be_bytes 32 d))). lia. }
    bind_inv H. rename x into keys, H1 into Ekeys. unfold upto in Ekeys. destruct (each_seq _ [] (Z.to_nat total) keys Ekeys) as (Lkeys & Ki).
    assert (forall i, (i < Z.to_nat total)%nat -> (i < 256)%nat /\ required < 256 /\ exists ds, shares d required (draw i) ds /\ nth i keys [] = map (fun e => ptext required c (i, e)) ds) as Sh.
    { intros i Hi. specialize (Ki i Hi). destruct (split_private_key sha256 cv true w required (draw i)) as [ws|] eqn:Es; [|discriminate]. cbn [bind] in Ki. apply (split_spec w d required (draw i) ws Hr (R i)) in Es. destruct Es as (ds & Sd & ->).
      pose proof (shares_range _ _ _ _ (R i) Sd) as Rd. pose proof order_256 as O256. destruct (shares_facts _ _ _ _ Sd) as (_ & _ & Nd). apply each_ok in Ki.
      assert (forall l r, Forall (fun e => 0 <= e < order) l -> Forall2 (fun a b => partial_encode_key sha256 c required i a = Ok b) (map wif l) r -> r = map (fun e => ptext required c (i, e)) l /\ (l <> [] -> (i < 256)%nat /\ required < 256)) as G.
      { clear - Wc Lc Hsha Hord Hlen sha_len sha_wf O256. induction l as [|e l IH]; intros r Fl F; cbn [map] in F; inversion F as [|? b ? r' Eb F']; subst; [split; [reflexivity|congruence]|]. inversion Fl as [|? ? He Fl']; subst. rewrite partial_encode_spec in Eb by (assumption || lia).
        destruct (Nat.ltb_spec i 256); [|discriminate]. destruct (Z.ltb_spec required 256); [|rewrite andb_false_r in Eb; discriminate]. destruct (0 <=? required); [|discriminate]. cbn [andb] in Eb. injection Eb as <-. destruct (IH r' Fl' F') as (-> & _). split; [reflexivity|]. auto. }
      destruct (G _ _ Rd Ki) as (E & Hb). destruct (Hb Nd). split; [assumption|]. split; [assumption|]. exists ds. now split. }
    assert (required < 256) as Hreq by (destruct (Sh 0%nat ltac:(lia)) as (_ & B & _); exact B). assert (total <= 256) as Htot by (destruct (Sh (Z.to_nat total - 1)%nat ltac:(lia)) as (B & _); lia). split; [exact Htot|]. split; [exact Hreq|].
    (* the table: decode each list of keys by its shares *)
    assert (exists table : nat -> list Z, forall i, (i < Z.to_nat total)%nat -> shares d required (draw i) (table i) /\ nth i keys [] = map (fun e => ptext required c (i, e)) (table i)) as (table & Tb).
    { clear - Sh. set (n := Z.to_nat total) in *. clearbody n. induction n as [|n IH]; [exists (fun _ => []); intros i Hi; lia|]. destruct IH as (t & Ht); [intros i Hi; apply Sh; lia|]. destruct (Sh n ltac:(lia)) as (_ & _ & ds & Hds).
      exists (fun i => if (i =? n)%nat then ds else t i). intros i Hi. destruct (Nat.eqb_spec i n) as [->|]; [exact Hds|apply Ht; lia]. }
    exists table. split; [intros i Hi; now apply Tb|]. apply each_ok in H.
    assert (forall l r, Forall (fun i => (i < Z.to_nat total)%nat) l -> Forall2 (fun i b => each (fun j => let! ks := item keys ((i + j) mod Z.to_nat total) in item ks j) (upto required) = Ok b) l r -> r = map (fun i => map (ptext required c) (group required (Z.to_nat total) table i)) l) as G.
    { induction l as [|i l IH]; intros r Fl F; inversion F as [|? b ? r' Eb F']; subst; [reflexivity|]. inversion Fl as [|? ? Hi Fl']; subst. cbn [map]. f_equal; [|now apply IH]. unfold group. rewrite map_map.
      rewrite (each_total _ (fun j => ptext required c ((i + j) mod Z.to_nat total, nth j (table ((i + j) mod Z.to_nat total)) 0%Z)%nat)) in Eb; [congruence|].
      intros j Hj. unfold upto in Hj. apply in_seq in Hj. assert (((i + j) mod Z.to_nat total < Z.to_nat total)%nat) as Hm by (apply Nat.mod_upper_bound; lia). set (m := ((i + j) mod Z.to_nat total)%nat) in *. destruct (Tb m Hm) as (Sm & Km). destruct (shares_facts _ _ _ _ Sm) as (_ & Lm & _).
      unfold item at 1. assert (nth_error keys m = Some (nth m keys [])) as -> by (apply nth_error_nth'; lia). cbn [bind]. rewrite Km. unfold item. rewrite (nth_error_nth' _ ([] : bytes) (n := j)) by (rewrite map_length; unfold zlen in Lm; lia). f_equal.
      rewrite (nth_indep _ ([] : bytes) (ptext required c (m, 0))) by (rewrite map_length; unfold zlen in Lm; lia). exact (map_nth (fun e => ptext required c (m, e)) (table m) 0 j). }
    apply (G _ _); [|exact H]. apply Forall_forall. intros i Hi. unfold upto in Hi. apply in_seq in Hi. lia.
  Qed.
End Shares.
