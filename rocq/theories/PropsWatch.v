(** C127 and C128.  C127: what a wallet can sign is settled when it is made.  The operations
    that give one wallet from another: derived children, the other form of an
    address, and a wallet file written and read again with any passphrases. *)
From Coq Require Import String ZArith List Lia Bool.
From Verif Require Import PyBase PyVal UtilModel Base58Model Base58Proofs DerModel DerProofs NtModel EcModel EcSpec EcLib EcParams256k1 KeyModel KeySpec PropsEc PropsKey JsonModel JsonProofs WalletModel WalletProofs PropsWallet.
Import ListNotations.
Open Scope string_scope.
Open Scope list_scope.
Open Scope Z_scope.

Section Kept.
  Variable sha256 sha512 ripemd160 : bytes -> bytes.
  Variable hmac_sha512 : bytes -> bytes -> bytes.
  Variable cv : curve_info.
  Hypothesis Hsha : forall d, wf_bytes (sha256 d) /\ zlen (sha256 d) = 32.
  Hypothesis Hmac : forall k m, wf_bytes (hmac_sha512 k m).
  Hypothesis Hrip : forall d, wf_bytes (ripemd160 d).
  Hypothesis Hord : 0 < cv_order cv.
  Hypothesis Hlen : cv_baselen cv = 32.
  Notation new_address := (address_new sha256 sha512 ripemd160 cv).
  Notation made := (address_made sha256 sha512 ripemd160 cv).

  (** [becomes w v]: the wallet v comes from w by these operations; [rand] is
      the random vcn, any of 16 bits. *)
  Inductive becomes (w : wallet) : wallet -> Prop :=
  | itself : becomes w w
  | by_child h i rand h' : becomes w (WHD h) -> 0 <= rand < 65536 -> hd_child sha256 ripemd160 hmac_sha512 cv h i rand = Ok h' -> becomes w (WHD h')
  | by_compress a a' : becomes w (WAddress a) -> address_compress sha256 sha512 ripemd160 cv a = Ok a' -> becomes w (WAddress a')
  | by_decompress a a' : becomes w (WAddress a) -> address_decompress sha256 sha512 ripemd160 cv a = Ok a' -> becomes w (WAddress a')
  | by_file v passphrase t p typed rand v' : becomes w v -> wf_bytes passphrase -> 0 <= rand < 65536 ->
      wallet_text cv v passphrase = Ok t -> load_from sha256 sha512 ripemd160 cv t p typed rand = Ok v' -> becomes w v'.

  Definition proper (v : wallet) : Prop := match v with WAddress a => made a | WHD h => hd_made cv h end.
  Definition private (v : wallet) : Prop := match v with WAddress a => ad_priv a <> None | WHD h => exists d, hd_key h = HPriv d end.

  Lemma slice_wf l a b : wf_bytes l -> wf_bytes (slice a b l).
  Proof. intro W. unfold slice. apply Forall_ztake. now apply Forall_zdrop. Qed.
  Lemma parity_byte y : is_byte (2 + Z.land y 1).
  Proof. change 1 with (Z.ones 1). rewrite Z.land_ones by lia. pose proof (Z.mod_pos_bound y (2 ^ 1) ltac:(lia)). change (2 ^ 1) with 2 in *. unfold is_byte. lia. Qed.
  Lemma number_wf x n s : 0 < n -> number_to_string x n = Ok s -> wf_bytes s.
  Proof.
    intro H. rewrite number_to_string_spec by exact H. destruct (x <? 0); [discriminate|]. destruct (_ <? _); [|destruct (_ =? 1); discriminate]. intro E. assert (s = be_bytes (Z.to_nat (orderlen n)) x) as -> by congruence. apply wf_be_bytes.
  Qed.
  Lemma compress_wf k k' : wf_bytes k -> compress_public_key k = Ok k' -> wf_bytes k'.
  Proof.
    intros W H. unfold compress_public_key in H. destruct k as [|ch k]; [discriminate|]. destruct (_ || _); [discriminate|]. bind_inv H. assert (k' = [2 + Z.land x 1] ++ slice 1 33 (ch :: k)) as -> by congruence.
    constructor; [apply parity_byte|now apply slice_wf].
  Qed.
  Lemma decompress_wf k k' : wf_bytes k -> decompress_with (cv_gen cv) k = Ok k' -> wf_bytes k'.
  Proof.
    intros W H. unfold decompress_with in H. destruct k as [|ch k]; [discriminate|]. destruct (_ && _).
    - bind_inv H. bind_inv H. bind_inv H. destruct x1; [|discriminate]. cbn [negb] in H. assert (k' = ch :: k) as -> by congruence. exact W.
    - destruct (_ || _); [discriminate|]. bind_inv H. bind_inv H. bind_inv H. destruct x1; [|discriminate]. cbn [negb] in H. cbv zeta in H. bind_inv H.
      assert (k' = [4] ++ zdrop 1 (ch :: k) ++ x1) as -> by congruence. constructor; [unfold is_byte; lia|]. apply wf_bytes_app. split; [now apply Forall_zdrop|exact (number_wf _ _ _ Hord H3)].
  Qed.
  (** The constructor keeps the private key it is given. *)
  Lemma new_priv pub priv vcn rand testnet a : 0 <= rand < 65536 -> match pub with Some k => wf_bytes k | None => True end -> new_address pub priv vcn rand testnet = Ok a ->
    made a /\ ad_priv a = match priv with Some [] => None | p => p end.
  Proof.
    intros Hr Wp H. split; [now exists pub, priv, vcn, rand, testnet|]. unfold address_new in H.
    assert (forall pv k z, address_finish sha256 sha512 ripemd160 cv pv k z vcn rand testnet = Ok a -> ad_priv a = pv) as F.
    { intros pv k z E. unfold address_finish in E. destruct k as [|ch k]; [discriminate|]. bind_inv E. cbv zeta in E. bind_inv E. injection E as <-. reflexivity. }
    destruct priv as [[|ch w]|]; [now apply F in H| |now apply F in H].
    destruct pub; [discriminate|]. destruct (_ && _); [discriminate|]. bind_inv H. bind_inv H. bind_inv H. bind_inv H. now apply F in H.
  Qed.
  Lemma new_private w vcn rand testnet a : 0 <= rand < 65536 -> new_address None (Some w) vcn rand testnet = Ok a -> made a /\ ad_priv a = Some w.
  Proof. intros Hr H. destruct (new_priv None (Some w) vcn rand testnet a Hr Logic.I H) as (M & E). split; [exact M|]. rewrite E. destruct w; [discriminate H|reflexivity]. Qed.
  Lemma new_watch k vcn rand testnet a : 0 <= rand < 65536 -> wf_bytes k -> new_address (Some k) None vcn rand testnet = Ok a -> made a /\ ad_priv a = None.
  Proof. intros Hr W H. exact (new_priv (Some k) None vcn rand testnet a Hr W H). Qed.

  Lemma address_step a a' : made a -> (address_compress sha256 sha512 ripemd160 cv a = Ok a' \/ address_decompress sha256 sha512 ripemd160 cv a = Ok a') ->
    made a' /\ (ad_priv a' = None <-> ad_priv a = None).
  Proof.
    intros Ma H. destruct (address_facts sha256 sha512 ripemd160 cv Hsha Hord Hlen a Ma) as (_ & Wk & _ & _ & _ & _). unfold address_compress, address_decompress in H.
    assert (0 <= 0 < 65536) as R0 by lia.
    destruct (ad_compressed a); cbn [negb] in H; destruct (ad_priv a) as [w|] eqn:Ea; destruct H as [H|H];
      try (assert (a' = a) as -> by congruence; split; [exact Ma|rewrite Ea; reflexivity]); bind_inv H.
    - apply new_private in H; [|exact R0]. destruct H as (M & E). split; [exact M|]. split; intro B; congruence.
    - apply new_watch in H; [|exact R0|exact (decompress_wf _ _ Wk H0)]. destruct H as (M & E). split; [exact M|]. split; intro; congruence.
    - apply new_private in H; [|exact R0]. destruct H as (M & E). split; [exact M|]. split; intro B; congruence.
    - apply new_watch in H; [|exact R0|exact (compress_wf _ _ Wk H0)]. destruct H as (M & E). split; [exact M|]. split; intro; congruence.
  Qed.
  Lemma address_reload a passphrase cfg p typed rand b : made a -> wf_bytes passphrase -> 0 <= rand < 65536 ->
    address_dump a passphrase = Ok cfg -> address_load sha256 sha512 ripemd160 cv cfg p typed rand = Ok b -> made b /\ (ad_priv b = None <-> ad_priv a = None).
  Proof.
    intros Ma Wp Hr D. destruct (address_facts sha256 sha512 ripemd160 cv Hsha Hord Hlen a Ma) as (_ & Wk & _ & (r & Ek) & _ & F). unfold address_dump in D. destruct (ad_priv a) as [w|] eqn:Ea.
    - destruct F as (Ww & Lw & Nw & _). destruct (secret_back w passphrase [] [] Ww ltac:(lia) Wp) as (t & enc & Et & Wt & Nt & _). rewrite Et in D. cbn [bind fst snd] in D. injection D as <-.
      match goal with |- address_load _ _ _ _ ?c _ _ _ = _ -> _ => set (cfg := c) end. unfold address_load.
      change (jfield "pubkey" cfg) with (Ok JNull). change (jfield "prvkey" cfg) with (Ok (JStr (hex_encode t))). cbn [bind]. rewrite (hex_truth t Nt). intro H. destruct (read_secret cfg (JStr (hex_encode t)) p typed) as [k|]; [|discriminate]. cbn [bind snd] in H.
      change (jfield "vcn" cfg) with (Ok (JInt (ad_vcn a))) in H. change (jfield "testnet" cfg) with (Ok (JBool (ad_testnet a))) in H. cbn [bind jint] in H.
      assert (new_address None (Some k) (Some (ad_vcn a)) rand (ad_testnet a) = Ok b) as H' by (destruct k; exact H). clear H. rename H' into H. apply new_private in H; [|exact Hr]. destruct H as (M & E). split; [exact M|]. split; intro B; congruence.
    - cbn [bind] in D. injection D as <-. match goal with |- address_load _ _ _ _ ?c _ _ _ = _ -> _ => set (cfg := c) end. unfold address_load.
      change (jfield "pubkey" cfg) with (Ok (JStr (hex_encode (ad_pub a)))). change (jfield "prvkey" cfg) with (Ok JNull). cbn [bind]. change (jtruth JNull) with false. cbn [bind snd].
      rewrite hex_truth by (rewrite Ek; discriminate). rewrite (jbytes_hex _ Wk). cbn [bind].
      change (jfield "vcn" cfg) with (Ok (JInt (ad_vcn a))). change (jfield "testnet" cfg) with (Ok (JBool (ad_testnet a))). cbn [bind jint]. intro H.
      apply new_watch in H; [|exact Hr|exact Wk]. destruct H as (M & E). split; [exact M|]. split; intro; congruence.
  Qed.
  Lemma point_compress_wf P k : point_compress cv P = Ok k -> 0 < c_p (g_curve (cv_gen cv)) -> wf_bytes k /\ k <> [].
  Proof. intros H Hp. unfold point_compress in H. destruct P as [|x y o]; [discriminate|]. bind_inv H. assert (k = [2 + Z.land y 1] ++ x0) as -> by congruence. split; [|discriminate]. constructor; [apply parity_byte|exact (number_wf _ _ _ Hp H0)]. Qed.
  Hypothesis Hp : 0 < c_p (g_curve (cv_gen cv)).
  Definition is_priv (k : hdkey) : bool := match k with HPriv _ => true | HPub _ => false end.
  Lemma hd_step h i rand h' : hd_made cv h -> 0 <= rand < 65536 -> hd_child sha256 ripemd160 hmac_sha512 cv h i rand = Ok h' -> hd_made cv h' /\ is_priv (hd_key h') = is_priv (hd_key h).
  Proof.
    intros M Hr H. unfold hd_child in H. destruct (_ && _) in H; [|discriminate]. cbn [negb] in H. cbv zeta in H.
    assert ((if negb (hd_depth h <? 255) then Raise AssertionError
        else
          let! str_i := number_to_string i (2 ^ 32 - 1) in
          let! msg := (match negb (Z.land i 0x80000000 =? 0), hd_key h with
                       | true, HPriv d => let! k := number_to_string d (cv_order cv) in Ok ([0] ++ k ++ str_i)
                       | _, _ => let! P := hd_point cv h in let! k := point_compress cv P in Ok (k ++ str_i)
                       end) in
          let! childModifier := string_to_number (ztake 32 (hmac_sha512 (hd_chain h) msg)) in
          if cv_order cv <=? childModifier then Raise PlainException
          else
            let! childKey := (match hd_key h with
              | HPriv d => let k := (d + childModifier) mod cv_order cv in
                           if k =? 0 then Raise PlainException else Ok (HPriv k)
              | HPub P => let! M := ec_mul (g_curve (cv_gen cv)) (gen_point (cv_gen cv)) childModifier in
                          let! Q := ec_add (g_curve (cv_gen cv)) P M in
                          if point_eqb Q PInf then Raise PlainException else Ok (HPub Q)
              end) in
            let! fp := hd_fingerprint sha256 ripemd160 cv h in
            hd_new cv childKey (zdrop 32 (hmac_sha512 (hd_chain h) msg)) None rand (hd_testnet h) (Some (hd_depth h + 1)) fp i) = Ok h') as H'.
    { destruct (negb (Z.land i 2147483648 =? 0)); [destruct (hd_key h); [exact H|discriminate]|exact H]. }
    clear H. rename H' into H. destruct (negb (hd_depth h <? 255)); [discriminate|]. bind_inv H. bind_inv H. bind_inv H. destruct (_ <=? _) in H; [discriminate|]. bind_inv H. bind_inv H.
    assert (wf_bytes x3) as Wf. { unfold hd_fingerprint in H4. bind_inv H4. bind_inv H4. assert (x3 = ztake 4 (hash_160 sha256 ripemd160 x5)) as -> by congruence. apply Forall_ztake. apply Hrip. }
    destruct (hd_new_made sha256 sha512 ripemd160 cv Hsha _ _ _ _ _ _ _ _ _ (Forall_zdrop _ 32 _ (Hmac _ _)) Wf Hr H) as (M' & K & _). split; [exact M'|]. rewrite K.
    destruct (hd_key h) as [d|P]; cbv zeta in H3.
    - destruct (_ =? 0) in H3; [discriminate|]. assert (x2 = HPriv ((d + x1) mod cv_order cv)) as -> by congruence. reflexivity.
    - bind_inv H3. bind_inv H3. destruct (point_eqb _ _); [discriminate|]. assert (x2 = HPub x5) as -> by congruence. reflexivity.
  Qed.
  Lemma hd_reload h passphrase cfg p typed rand h' : hd_made cv h -> wf_bytes passphrase -> 0 <= rand < 65536 ->
    hd_dump cv h passphrase = Ok cfg -> hd_load cv cfg p typed rand = Ok h' -> hd_made cv h' /\ is_priv (hd_key h') = is_priv (hd_key h).
  Proof.
    intros M Wp Hr D. pose proof (hd_parent_wf cv h M) as Wf. pose proof M as (K & Wc & _). unfold hd_dump in D. destruct (hd_key h) as [d|P] eqn:Ek.
    - destruct (hd_secret cv Hord Hlen d K) as (s & Es & Ws & Ls & Vs & Ns). rewrite Es in D. cbn [bind] in D.
      destruct (secret_back s passphrase [] [] Ws ltac:(lia) Wp) as (t & enc & Et & Wt & Nt & _). rewrite Et in D. cbn [bind fst snd] in D. injection D as <-.
      match goal with |- hd_load _ ?c _ _ _ = _ -> _ => set (cfg := c) end. unfold hd_load.
      change (jfield "pubkey" cfg) with (Ok JNull). change (jfield "prvkey" cfg) with (Ok (JStr (hex_encode t))). cbn [bind]. rewrite (hex_truth t Nt). intro H.
      destruct (read_secret cfg (JStr (hex_encode t)) p typed) as [k|]; [|discriminate]. cbn [bind] in H. destruct (string_to_number k) as [z|]; [|discriminate]. cbn [bind] in H.
      change (jfield "chain" cfg) with (Ok (JStr (hex_encode (hd_chain h)))) in H. cbn [bind] in H. rewrite (jbytes_hex _ Wc) in H. cbn [bind] in H.
      change (jfield "vcn" cfg) with (Ok (JInt (hd_vcn h))) in H. change (jfield "testnet" cfg) with (Ok (JBool (hd_testnet h))) in H. change (jfield "depth" cfg) with (Ok (JInt (hd_depth h))) in H.
      change (jfield "childnum" cfg) with (Ok (JInt (hd_childnum h))) in H. change (jfield "parentfp" cfg) with (Ok (JStr (hex_encode (hd_parent h)))) in H. cbn [bind] in H.
      rewrite (jbytes_hex _ Wf) in H. cbn [bind jint jtruth] in H. destruct (z =? 0); [discriminate|]. bind_inv H.
      destruct (hd_new_made sha256 sha512 ripemd160 cv Hsha _ _ _ _ _ _ _ _ _ Wc Wf Hr H) as (M' & K' & _). split; [exact M'|]. now rewrite K'.
    - destruct (point_compress cv P) as [x|] eqn:H; [|discriminate]. cbn [bind] in D. destruct (point_compress_wf _ _ H Hp) as (Wk & Nk). injection D as <-.
      match goal with |- hd_load _ ?c _ _ _ = _ -> _ => set (cfg := c) end. unfold hd_load. change (jfield "prvkey" cfg) with (Ok JNull). change (jfield "pubkey" cfg) with (Ok (JStr (hex_encode x))). cbn [bind]. change (jtruth JNull) with false. cbv iota. rewrite (hex_truth x Nk).
      rewrite (jbytes_hex x Wk). cbn [bind]. clear H. intro H. destruct (point_decompress cv x) as [Q|e]; [|discriminate]. cbn [bind] in H.
      change (jfield "chain" cfg) with (Ok (JStr (hex_encode (hd_chain h)))) in H. cbn [bind] in H. rewrite (jbytes_hex _ Wc) in H. cbn [bind] in H.
      change (jfield "vcn" cfg) with (Ok (JInt (hd_vcn h))) in H. change (jfield "testnet" cfg) with (Ok (JBool (hd_testnet h))) in H. change (jfield "depth" cfg) with (Ok (JInt (hd_depth h))) in H.
      change (jfield "childnum" cfg) with (Ok (JInt (hd_childnum h))) in H. change (jfield "parentfp" cfg) with (Ok (JStr (hex_encode (hd_parent h)))) in H. cbn [bind] in H.
      rewrite (jbytes_hex _ Wf) in H. cbn [bind jint jtruth] in H. bind_inv H.
      destruct (hd_new_made sha256 sha512 ripemd160 cv Hsha _ _ _ _ _ _ _ _ _ Wc Wf Hr H) as (M' & K' & _). split; [exact M'|]. now rewrite K'.
  Qed.
  Lemma hd_plain h passphrase cfg : hd_made cv h -> wf_bytes passphrase -> hd_dump cv h passphrase = Ok cfg -> members_plain cfg /\ jget (bs "type") cfg = Some (JStr (bs "HD")).
  Proof.
    intros M Wp D. pose proof (hd_members sha256 sha512 ripemd160 cv Hsha Hord Hlen h passphrase M Wp) as F. destruct (hd_key h) as [d|P] eqn:Ek.
    - destruct F as (c & E & Pl & _ & T & _). assert (cfg = c) as -> by congruence. now split.
    - unfold hd_dump in D. rewrite Ek in D. destruct (point_compress cv P) as [x|] eqn:H; [|discriminate]. destruct (point_compress_wf _ _ H Hp) as (Wk & Nk). destruct (F x eq_refl Wk Nk) as (c & E & Pl & _ & T & _).
      unfold hd_dump in E. rewrite Ek, H in E. assert (cfg = c) as -> by congruence. now split.
  Qed.
  Lemma private_iff h h' : is_priv (hd_key h') = is_priv (hd_key h) -> (exists d, hd_key h' = HPriv d) <-> (exists d, hd_key h = HPriv d).
  Proof. destruct (hd_key h), (hd_key h'); cbn [is_priv]; intro E; try discriminate; split; intros (d' & B); try discriminate; now eexists. Qed.
  Lemma kept w v : proper w -> becomes w v -> proper v /\ (private v <-> private w).
  Proof.
    intros Pw B. induction B as [|h i rand h' B IH Hr E|a a' B IH E|a a' B IH E|v passphrase t p typed rand v' B IH Wp Hr T L].
    - now split.
    - destruct (IH) as (M & I). destruct (hd_step h i rand h' M Hr E) as (M' & K). split; [exact M'|]. rewrite <- I. exact (private_iff h h' K).
    - destruct IH as (M & I). destruct (address_step a a' M (or_introl E)) as (M' & K). split; [exact M'|]. rewrite <- I. cbn [private]. now rewrite K.
    - destruct IH as (M & I). destruct (address_step a a' M (or_intror E)) as (M' & K). split; [exact M'|]. rewrite <- I. cbn [private]. now rewrite K.
    - destruct IH as (M & I). unfold wallet_text in T. destruct v as [a|h].
      + destruct (address_members sha256 sha512 ripemd160 cv Hsha Hord Hlen a passphrase M Wp) as (cfg & D & Pl & _ & Ty & _). rewrite D in T. cbn [bind] in T. assert (t = json_dumps cfg) as -> by congruence.
        unfold load_from in L. rewrite (loads_dumps cfg Pl) in L. cbn [bind] in L. rewrite Ty in L. change (bytes_eqb (bs "default") (bs "HD")) with false in L. change (bytes_eqb (bs "default") (bs "default")) with true in L. cbv beta iota in L.
        destruct (address_load sha256 sha512 ripemd160 cv cfg p typed rand) as [b|] eqn:El; [|discriminate]. cbn [bind] in L. injection L as <-.
        destruct (address_reload a passphrase cfg p typed rand b M Wp Hr D El) as (M' & K). split; [exact M'|]. rewrite <- I. cbn [private]. now rewrite K.
      + destruct (hd_dump cv h passphrase) as [cfg|] eqn:D; [|discriminate]. cbn [bind] in T. assert (t = json_dumps cfg) as -> by congruence. destruct (hd_plain h passphrase cfg M Wp D) as (Pl & Ty).
        unfold load_from in L. rewrite (loads_dumps cfg Pl) in L. cbn [bind] in L. rewrite Ty in L. change (bytes_eqb (bs "HD") (bs "HD")) with true in L. cbv beta iota in L.
        destruct (hd_load cv cfg p typed rand) as [h'|] eqn:El; [|discriminate]. cbn [bind] in L. injection L as <-.
        destruct (hd_reload h passphrase cfg p typed rand h' M Wp Hr D El) as (M' & K). split; [exact M'|]. rewrite <- I. exact (private_iff h h' K).
  Qed.
End Kept.

Section Watch.
  Variable sha256 sha512 ripemd160 : bytes -> bytes.
  Variable hmac_sha512 : bytes -> bytes -> bytes.
  Hypothesis Hsha : forall d, wf_bytes (sha256 d) /\ zlen (sha256 d) = 32.
  Hypothesis Hmac : forall k m, wf_bytes (hmac_sha512 k m).
  Hypothesis Hrip : forall d, wf_bytes (ripemd160 d).
  Notation becomes := (becomes sha256 sha512 ripemd160 hmac_sha512 S256).
  Notation an_address := (an_address sha256 sha512 ripemd160).

  (** A wallet that one of the constructors returned. *)
  Definition constructed (w : wallet) : Prop := match w with WAddress a => an_address a | WHD h => an_hd h end.
  Lemma hd_back h : hd_made S256 h -> an_hd h.
  Proof.
    intros (K & Wc & Lc & V & D & Wf). exists (hd_key h), (hd_chain h), (Some (hd_vcn h)), 0, (hd_testnet h), (Some (hd_depth h)), (hd_parentfp h), (hd_childnum h).
    split; [exact Wc|]. split; [exact Wf|]. split; [lia|]. unfold hd_new. rewrite Lc. change (negb (32 =? 32)) with false. cbv zeta. rewrite (choose_again _ V). destruct (Z.ltb_spec (hd_depth h) 256) as [_|B]; [|exfalso; lia].
    destruct h as [key chain vcn testnet depth fp cn]. cbn [hd_key hd_chain hd_vcn hd_testnet hd_depth hd_parentfp hd_childnum] in *.
    destruct key as [d|P]; cbn [bind]; [|reflexivity]. destruct (Z.ltb_spec 0 d) as [_|B]; [|exfalso; lia]. destruct (Z.ltb_spec d (cv_order S256)) as [_|B]; [|exfalso; lia]. reflexivity.
  Qed.
  Lemma constructed_iff w : constructed w <-> proper sha256 sha512 ripemd160 S256 w.
  Proof. destruct w as [a|h]; [reflexivity|]. split; [exact (hd_is sha256 sha512 ripemd160 Hsha h)|exact (hd_back h)]. Qed.
  Lemma private_same w : private w <-> has_private w. Proof. now destruct w. Qed.

  (** Whether there is a private key never changes. *)
  Theorem C127_kept w v : constructed w -> becomes w v -> constructed v /\ (has_private v <-> has_private w).
  Proof.
    intros C B. apply constructed_iff in C. destruct (kept sha256 sha512 ripemd160 hmac_sha512 S256 Hsha Hmac Hrip Sord Slen eq_refl w v C B) as (P & K). split; [now apply constructed_iff|]. now rewrite <- !private_same.
  Qed.
  (** What a wallet without one gives away, and what it refuses. *)
  Definition watches_only (v : wallet) : Prop :=
    match v with
    | WAddress a => ad_priv a = None /\ forall data nonce, address_sign sha256 S256 a data nonce = Raise ValueError
    | WHD h => hd_prvkey S256 h = Ok None /\ (forall data nonce, hd_sign sha256 S256 h data nonce = Raise ValueError) /\
        (forall t, hd_extended sha256 S256 h true <> Ok t) /\
        (forall i rand, 2 ^ 31 <= i < 2 ^ 32 -> hd_child sha256 ripemd160 hmac_sha512 S256 h i rand = Raise PlainException)
    end /\
    forall passphrase cfg, match v with WAddress a => address_dump a passphrase | WHD h => hd_dump S256 h passphrase end = Ok cfg ->
      jget (bs "prvkey") cfg = Some JNull /\ jget (bs "encrypted") cfg = Some (JBool false).
  Lemma without_key v : ~ has_private v -> watches_only v.
  Proof.
    intro N. destruct v as [a|h]; cbn [has_private] in N.
    - destruct (ad_priv a) as [w|] eqn:Ea; [exfalso; apply N; discriminate|]. split; [split; [exact Ea|]; intros; unfold address_sign; now rewrite Ea|].
      intros passphrase cfg D. unfold address_dump in D. rewrite Ea in D. cbn [bind] in D. injection D as <-. now split.
    - destruct (hd_key h) as [d|P] eqn:Ek; [exfalso; apply N; now exists d|]. split.
      + split; [unfold hd_prvkey; now rewrite Ek|]. split; [intros; unfold hd_sign, hd_prvkey; now rewrite Ek|]. split.
        * intros t B. unfold hd_extended in B. rewrite Ek in B. bind_inv B. bind_inv B. bind_inv B. discriminate B.
        * intros i rand Hi. unfold hd_child. destruct (Z.leb_spec 0 i) as [_|]; [|lia]. destruct (Z.leb_spec i (2 ^ 32 - 1)) as [_|]; [|lia]. cbn [andb negb]. cbv zeta. rewrite Ek.
          assert (Z.land i 2147483648 <> 0) as L. { intro B. apply (f_equal (fun z => Z.testbit z 31)) in B. rewrite Z.land_spec, Z.bits_0 in B. change (Z.testbit 2147483648 31) with true in B. rewrite andb_true_r in B.
            rewrite Z.testbit_false in B by lia. assert (i / 2 ^ 31 = 1) as E by (symmetry; apply Z.div_unique with (i - 2 ^ 31); lia). rewrite E in B. discriminate B. }
          destruct (Z.eqb_spec (Z.land i 2147483648) 0) as [B|_]; [contradiction|]. reflexivity.
      + intros passphrase cfg D. unfold hd_dump in D. rewrite Ek in D. destruct (point_compress S256 P) as [k|]; [|discriminate]. cbn [bind] in D. injection D as <-. now split.
  Qed.
  Theorem C127_watch_only w v : constructed w -> ~ has_private w -> becomes w v -> watches_only v.
  Proof. intros C N B. apply without_key. now rewrite (proj2 (C127_kept w v C B)). Qed.
  (** A wallet with a private key keeps one that is usable. *)
  Definition has_usable_key (v : wallet) : Prop :=
    match v with
    | WAddress a => exists w k, ad_priv a = Some w /\ privkey_from_wif sha256 w 0x80 = Ok k /\ wf_bytes k /\ zlen k = 32
    | WHD h => exists d k, hd_key h = HPriv d /\ 0 < d < secp_n /\ hd_prvkey S256 h = Ok (Some k) /\ wf_bytes k /\ zlen k = 32 /\ be_val k = d
    end.
  Theorem C127_private w v : constructed w -> has_private w -> becomes w v -> has_usable_key v.
  Proof.
    intros C N B. destruct (C127_kept w v C B) as (Cv & K). apply K in N. destruct v as [a|h]; cbn [has_private has_usable_key] in *.
    - destruct (ad_priv a) as [wf|] eqn:Ea; [|congruence]. destruct Cv as (pub & priv & vcn & rand & testnet & Hr & Wp & E).
      destruct (new_priv sha256 sha512 ripemd160 S256 pub priv vcn rand testnet a Hr Wp E) as (_ & Ep). rewrite Ea in Ep. destruct priv as [[|ch p]|]; try discriminate. injection Ep as ->.
      unfold address_new in E. destruct pub; [discriminate|]. destruct (_ && _); [discriminate|]. destruct (privkey_from_wif sha256 (ch :: p) 128) as [k|] eqn:Ek; [|discriminate].
      destruct (wif_text sha256 sha512 ripemd160 Hsha _ _ Ek) as (_ & _ & Wk & Lk). exists (ch :: p), k. split; [reflexivity|]. split; [exact Ek|]. now split.
    - destruct N as (d & Ed). pose proof (hd_is sha256 sha512 ripemd160 Hsha h Cv) as (Kd & _). rewrite Ed in Kd. destruct (hd_secret S256 Sord Slen d Kd) as (s & Es & Ws & Ls & Vs & _).
      exists d, s. split; [exact Ed|]. split; [exact Kd|]. split; [unfold hd_prvkey; rewrite Ed, Es; reflexivity|]. now repeat split.
  Qed.
  (** A compressed watch-only address that is saved and loaded (the result is
      another wallet, C42), one with a private key in its other form, and an
      HD wallet in a file. *)
  Example C127_applies :
    (exists w v, constructed w /\ ~ has_private w /\ becomes w v /\ v <> w) /\
    (exists w v, constructed w /\ has_private w /\ becomes w v /\ v <> w) /\
    (exists h h', constructed (WHD h) /\ has_private (WHD h) /\ becomes (WHD h) (WHD h')).
  Proof.
    split; [|split].
    - destruct (one_watch_only sha256 sha512 ripemd160 (fun _ m => m) Hsha 7 false) as (a & k & _ & Ma & Ep & Ec). destruct (address_file sha256 sha512 ripemd160 S256 Hsha Sord Slen a [] Ma ltac:(constructor)) as (t & E & _ & L).
      specialize (L [] 0). rewrite Ep in L. rewrite (address_watch_only sha256 sha512 ripemd160 S256 Hsha Sord Slen a 0 Ma Ep) in L. cbn [bind] in L.
      eexists (WAddress a), _. split; [exact Ma|]. split; [cbn; congruence|]. split; [eapply by_file; [apply itself| | |exact E|exact L]; [constructor|lia]|]. intro B. apply (f_equal (fun v => match v with WAddress b => ad_compressed b | WHD _ => false end)) in B. cbn [ad_compressed] in B. rewrite Ec in B. discriminate B.
    - destruct (one_private sha256 sha512 ripemd160 (fun _ m => m) Hsha true 7 false) as (a & w & _ & Ma & Ep & Ec). destruct (C79_private sha256 sha512 ripemd160 Hsha a w Ma Ep) as (b & E & Mb & Cb & _). rewrite Ec in *.
      exists (WAddress a), (WAddress b). split; [exact Ma|]. split; [cbn; congruence|]. split; [eapply by_decompress; [apply itself|exact E]|]. intro B. assert (b = a) by congruence. subst. rewrite Ec in Cb. discriminate.
    - destruct C43_applies as (_ & Mh). destruct (C43_private sha256 sha512 ripemd160 Hsha _ 5 [1] Mh eq_refl ltac:(constructor; [unfold is_byte; lia|constructor])) as (t & E & L). destruct (L [] 0) as (h' & Eh & _).
      eexists _, h'. split; [exact Mh|]. split; [exists 5; reflexivity|]. eapply by_file; [apply itself| | |exact E|exact Eh]; [constructor; [unfold is_byte; lia|constructor]|lia].
  Qed.
End Watch.

(** ** C128: texts of different kinds *)
(** Leading digits are determined by the magnitude. *)
Lemma val_app B (HB : 2 <= B) a b : val B (a ++ b) = val B a * B ^ zlen b + val B b.
Proof. induction a as [|d a IH]; [reflexivity|]. cbn [app]. rewrite !val_cons by exact HB. rewrite IH, zlen_app, Z.pow_add_r by apply zlen_nonneg. ring. Qed.
Lemma val_same B (HB : 2 <= B) a b : Forall (fun d => 0 <= d < B) a -> Forall (fun d => 0 <= d < B) b -> zlen a = zlen b -> val B a = val B b -> a = b.
Proof.
  revert b. induction a as [|x a IH]; intros [|y b] Fa Fb L E; [reflexivity|unfold zlen in L; cbn in L; lia..|]. rewrite !zlen_cons in L. inversion Fa as [|? ? Hx Fa']; subst. inversion Fb as [|? ? Hy Fb']; subst.
  rewrite !val_cons in E by exact HB. assert (zlen a = zlen b) as L' by lia. rewrite L' in E. pose proof (val_bound B HB a Fa') as Ba. pose proof (val_bound B HB b Fb') as Bb. rewrite L' in Ba.
  assert (x = y /\ val B a = val B b) as (-> & E'). { clear - E Ba Bb. set (P := B ^ zlen b) in *. assert (x = y) by nia. subst. split; [reflexivity|lia]. }
  f_equal. now apply IH.
Qed.
Lemma lead_digits B (HB : 2 <= B) l pre k : Forall (fun d => 0 <= d < B) l -> Forall (fun d => 0 <= d < B) pre -> 0 <= k -> zlen l = zlen pre + k -> val B pre * B ^ k <= val B l < (val B pre + 1) * B ^ k -> exists r, l = pre ++ r.
Proof.
  intros Fl Fp Hk L V. exists (zdrop (zlen pre) l). rewrite <- (ztake_zdrop l (zlen pre)) at 1. f_equal. pose proof (zlen_nonneg pre).
  assert (zlen (ztake (zlen pre) l) = zlen pre) as L1 by (rewrite zlen_ztake; lia). assert (zlen (zdrop (zlen pre) l) = k) as L2 by (rewrite zlen_zdrop; lia).
  apply (val_same B HB); [now apply Forall_ztake|exact Fp|exact L1|].
  rewrite <- (ztake_zdrop l (zlen pre)) in V. rewrite val_app, L2 in V by exact HB. pose proof (val_bound B HB _ (Forall_zdrop _ (zlen pre) _ Fl)) as Bd. rewrite L2 in Bd.
  set (P := B ^ k) in *. clear - V Bd. nia.
Qed.
Lemma canonical_prefix l d pre k : canonical 58 l -> 0 < d < 58 -> Forall (fun d => 0 <= d < 58) pre -> 0 <= k ->
  val 58 (d :: pre) * 58 ^ k <= val 58 l < (val 58 (d :: pre) + 1) * 58 ^ k -> exists r, l = (d :: pre) ++ r.
Proof.
  intros C Hd Fp Hk V. pose proof (val_bound 58 ltac:(lia) pre Fp) as Bp. pose proof (zlen_nonneg pre) as Np.
  destruct (canonical_lead 58 ltac:(lia) l d (zlen pre + k) C Hd ltac:(lia)) as (r & E & Lr).
  { rewrite Z.pow_add_r by lia. rewrite val_cons in V by lia. set (P := 58 ^ zlen pre) in *. assert (0 < 58 ^ k) by (apply Z.pow_pos_nonneg; lia). set (K := 58 ^ k) in *. clear - V Bp H. split; nia. }
  apply (lead_digits 58 ltac:(lia) l (d :: pre) k); [apply C|constructor; [lia|exact Fp]|exact Hk| |exact V]. rewrite E, !zlen_cons. lia.
Qed.

Section Texts.
  Variable sha256 sha512 ripemd160 : bytes -> bytes.
  Hypothesis Hsha : forall d, wf_bytes (sha256 d) /\ zlen (sha256 d) = 32.
  Notation new_address := (address_new sha256 sha512 ripemd160 S256).
  Notation an_address := (an_address sha256 sha512 ripemd160).
  Let sha_len x : 4 <= zlen (sha256 x). Proof. destruct (Hsha x). lia. Qed.
  Let sha_wf x : wf_bytes (sha256 x). Proof. apply Hsha. Qed.

  Lemma encode_check_prefix v d pre k : wf_bytes v -> match v with [] => False | x :: _ => x <> 0 end -> 0 < d < 58 -> Forall (fun d => 0 <= d < 58) pre -> 0 <= k ->
    val 58 (d :: pre) * 58 ^ k <= be_val v * 2 ^ 32 -> (be_val v + 1) * 2 ^ 32 <= (val 58 (d :: pre) + 1) * 58 ^ k ->
    exists r, encode_check sha256 v = map chr58 (d :: pre) ++ r.
  Proof.
    intros Hw Hn Hd Fp Hk L U. unfold encode_check. cbv zeta. set (ck := ztake 4 (sha256 (sha256 v))). assert (zlen ck = 4) as Lk by (unfold ck; rewrite zlen_ztake; [destruct (Hsha (sha256 v)); lia|lia]).
    assert (wf_bytes (v ++ ck)) as W by (apply wf_bytes_app; split; [assumption|apply Forall_ztake, sha_wf]).
    assert (canonical 256 (v ++ ck)) as C.
    { split; [eapply Forall_impl; [|exact W]; intros a Ha; unfold is_byte in Ha; lia|]. destruct v; [contradiction|exact Hn]. }
    pose proof (val_bound 256 ltac:(lia) _ (proj1 C)) as Hb.
    destruct (exists_digits 58 (val 256 (v ++ ck)) ltac:(lia) ltac:(lia)) as (l & Cl & El).
    pose proof (b58encode_eq 0 _ l C Cl El) as E. cbn [repeat app] in E. rewrite E.
    rewrite val_256, be_val_app, Lk in El. change (256 ^ 4) with (2 ^ 32) in El.
    assert (wf_bytes (ck)) as Wc by (apply Forall_ztake, sha_wf).
    pose proof (be_val_bound (ck) Wc) as Bc. rewrite Lk in Bc. change (256 ^ 4) with (2 ^ 32) in Bc.
    destruct (canonical_prefix l d pre k Cl Hd Fp Hk) as (r & ->); [clear - El Bc L U; lia|].
    exists (map chr58 r). now rewrite map_app.
  Qed.
  Lemma hex4_first v : 0 <= v < 65536 -> exists c r, hex4 v = c :: r /\ 48 <= c < 103 /\ wf_bytes (c :: r) /\ zlen (c :: r) = 4.
  Proof.
    intro H. pose proof (hex4_wf v H) as W. pose proof (hex4_len v) as L. unfold hex4 in *. cbn [map] in *. eexists _, _. split; [reflexivity|]. split; [|split; [exact W|exact L]].
    assert (0 <= v / 4096 < 16) by (split; [apply Z.div_pos; lia|apply Z.div_lt_upper_bound; lia]). destruct (Z.ltb_spec (v / 4096) 10); lia.
  Qed.
  (** An address starts with the character 1 on the main network and R on the
      test network. *)
  Lemma address_lead t vcn (testnet : bool) : exists r, publickey_to_address sha256 sha512 ripemd160 t vcn (version_byte testnet) = (if testnet then 82 else 49) :: r.
  Proof.
    unfold publickey_to_address, pubkeyhash_to_address. rewrite land_ffff. pose proof (Z.mod_pos_bound vcn 65536 ltac:(lia)) as Hv. destruct (hex4_first _ Hv) as (c & h & Eh & Hc & Wh & Lh). rewrite Eh.
    unfold pubkey_digest. cbv zeta. match goal with |- context [sha256 (?a ++ ?b)] => destruct (Hsha (a ++ b)) as (Wd & Ld); set (dg := sha256 (a ++ b)) in * end. clearbody dg.
    assert (wf_bytes ((c :: h) ++ dg)) as W by (apply wf_bytes_app; now split). destruct testnet; cbn [version_byte].
    - change 82 with (chr58 24). destruct (encode_check_lead sha256 sha_len sha_wf ([111] ++ (c :: h) ++ dg) 24 55) as (r & E); [constructor; [unfold is_byte; lia|exact W]|cbn; lia|lia|lia| | |exists r; exact E].
      + cbn [app]. rewrite !be_val_cons, zlen_cons, zlen_app. rewrite zlen_cons in Lh. assert (zlen h = 3) as -> by lia. rewrite Ld. assert (wf_bytes (h ++ dg)) as Wt by (inversion W; assumption). pose proof (be_val_bound _ Wt) as B.
        apply Z.le_trans with ((111 * 256 ^ 36 + 48 * 256 ^ 35) * 2 ^ 32); [vm_compute; discriminate|]. apply Z.mul_le_mono_nonneg_r; [lia|]. change (1 + (3 + 32)) with 36. change (3 + 32) with 35. set (P := 256 ^ 35). assert (0 <= P) by (apply Z.pow_nonneg; lia). clearbody P. nia.
      + cbn [app]. rewrite !be_val_cons, zlen_cons, zlen_app. rewrite zlen_cons in Lh. assert (zlen h = 3) as L3 by lia. rewrite L3, Ld. assert (wf_bytes (h ++ dg)) as Wt by (inversion W; assumption). pose proof (be_val_bound _ Wt) as B. rewrite zlen_app, L3, Ld in B. 
        apply Z.le_trans with ((111 * 256 ^ 36 + 103 * 256 ^ 35) * 2 ^ 32); [|vm_compute; discriminate]. apply Z.mul_le_mono_nonneg_r; [lia|]. change (1 + (3 + 32)) with 36 in *. change (3 + 32) with 35 in *. set (P := 256 ^ 35) in *. clearbody P. nia.
    - unfold encode_check. cbv zeta. match goal with |- context [ztake 4 ?x] => set (ck := ztake 4 x) end. assert (wf_bytes ck) as Wk by (apply Forall_ztake, sha_wf). clearbody ck.
      assert (canonical 256 (((c :: h) ++ dg) ++ ck)) as C. { split; [|cbn; lia]. eapply Forall_impl; [|exact (proj2 (wf_bytes_app _ _) (conj W Wk))]. intros a Ha. unfold is_byte in Ha. lia. }
      pose proof (val_bound 256 ltac:(lia) _ (proj1 C)) as Hb. destruct (exists_digits 58 _ ltac:(lia) (proj1 Hb)) as (l & Cl & El).
      pose proof (b58encode_eq 1 _ l C Cl El) as E. cbn [repeat] in E. rewrite <- app_assoc in E. cbn [app] in E. exists (map chr58 l). rewrite <- E. cbn [app]. rewrite <- app_assoc. reflexivity.
  Qed.
  Theorem C128_first_characters a : an_address a ->
    (exists r, ad_address a = (if ad_testnet a then 82 else 49) :: r) /\
    forall w, ad_priv a = Some w -> exists c r, w = c :: r /\ In c [53; 75; 76].
  Proof.
    intro Ma. destruct (address_facts sha256 sha512 ripemd160 S256 Hsha Sord Slen a Ma) as (_ & _ & _ & _ & (t & _ & Ea) & F). split; [rewrite Ea; apply address_lead|]. intros w Ep. rewrite Ep in F. destruct F as (_ & _ & _ & F). specialize (F 0). unfold address_new in F.
    destruct w as [|c r]; [discriminate|]. exists c, r. split; [reflexivity|]. destruct (Z.eqb_spec c 76); [subst; cbn; tauto|]. destruct (Z.eqb_spec c 75); [subst; cbn; tauto|]. destruct (Z.eqb_spec c 53); [subst; cbn; tauto|]. discriminate.
  Qed.
  (** Given as a private or public key, a text that starts otherwise is refused. *)
  Lemma no_private c r vcn rand testnet : ~ In c [53; 75; 76] -> new_address None (Some (c :: r)) vcn rand testnet = Raise ValueError.
  Proof. intro N. unfold address_new. destruct (Z.eqb_spec c 76); [exfalso; apply N; subst; cbn; tauto|]. destruct (Z.eqb_spec c 75); [exfalso; apply N; subst; cbn; tauto|]. destruct (Z.eqb_spec c 53); [exfalso; apply N; subst; cbn; tauto|]. reflexivity. Qed.
  Lemma no_public c r vcn rand testnet : ~ In c [2; 3; 4] -> new_address (Some (c :: r)) None vcn rand testnet = Raise ValueError.
  Proof.
    intro N. unfold address_new, address_finish. destruct (Z.eqb_spec c 4); [exfalso; apply N; subst; cbn; tauto|]. destruct (Z.eqb_spec c 2); [exfalso; apply N; subst; cbn; tauto|]. destruct (Z.eqb_spec c 3); [exfalso; apply N; subst; cbn; tauto|]. reflexivity.
  Qed.
  Theorem C128_address_is_no_key a vcn rand testnet : an_address a ->
    new_address None (Some (ad_address a)) vcn rand testnet = Raise ValueError /\ new_address (Some (ad_address a)) None vcn rand testnet = Raise ValueError /\
    privkey_from_wif sha256 (ad_address a) 0x80 = Raise ValueError.
  Proof.
    intro Ma. destruct (C128_first_characters a Ma) as ((r & E) & _). 
    assert (~ In (if ad_testnet a then 82 else 49) [53; 75; 76]) as N1 by (destruct (ad_testnet a); cbn; lia). assert (~ In (if ad_testnet a then 82 else 49) [2; 3; 4]) as N2 by (destruct (ad_testnet a); cbn; lia).
    split; [rewrite E; now apply no_private|]. split; [rewrite E; now apply no_public|].
    destruct (address_facts sha256 sha512 ripemd160 S256 Hsha Sord Slen a Ma) as (Hv & _ & _ & _ & (t & _ & Ea) & _). rewrite Ea. unfold publickey_to_address.
    unfold privkey_from_wif. rewrite (address_decode sha256 sha_len sha_wf); [|unfold pubkey_digest; cbv zeta; apply sha_wf|destruct (ad_testnet a); constructor; try constructor; unfold is_byte; lia].
    cbn [bind]. destruct (ad_testnet a); cbn [version_byte app]; reflexivity.
  Qed.
  (** A private key is not taken for a public key, nor the reverse. *)
  Theorem C128_keys_differ w k c r vcn rand testnet : privkey_from_wif sha256 w 0x80 = Ok k -> In c [2; 3; 4] ->
    new_address (Some w) None vcn rand testnet = Raise ValueError /\ new_address None (Some (c :: r)) vcn rand testnet = Raise ValueError.
  Proof.
    intros H Hc. apply (wif_inverse sha256 sha_len) in H. destruct H as (Wk & Lk & H). split; [|apply no_private; cbn in *; lia].
    destruct H as [->| ->].
    - destruct (wif_lead_5 sha256 sha_len sha_wf k Wk Lk) as (q & ->). apply no_public. cbn. lia.
    - destruct (wif_lead_KL sha256 sha_len sha_wf k Wk Lk) as (q & [->| ->]); apply no_public; cbn; lia.
  Qed.
  (** Extended keys start with four characters that tell what they are, and
      are neither. *)
  Lemma bip32_lead version d pre depth fp n chain data : 0 < d < 58 -> Forall (fun d => 0 <= d < 58) pre -> 0 < version < 2 ^ 32 -> 2 ^ 24 <= version ->
    val 58 (d :: pre) * 58 ^ 107 <= version * 256 ^ 78 -> (version + 1) * 256 ^ 78 <= (val 58 (d :: pre) + 1) * 58 ^ 107 ->
    0 <= depth < 256 -> wf_bytes fp -> zlen fp = 4 -> wf_bytes chain -> zlen chain = 32 -> wf_bytes data -> zlen data = 33 ->
    exists r, bip32_text sha256 version depth fp n chain data = map chr58 (d :: pre) ++ r.
  Proof.
    intros Hd Fp Hv Hv' L U Hde Wf Lf Wc Lc Wd Ld. unfold bip32_text. set (rest := [depth] ++ fp ++ be_bytes 4 n ++ chain ++ data).
    assert (wf_bytes rest) as Wr by (unfold rest; constructor; [exact Hde|]; repeat (apply wf_bytes_app; split; [first [assumption|apply wf_be_bytes]|]); exact Wd).
    assert (zlen rest = 74) as Lr. { unfold rest. rewrite !zlen_app, zlen_be_bytes, Lf, Lc, Ld. reflexivity. } clearbody rest.
    assert (be_val (be_bytes 4 version) = version) as V4 by (apply be_val_be_bytes_small; change (256 ^ Z.of_nat 4) with (2 ^ 32); lia).
    assert (exists b q, be_bytes 4 version = b :: q /\ b <> 0) as (b & q & Eb & Nb).
    { pose proof (zlen_be_bytes 4 version) as L4. pose proof (wf_be_bytes 4 version) as W4. destruct (be_bytes 4 version) as [|b q]; [discriminate L4|]. exists b, q. split; [reflexivity|]. intros ->. rewrite zlen_cons in L4. rewrite be_val_cons in V4. inversion W4 as [|? ? _ Wq]; subst.
      pose proof (be_val_bound q Wq) as B. assert (zlen q = 3) as Lq by lia. rewrite Lq in B. change (256 ^ 3) with (2 ^ 24) in B. lia. }
    pose proof (be_val_bound rest Wr) as B. rewrite Lr in B.
    apply encode_check_prefix with (k := 107); [apply wf_bytes_app; split; [apply wf_be_bytes|exact Wr]|rewrite Eb; exact Nb|exact Hd|exact Fp|lia| |].
    - rewrite be_val_app, V4, Lr. apply Z.le_trans with (version * 256 ^ 78); [exact L|]. change (256 ^ 78) with (256 ^ 74 * 2 ^ 32). set (P := 256 ^ 74) in *. clearbody P. clear - B. nia.
    - rewrite be_val_app, V4, Lr. apply Z.le_trans with ((version + 1) * 256 ^ 78); [|exact U]. change (256 ^ 78) with (256 ^ 74 * 2 ^ 32). set (P := 256 ^ 74) in *. clearbody P. clear - B. nia.
  Qed.
  Theorem C128_extended w t include_prv : fields_ok w -> hd_extended sha256 S256 w include_prv = Ok t ->
    (exists r, t = bs (if hd_testnet w then if include_prv then "tprv" else "tpub" else if include_prv then "xprv" else "xpub") ++ r) /\
    forall vcn rand testnet, new_address None (Some t) vcn rand testnet = Raise ValueError /\ new_address (Some t) None vcn rand testnet = Raise ValueError.
  Proof.
    intros F E. assert (exists r, t = bs (if hd_testnet w then if include_prv then "tprv" else "tpub" else if include_prv then "xprv" else "xpub") ++ r) as (r & Er).
    { pose proof F as (K & Wc & Lc & Hd & Wp & Lp & Hn). destruct include_prv.
      - destruct (hd_key w) as [d|P] eqn:Ek. 2:{ exfalso. unfold hd_extended in E. rewrite Ek in E. bind_inv E. bind_inv E. bind_inv E. discriminate E. }
        rewrite (C46_private_text_partial sha256 sha512 ripemd160 (fun _ m => m) Hsha w d F Ek) in E. assert (wf_bytes ([0] ++ be_bytes 32 d)) as Wd by (constructor; [unfold is_byte; lia|apply wf_be_bytes]).
        assert (zlen ([0] ++ be_bytes 32 d) = 33) as Ld by (rewrite zlen_app, zlen_be_bytes; reflexivity).
        destruct (hd_testnet w).
        + destruct (bip32_lead 0x04358394 51 [47; 49; 53] (hd_depth w) (hd_parent w) (hd_childnum w) (hd_chain w) ([0] ++ be_bytes 32 d)) as (r & Er); try assumption; try lia; try (vm_compute; discriminate); [repeat (constructor; [lia|]); constructor|]. exists r. change (bs "tprv") with (map chr58 [51; 47; 49; 53]). rewrite <- Er. congruence.
        + destruct (bip32_lead 0x0488ADE4 55 [47; 49; 53] (hd_depth w) (hd_parent w) (hd_childnum w) (hd_chain w) ([0] ++ be_bytes 32 d)) as (r & Er); try assumption; try lia; try (vm_compute; discriminate); [repeat (constructor; [lia|]); constructor|]. exists r. change (bs "xprv") with (map chr58 [55; 47; 49; 53]). rewrite <- Er. congruence.
      - destruct (C46_public_text_partial sha256 w F) as (x & y & P & k & _ & _ & _ & Ck & Et). rewrite Et in E. destruct (compressed_octets k x y Ck) as (Wk & Lk & _).
        destruct (hd_testnet w).
        + destruct (bip32_lead 0x043587CF 51 [47; 52; 34] (hd_depth w) (hd_parent w) (hd_childnum w) (hd_chain w) k) as (r & Er); try assumption; try lia; try (vm_compute; discriminate); [repeat (constructor; [lia|]); constructor|]. exists r. change (bs "tpub") with (map chr58 [51; 47; 52; 34]). rewrite <- Er. congruence.
        + destruct (bip32_lead 0x0488B21E 55 [47; 52; 34] (hd_depth w) (hd_parent w) (hd_childnum w) (hd_chain w) k) as (r & Er); try assumption; try lia; try (vm_compute; discriminate); [repeat (constructor; [lia|]); constructor|]. exists r. change (bs "xpub") with (map chr58 [55; 47; 52; 34]). rewrite <- Er. congruence. }
    split; [now exists r|]. intros vcn rand testnet. rewrite Er. destruct (hd_testnet w), include_prv; (split; [apply no_private|apply no_public]; cbn; lia).
  Qed.
  Example C128_applies : exists a w k, an_address a /\ ad_testnet a = true /\ ad_priv a = Some w /\ privkey_from_wif sha256 w 0x80 = Ok k.
  Proof.
    destruct (one_private sha256 sha512 ripemd160 (fun _ m => m) Hsha true 7 true) as (a & w & E & Ma & Ep & _). pose proof E as E'. unfold address_new in E. destruct w as [|c w]; [discriminate|]. destruct (_ && _); [discriminate|]. 
    destruct (privkey_from_wif sha256 (c :: w) 128) as [k|] eqn:Ek; [|discriminate]. exists a, (c :: w), k. split; [exact Ma|]. split; [|now split].
    unfold address_new in E'. destruct (_ && _) in E'; [discriminate|]. bind_inv E'. bind_inv E'. bind_inv E'. bind_inv E'. unfold address_finish in E'. destruct x2 as [|ch q]; [discriminate|]. bind_inv E'. cbv zeta in E'. bind_inv E'. injection E' as <-. reflexivity.
  Qed.
End Texts.

(** ** Assumptions *)

Print Assumptions C127_kept.
Print Assumptions C127_watch_only.
Print Assumptions C127_private.
Print Assumptions C128_first_characters.
Print Assumptions C128_address_is_no_key.
Print Assumptions C128_keys_differ.
Print Assumptions C128_extended.
