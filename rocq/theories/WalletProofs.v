(** Wallet files: secrets, addresses and HD wallets read back. *)
From Coq Require Import String ZArith Znumtheory List Lia Bool.
From Verif Require Import PyBase PyVal UtilModel UtilProofs Base58Model Base58Proofs DerModel DerProofs NtModel EcModel AesModel AesModes JsonModel JsonProofs KeyModel KeySpec WalletModel.
From Verif Require Import PropsAes.
Import ListNotations.
Open Scope string_scope.
Open Scope list_scope.
Open Scope Z_scope.

(** ** Secrets *)
Lemma hex2_read n : 0 <= n <= 255 -> int_of_text 16 (hex2 n) = Some n.
Proof.
  intro H. assert (forallb (fun k => match int_of_text 16 (hex2 (Z.of_nat k)) with Some z => z =? Z.of_nat k | None => false end) (seq 0 256) = true) as K by (vm_compute; reflexivity).
  rewrite forallb_forall in K. specialize (K (Z.to_nat n)). rewrite Z2Nat.id in K by lia.
  assert (In (Z.to_nat n) (seq 0 256)) as I by (apply in_seq; lia). specialize (K I). destruct (int_of_text 16 (hex2 n)); [|discriminate]. apply Z.eqb_eq in K. congruence.
Qed.
Lemma hex_digit_byte d : 0 <= d < 16 -> 48 <= hex_digit d <= 102.
Proof. intro H. unfold hex_digit. destruct (d <? 10) eqn:E; lia. Qed.
Lemma hex2_wf n : 0 <= n <= 255 -> wf_bytes (hex2 n).
Proof.
  intro H. pose proof (Z.mod_pos_bound n 16 ltac:(lia)). assert (0 <= n / 16 < 16) by (split; [apply Z.div_pos; lia|apply Z.div_lt_upper_bound; lia]).
  repeat constructor; unfold is_byte; match goal with |- context [hex_digit ?d] => pose proof (hex_digit_byte d ltac:(lia)) end; lia.
Qed.
Lemma unwrap_ok secret pad : 0 <= zlen secret <= 255 -> zlen pad <= 15 -> unwrap_secret (hex2 (zlen secret) ++ secret ++ pad) = Ok secret.
Proof.
  intros H Hp. pose proof (zlen_nonneg pad). unfold unwrap_secret. rewrite (ztake_app_exact (hex2 (zlen secret)) (secret ++ pad) 2 eq_refl). rewrite hex2_read by lia.
  cbv zeta. rewrite !zlen_app. change (zlen (hex2 (zlen secret))) with 2.
  destruct (Z.ltb_spec (2 + (zlen secret + zlen pad)) (2 + zlen secret)); [lia|]. destruct (Z.ltb_spec (zlen secret + 17) (2 + (zlen secret + zlen pad))); [lia|]. cbn [orb].
  destruct (Z.ltb_spec (2 + zlen secret) 0); [lia|]. unfold slice. rewrite zdrop_app_exact by reflexivity. rewrite ztake_app_exact by lia. reflexivity.
Qed.
Lemma hex_text s : wf_bytes s -> Forall (fun c => plain_char c = true /\ c <> 125) (hex_encode s).
Proof.
  induction 1 as [|b s Hb Hs IH]; [constructor|]. unfold is_byte in Hb. cbn [hex_encode flat_map app]. pose proof (Z.mod_pos_bound b 16 ltac:(lia)).
  assert (0 <= b / 16 < 16) by (split; [apply Z.div_pos; lia|apply Z.div_lt_upper_bound; lia]).
  assert (forall d, 0 <= d < 16 -> plain_char (hex_digit d) = true /\ hex_digit d <> 125) as L.
  { intros d Hd. pose proof (hex_digit_byte d Hd). unfold plain_char. split; [|lia]. assert (hex_digit d <> 92) by (unfold hex_digit; destruct (d <? 10) eqn:E; lia). lia. }
  constructor; [apply L; lia|]. constructor; [apply L; lia|exact IH].
Qed.
Lemma hex_plain s : wf_bytes s -> plain (hex_encode s).
Proof. intro H. eapply Forall_impl; [|exact (hex_text s H)]. now intros c []. Qed.
Lemma hex_bare s : wf_bytes s -> no_brace (hex_encode s).
Proof. intro H. eapply Forall_impl; [|exact (hex_text s H)]. now intros c []. Qed.
Lemma jbytes_hex s : wf_bytes s -> jbytes (JStr (hex_encode s)) = Ok s.
Proof. intro H. cbn [jbytes]. unfold unhexlify. now rewrite hex_decode_encode. Qed.
Lemma hex_truth s : s <> [] -> jtruth (JStr (hex_encode s)) = true.
Proof. destruct s; [congruence|reflexivity]. Qed.

(** What is written for a secret is read back, whatever the passphrase. *)
Lemma secret_back secret passphrase typed cfg : wf_bytes secret -> zlen secret <= 238 -> wf_bytes passphrase ->
  exists t enc, wrap_secret secret passphrase = Ok (t, enc) /\ wf_bytes t /\ t <> [] /\
    (jget (bs "encrypted") cfg = Some (JBool enc) -> read_secret cfg (JStr (hex_encode t)) passphrase typed = Ok secret).
Proof.
  intros W L Wp. pose proof (zlen_nonneg secret). unfold wrap_secret. destruct (Z.leb_spec (zlen secret) 255); [|lia]. cbn [negb]. cbv zeta.
  set (u := hex2 (zlen secret) ++ secret).
  assert (wf_bytes u) as Wu by (apply wf_bytes_app; split; [apply hex2_wf; lia|exact W]).
  destruct passphrase as [|a q].
  - exists u, false. split; [reflexivity|]. split; [exact Wu|]. split; [discriminate|]. intro E. unfold read_secret. rewrite (jbytes_hex u Wu). cbn [bind]. rewrite E. cbn [jtruth bind].
    unfold u. rewrite <- (app_nil_r secret) at 2. apply unwrap_ok; [lia|cbn; lia].
  - destruct (C71_wallet_roundtrip u (a :: q) Wu Wp) as (c & E & Wc & Lc & D). rewrite E. cbn [bind]. exists c, true. split; [reflexivity|]. split; [exact Wc|].
    assert (zlen u = 2 + zlen secret) as Lu by (unfold u; rewrite zlen_app; reflexivity).
    pose proof (Z.mod_pos_bound (- zlen u) 16 ltac:(lia)) as B.
    assert (zlen (zero_padded u) = zlen u + (- zlen u) mod 16) as Lz.
    { unfold zero_padded. rewrite zlen_app. f_equal. unfold zlen at 1. rewrite repeat_length. lia. }
    split; [intros ->; change (zlen []) with 0 in Lc; lia|]. intro Ec. unfold read_secret. rewrite (jbytes_hex c Wc). cbn [bind]. rewrite Ec. cbn [jtruth]. rewrite D.
    destruct (Z.ltb_spec 0 (zlen u)); [|lia]. destruct (Z.leb_spec (zlen u) 240); [|lia]. cbn [andb bind].
    unfold zero_padded. unfold u at 1. rewrite <- app_assoc. apply unwrap_ok; [lia|]. unfold zlen at 1. rewrite repeat_length. lia.
Qed.

(** ** Length of Base58 texts *)
Lemma b58_length v : wf_bytes v -> zlen (b58encode v) <= 2 * zlen v.
Proof.
  intro W. destruct (split_bytes v W) as (k & v' & -> & C). pose proof (val_bound 256 ltac:(lia) v' (proj1 C)) as B.
  destruct (exists_digits 58 (val 256 v') ltac:(lia) ltac:(lia)) as (l & Cl & El). rewrite (b58encode_eq k v' l C Cl El).
  rewrite !zlen_app. assert (zlen (map chr58 l) = zlen l) as -> by (unfold zlen; now rewrite map_length).
  assert (zlen (repeat 49 k) = Z.of_nat k) as -> by (unfold zlen; now rewrite repeat_length). assert (zlen (repeat 0 k) = Z.of_nat k) as -> by (unfold zlen; now rewrite repeat_length).
  enough (zlen l <= 2 * zlen v') by lia. pose proof (zlen_nonneg v') as N. destruct (Z.le_gt_cases (zlen l) (2 * zlen v')) as [H|H]; [exact H|exfalso].
  destruct l as [|d l]; [change (zlen []) with 0 in H; lia|]. rewrite zlen_cons in H. destruct Cl as (F & D). inversion F as [|? ? F1 F2]; subst.
  rewrite (val_cons 58 d l) in El. pose proof (val_bound 58 ltac:(lia) l F2).
  assert (58 ^ (2 * zlen v') <= 58 ^ zlen l) by (apply Z.pow_le_mono_r; lia). rewrite Z.pow_mul_r in H1 by lia. change (58 ^ 2) with 3364 in H1.
  assert (256 ^ zlen v' <= 3364 ^ zlen v') by (apply Z.pow_le_mono_l; lia). nia.
Qed.

(** ** Addresses *)
Lemma choose_again v : 0 <= v < 65536 -> forall r, choose_vcn (Some v) r = v.
Proof. intros H r. cbn [choose_vcn]. rewrite land_ffff. now apply Z.mod_small. Qed.
Lemma choose_range v r : 0 <= r < 65536 -> 0 <= choose_vcn v r < 65536.
Proof. intro H. destruct v as [v|]; cbn [choose_vcn]; [|exact H]. rewrite land_ffff. apply Z.mod_pos_bound. lia. Qed.

Lemma given_vcn_ok {A} vcn (f : option Z -> res A) a : given_vcn vcn f = Ok a -> exists v, jint vcn = Ok v /\ f v = Ok a.
Proof. unfold given_vcn. destruct (jint vcn) as [v|e]; [eauto|]. destruct (f None); discriminate. Qed.

Section Files.
  Variable sha256 sha512 ripemd160 : bytes -> bytes.
  Variable cv : curve_info.
  Hypothesis Hsha : forall d, wf_bytes (sha256 d) /\ zlen (sha256 d) = 32.
  Hypothesis Hord : 0 < cv_order cv.
  Hypothesis Hlen : cv_baselen cv = 32.
  Let sha_len x : 4 <= zlen (sha256 x). Proof. destruct (Hsha x). lia. Qed.
  Let sha_wf x : wf_bytes (sha256 x). Proof. apply Hsha. Qed.

  Lemma wif_text w k : privkey_from_wif sha256 w 0x80 = Ok k -> wf_bytes w /\ zlen w <= 76 /\ wf_bytes k /\ zlen k = 32.
  Proof.
    intro H. apply (wif_inverse sha256 sha_len) in H. destruct H as (Wk & Lk & H).
    assert (forall v, wf_bytes v -> zlen v <= 34 -> wf_bytes (encode_check sha256 v) /\ zlen (encode_check sha256 v) <= 76) as L.
    { intros v Wv Lv. unfold encode_check. cbv zeta. set (u := v ++ ztake 4 (sha256 (sha256 v))).
      assert (wf_bytes u) as Wu by (apply wf_bytes_app; split; [exact Wv|apply Forall_ztake, sha_wf]).
      assert (zlen u <= 38) as Lu by (unfold u; rewrite zlen_app, zlen_ztake; [destruct (Hsha (sha256 v)); lia|lia]). split.
      - destruct (b58_roundtrip u Wu) as [O _]. eapply Forall_impl; [|exact O]. intros c Hc.
        assert (Forall is_byte alphabet) as A by (vm_compute; repeat (constructor; [split; discriminate || reflexivity|]); constructor). rewrite Forall_forall in A. now apply A.
      - pose proof (b58_length u Wu). lia. }
    assert (is_byte 0x80 /\ is_byte 1) as [B1 B2] by (unfold is_byte; lia).
    split; [|split; [|now split]]; destruct H as [->| ->]; unfold privkey_to_wif; apply L; cbn [app];
      try (constructor; [exact B1|]); try exact Wk; try (apply wf_bytes_app; split; [exact Wk|constructor; [exact B2|constructor]]); rewrite ?zlen_cons, ?zlen_app; change (zlen [1]) with 1; lia.
  Qed.

  Notation address_new := (address_new sha256 sha512 ripemd160 cv).
  Notation address_finish := (address_finish sha256 sha512 ripemd160 cv).
  (** An address object, as the constructor returns it. *)
  Definition address_made (a : address) : Prop :=
    exists pub priv vcn rand testnet, 0 <= rand < 65536 /\ match pub with Some k => wf_bytes k | None => True end /\ address_new pub priv vcn rand testnet = Ok a.

  Lemma finish_inv priv pub compressed vcn rand testnet a : 0 <= rand < 65536 -> wf_bytes pub -> address_finish priv pub compressed vcn rand testnet = Ok a ->
    ad_priv a = priv /\ ad_testnet a = testnet /\ 0 <= ad_vcn a < 65536 /\ wf_bytes (ad_pub a) /\ zlen (ad_pub a) = 65 /\ (exists r, ad_pub a = 4 :: r) /\
    (exists t, public_text (ad_compressed a) (ad_pub a) = Ok t /\ ad_address a = publickey_to_address sha256 sha512 ripemd160 t (ad_vcn a) (version_byte testnet)) /\
    (zlen pub = 65 -> (exists r, pub = 4 :: r) -> ad_pub a = pub /\ ad_compressed a = compressed).
  Proof.
    intros Hr Wp. unfold WalletModel.address_finish. destruct pub as [|ch r]; [discriminate|]. intro H.
    assert (forall k z, wf_bytes k -> zlen k = 65 -> (exists r, k = 4 :: r) ->
      (let v := choose_vcn vcn rand in let! t := public_text z k in Ok (mk_address priv k z v testnet (publickey_to_address sha256 sha512 ripemd160 t v (version_byte testnet)))) = Ok a ->
      ad_pub a = k /\ ad_compressed a = z /\ ad_priv a = priv /\ ad_testnet a = testnet /\ 0 <= ad_vcn a < 65536 /\ wf_bytes (ad_pub a) /\ zlen (ad_pub a) = 65 /\ (exists r, ad_pub a = 4 :: r) /\
      (exists t, public_text (ad_compressed a) (ad_pub a) = Ok t /\ ad_address a = publickey_to_address sha256 sha512 ripemd160 t (ad_vcn a) (version_byte testnet))) as L.
    { intros k z Wk Lk Sk E. cbv zeta in E. destruct (public_text z k) as [t|e] eqn:Et; [|discriminate]. cbn [bind] in E. injection E as <-. cbn [ad_pub ad_compressed ad_priv ad_testnet ad_vcn ad_address].
      pose proof (choose_range vcn rand Hr). repeat (split; [first [reflexivity|assumption]|]). exists t. split; [exact Et|reflexivity]. }
    destruct (Z.eqb_spec ch 4) as [?Hq|?Hq].
    - subst ch. destruct (Z.eqb_spec (zlen (4 :: r)) 65) as [Hl|Hl]; [|discriminate]. cbn [negb bind fst snd] in H.
      destruct (L (4 :: r) compressed Wp Hl (ex_intro _ r eq_refl) H) as (E1 & E2 & E3). destruct E3 as (E3 & E4 & E5 & E6 & E7 & E8 & E9). do 7 (split; [assumption|]). intros _ _. now split.
    - destruct ((ch =? 2) || (ch =? 3)) eqn:E23; [|discriminate].
      destruct (decompress_with (cv_gen cv) (ch :: r)) as [k|e] eqn:Ed; [|discriminate]. cbn [bind fst snd] in H.
      assert (exists ys, k = [4] ++ r ++ ys /\ zlen r = 32 /\ zlen ys = 32 /\ wf_bytes ys) as (ys & -> & Lr & Ly & Wy).
      { unfold decompress_with in Ed. destruct (Z.eqb_spec ch 4); [contradiction|]. cbn [andb] in Ed.
        destruct ((negb (ch =? 2) && negb (ch =? 3)) || negb (zlen (ch :: r) =? 33)) eqn:Ec; [discriminate|]. apply orb_false_elim in Ec. destruct Ec as [_ Ec]. apply negb_false_iff, Z.eqb_eq in Ec. rewrite zlen_cons in Ec.
        replace (zdrop 1 (ch :: r)) with r in Ed by (change (ch :: r) with ([ch] ++ r); symmetry; now apply zdrop_app_exact).
        bind_inv Ed. bind_inv Ed. bind_inv Ed. destruct x1; [|discriminate]. cbn [negb] in Ed. cbv zeta in Ed. bind_inv Ed. rewrite number_to_string_spec in H3 by exact Hord.
        destruct (_ <? 0); [discriminate|]. destruct (_ <? _); [|destruct (_ =? 1); discriminate]. exists x1. split; [congruence|]. split; [lia|].
        assert (x1 = be_bytes (Z.to_nat (cv_baselen cv)) (if Z.land ch 1 =? Z.land x0 1 then x0 else c_p (g_curve (cv_gen cv)) - x0)) as -> by (unfold cv_baselen, cv_order; congruence).
        rewrite Hlen. split; [apply zlen_be_bytes|apply wf_be_bytes]. }
      inversion Wp as [|? ? Wc Wr]; subst.
      assert (wf_bytes ([4] ++ r ++ ys)) as Wk by (constructor; [unfold is_byte; lia|apply wf_bytes_app; now split]).
      assert (zlen ([4] ++ r ++ ys) = 65) as Lk by (cbn [app]; rewrite zlen_cons, zlen_app; lia).
      destruct (L ([4] ++ r ++ ys) true Wk Lk (ex_intro _ (r ++ ys) eq_refl) H) as (E1 & E2 & E3). destruct E3 as (E3 & E4 & E5 & E6 & E7 & E8 & E9). do 7 (split; [assumption|]).
      intros _ (r' & E'). exfalso. congruence.
  Qed.
  Lemma finish_again a compressed priv t rand : ad_priv a = priv -> 0 <= ad_vcn a < 65536 -> zlen (ad_pub a) = 65 -> (exists r, ad_pub a = 4 :: r) ->
    public_text compressed (ad_pub a) = Ok t ->
    address_finish priv (ad_pub a) compressed (Some (ad_vcn a)) rand (ad_testnet a) =
      Ok (mk_address (ad_priv a) (ad_pub a) compressed (ad_vcn a) (ad_testnet a) (publickey_to_address sha256 sha512 ripemd160 t (ad_vcn a) (version_byte (ad_testnet a)))).
  Proof.
    intros <- Hv Lp (r & Ep) Et. unfold WalletModel.address_finish. rewrite Ep in *. change (4 =? 4) with true. rewrite Lp. cbn [Z.eqb Pos.eqb negb bind fst snd]. cbv zeta.
    rewrite choose_again by exact Hv. rewrite Et. reflexivity.
  Qed.
  Lemma address_eta a : mk_address (ad_priv a) (ad_pub a) (ad_compressed a) (ad_vcn a) (ad_testnet a) (ad_address a) = a. Proof. now destruct a. Qed.
  Lemma key_point_text P k : key_from_point cv P = Ok k -> wf_bytes k /\ zlen k = 65 /\ exists r, k = 4 :: r.
  Proof.
    unfold key_from_point, point_strings. destruct P as [|x y o]; [discriminate|]. rewrite !number_to_string_spec by exact Hord. unfold cv_baselen in Hlen. rewrite Hlen.
    destruct (x <? 0); [discriminate|]. destruct (x <? _); [|destruct (hex_len x mod 2 =? 1); discriminate]. cbn [bind].
    destruct (y <? 0); [discriminate|]. destruct (y <? _); [|destruct (hex_len y mod 2 =? 1); discriminate]. cbn [bind fst snd]. intro H.
    assert (k = [4] ++ be_bytes (Z.to_nat 32) x ++ be_bytes (Z.to_nat 32) y) as -> by congruence. split.
    - constructor; [unfold is_byte; lia|]. apply wf_bytes_app. split; apply wf_be_bytes.
    - split; [|cbn [app]; now eexists]. cbn [app]. rewrite zlen_cons, zlen_app, !zlen_be_bytes. reflexivity.
  Qed.
  (** The invariant of address objects, and reconstruction from their fields. *)
  Lemma address_facts a : address_made a ->
    0 <= ad_vcn a < 65536 /\ wf_bytes (ad_pub a) /\ zlen (ad_pub a) = 65 /\ (exists r, ad_pub a = 4 :: r) /\
    (exists t, public_text (ad_compressed a) (ad_pub a) = Ok t /\ ad_address a = publickey_to_address sha256 sha512 ripemd160 t (ad_vcn a) (version_byte (ad_testnet a))) /\
    match ad_priv a with
    | Some w => wf_bytes w /\ zlen w <= 76 /\ w <> [] /\ forall r, address_new None (Some w) (Some (ad_vcn a)) r (ad_testnet a) = Ok a
    | None => True
    end.
  Proof.
    intros (pub & priv & vcn & rand & testnet & Hr & Wp & H). unfold WalletModel.address_new in H.
    destruct priv as [[|ch w]|].
    1,3: destruct pub as [pub|]; (apply finish_inv in H; [|exact Hr|first [exact Wp|constructor]]); destruct H as (-> & <- & H3 & H4 & H5 & H6 & H7 & _); repeat (split; [assumption|]); exact I.
    destruct pub; [discriminate|]. destruct (negb (ch =? 76) && negb (ch =? 75) && negb (ch =? 53)) eqn:Ec; [discriminate|].
    destruct (privkey_from_wif sha256 (ch :: w) 128) as [k|] eqn:Ek; [|discriminate]. cbn [bind] in H. bind_inv H. bind_inv H. bind_inv H.
    destruct (key_point_text _ _ H2) as (W2 & L2 & S2). pose proof H as Hf.
    apply finish_inv in H; [|exact Hr|exact W2]. destruct H as (E1 & E2 & E3 & E4 & E5 & E6 & E7 & E8). destruct (E8 L2 S2) as [Ep Ez]. subst testnet.
    repeat (split; [assumption|]). rewrite E1. destruct (wif_text _ _ Ek) as (Ww & Lw & _ & _). repeat (split; [assumption|]). split; [discriminate|]. intro r.
    unfold WalletModel.address_new. rewrite Ec. rewrite Ek. cbn [bind]. rewrite H0. cbn [bind]. rewrite H1. cbn [bind]. rewrite H2. cbn [bind]. rewrite <- Ep, <- Ez.
    destruct E7 as (t & Et & Ea). rewrite (finish_again a (ad_compressed a) (Some (ch :: w)) t r E1 E3 E5 E6 Et), <- Ea. now rewrite address_eta.
  Qed.
  (** *** Address files *)
  Definition bare_members (d : jobj) : Prop := Forall (fun m => no_brace (fst m) /\ bare (snd m)) d.
  Ltac jplain := repeat (apply Forall_cons; [split; [vm_compute; repeat (constructor; [first [reflexivity|discriminate]|]); constructor|
    cbn [jplain bare snd]; first [exact I|assumption|vm_compute; repeat (constructor; [first [reflexivity|discriminate]|]); constructor]]|]); apply Forall_nil.
  (** What is written for an address: its members, and what the file says of
      the keys. *)
  Lemma address_members a passphrase : address_made a -> wf_bytes passphrase ->
    exists cfg, address_dump a passphrase = Ok cfg /\ members_plain cfg /\ bare_members cfg /\
      jget (bs "type") cfg = Some (JStr (bs "default")) /\
      forall typed rand, address_load sha256 sha512 ripemd160 cv cfg passphrase typed rand =
        match ad_priv a with
        | Some _ => Ok a
        | None => address_new (Some (ad_pub a)) None (Some (ad_vcn a)) rand (ad_testnet a)
        end.
  Proof.
    intros M Wp. destruct (address_facts a M) as (Hv & Wk & Lk & (r & Ek) & _ & F). unfold address_dump. destruct (ad_priv a) as [w|] eqn:Ea.
    - destruct F as (Ww & Lw & Nw & F).
      destruct (secret_back w passphrase [] [] Ww ltac:(lia) Wp) as (t & enc & Et & Wt & Nt & _). rewrite Et. cbn [bind fst snd].
      pose proof (hex_plain t Wt) as Pt. pose proof (hex_bare t Wt) as Bt.
      eexists. split; [reflexivity|]. split; [jplain|]. split; [jplain|]. split; [reflexivity|]. intros typed rand.
      match goal with |- address_load _ _ _ _ ?c _ _ _ = _ => set (cfg := c) end.
      destruct (secret_back w passphrase typed cfg Ww ltac:(lia) Wp) as (t' & enc' & Et' & _ & _ & R). rewrite Et in Et'. injection Et' as <- <-.
      unfold address_load. change (jfield "pubkey" cfg) with (Ok JNull). change (jfield "prvkey" cfg) with (Ok (JStr (hex_encode t))). cbn [bind]. rewrite (hex_truth t Nt).
      rewrite (R eq_refl). cbn [bind snd]. change (jfield "vcn" cfg) with (Ok (JInt (ad_vcn a))). change (jfield "testnet" cfg) with (Ok (JBool (ad_testnet a))).
      cbn [bind jint jtruth]. destruct w; [congruence|]. apply F.
    - cbn [bind]. pose proof (hex_plain _ Wk) as Pt. pose proof (hex_bare _ Wk) as Bt.
      eexists. split; [reflexivity|]. split; [jplain|]. split; [jplain|]. split; [reflexivity|]. intros typed rand.
      match goal with |- address_load _ _ _ _ ?c _ _ _ = _ => set (cfg := c) end.
      unfold address_load. change (jfield "pubkey" cfg) with (Ok (JStr (hex_encode (ad_pub a)))). change (jfield "prvkey" cfg) with (Ok JNull). cbn [bind]. change (jtruth JNull) with false. cbn [bind snd].
      rewrite hex_truth by (rewrite Ek; discriminate). rewrite (jbytes_hex _ Wk). cbn [bind].
      change (jfield "vcn" cfg) with (Ok (JInt (ad_vcn a))). change (jfield "testnet" cfg) with (Ok (JBool (ad_testnet a))). reflexivity.
  Qed.
  Lemma address_file a passphrase : address_made a -> wf_bytes passphrase ->
    exists t, wallet_text cv (WAddress a) passphrase = Ok t /\
      (forall n typed rand p, (n < List.length t)%nat -> load_from sha256 sha512 ripemd160 cv (firstn n t) p typed rand = Raise ValueError) /\
      forall typed rand, load_from sha256 sha512 ripemd160 cv t passphrase typed rand =
        match ad_priv a with
        | Some _ => Ok (WAddress a)
        | None => let! b := address_new (Some (ad_pub a)) None (Some (ad_vcn a)) rand (ad_testnet a) in Ok (WAddress b)
        end.
  Proof.
    intros M Wp. destruct (address_members a passphrase M Wp) as (cfg & E & P & B & T & L). unfold wallet_text. rewrite E. cbn [bind]. eexists. split; [reflexivity|]. split.
    - intros n typed rand p Hn. unfold load_from. now rewrite (loads_truncated cfg n B Hn).
    - intros typed rand. unfold load_from. rewrite (loads_dumps cfg P). cbn [bind]. rewrite T. change (bytes_eqb (bs "default") (bs "HD")) with false. change (bytes_eqb (bs "default") (bs "default")) with true. cbv beta iota.
      rewrite L. now destruct (ad_priv a).
  Qed.
  (** Watch-only: the text of 65 bytes is kept, without the compression. *)
  Lemma address_watch_only a rand : address_made a -> ad_priv a = None ->
    address_new (Some (ad_pub a)) None (Some (ad_vcn a)) rand (ad_testnet a) =
      Ok (mk_address None (ad_pub a) false (ad_vcn a) (ad_testnet a) (publickey_to_address sha256 sha512 ripemd160 (ad_pub a) (ad_vcn a) (version_byte (ad_testnet a)))).
  Proof.
    intros M E. destruct (address_facts a M) as (Hv & Wk & Lk & S & _). unfold WalletModel.address_new.
    rewrite (finish_again a false None (ad_pub a) rand E Hv Lk S eq_refl). now rewrite E.
  Qed.
  (** *** HD wallet files *)
  (** An HD wallet, as the constructor returns it from byte strings. *)
  Definition hd_made (w : hdwallet) : Prop :=
    match hd_key w with HPriv d => 0 < d < cv_order cv | HPub _ => True end /\ wf_bytes (hd_chain w) /\ zlen (hd_chain w) = 32 /\
    0 <= hd_vcn w < 65536 /\ hd_depth w < 256 /\ wf_bytes (hd_parentfp w).
  Lemma hd_new_made key chain vcn rand testnet depth parentfp childnum w : wf_bytes chain -> wf_bytes parentfp -> 0 <= rand < 65536 ->
    hd_new cv key chain vcn rand testnet depth parentfp childnum = Ok w -> hd_made w /\ hd_key w = key /\ hd_chain w = chain /\ hd_vcn w = choose_vcn vcn rand /\ hd_testnet w = testnet.
  Proof.
    intros Wc Wp Hr. unfold hd_new. intro H. assert (match key with HPriv d => 0 < d < cv_order cv | HPub _ => True end) as K.
    { destruct key as [d|P]; [|exact I]. destruct (Z.ltb_spec 0 d), (Z.ltb_spec d (cv_order cv)); cbn [andb bind] in H; try discriminate. lia. }
    bind_inv H. destruct (Z.eqb_spec (zlen chain) 32) as [L|L]; [|discriminate]. cbn [negb] in H. cbv zeta in H. pose proof (choose_range vcn rand Hr).
    destruct depth as [d|].
    - destruct (Z.ltb_spec d 256); [|discriminate]. injection H as <-. unfold hd_made. cbn [hd_key hd_chain hd_vcn hd_depth hd_parentfp hd_testnet]. repeat split; first [assumption|reflexivity|lia].
    - injection H as <-. unfold hd_made. cbn [hd_key hd_chain hd_vcn hd_depth hd_parentfp hd_testnet].
      assert (wf_bytes (repeat 0 4)) by (repeat (constructor; [unfold is_byte; lia|]); constructor).
      repeat split; first [assumption|reflexivity|lia].
  Qed.
  Lemma hd_parent_wf w : hd_made w -> wf_bytes (hd_parent w).
  Proof. intros (_ & _ & _ & _ & _ & W). unfold hd_parent. destruct (hd_depth w =? 0); [|exact W]. repeat (constructor; [unfold is_byte; lia|]); constructor. Qed.
  (** The wallet that results from a key and the other fields of [w]. *)
  Definition hd_again (w : hdwallet) (key : hdkey) : hdwallet :=
    mk_hd key (hd_chain w) (hd_vcn w) (hd_testnet w) (hd_depth w) (hd_parent w) (hd_childnum w).
  Lemma hd_new_again w key rand : hd_made w -> match key with HPriv d => 0 < d < cv_order cv | HPub _ => True end ->
    hd_new cv key (hd_chain w) (Some (hd_vcn w)) rand (hd_testnet w) (Some (hd_depth w)) (hd_parent w) (hd_childnum w) = Ok (hd_again w key).
  Proof.
    intros (_ & _ & L & V & D & _) K. unfold hd_new, hd_again. rewrite L. change (negb (32 =? 32)) with false. cbv zeta. rewrite (choose_again _ V). destruct (Z.ltb_spec (hd_depth w) 256); [|lia].
    destruct key as [d|P]; cbn [bind]; [|reflexivity]. destruct (Z.ltb_spec 0 d), (Z.ltb_spec d (cv_order cv)); try lia. reflexivity.
  Qed.
  Lemma hd_new_first w key rand tn : hd_made w -> match key with HPriv d => 0 < d < cv_order cv | HPub _ => True end ->
    given_vcn (JInt (hd_vcn w)) (fun v => hd_new cv key (hd_chain w) v rand tn None [] 0) = Ok (mk_hd key (hd_chain w) (hd_vcn w) tn 0 (repeat 0 4) 0).
  Proof.
    intros (_ & _ & L & V & _) K. unfold given_vcn, hd_new. cbn [jint]. rewrite L. change (negb (32 =? 32)) with false. cbv zeta. rewrite (choose_again _ V).
    destruct key as [d|P]; cbn [bind]; [|reflexivity]. destruct (Z.ltb_spec 0 d), (Z.ltb_spec d (cv_order cv)); try lia. reflexivity.
  Qed.
  Lemma hd_secret d : 0 < d < cv_order cv -> exists s, number_to_string d (cv_order cv) = Ok s /\ wf_bytes s /\ zlen s = 32 /\ be_val s = d /\ s <> [].
  Proof.
    intro H. rewrite number_to_string_spec by exact Hord. destruct (orderlen_spec (cv_order cv) Hord) as (_ & B & _). unfold cv_baselen in Hlen. rewrite Hlen in *.
    destruct (Z.ltb_spec d 0); [lia|]. destruct (Z.ltb_spec d (256 ^ 32)); [|lia]. eexists. split; [reflexivity|]. split; [apply wf_be_bytes|]. split; [apply zlen_be_bytes|].
    split; [apply be_val_be_bytes_small; change (Z.of_nat (Z.to_nat 32)) with 32; lia|]. intro E. apply (f_equal zlen) in E. rewrite zlen_be_bytes in E. discriminate.
  Qed.
  Lemma hd_members w passphrase : hd_made w -> wf_bytes passphrase ->
    match hd_key w with
    | HPriv d => exists cfg, hd_dump cv w passphrase = Ok cfg /\ members_plain cfg /\ bare_members cfg /\ jget (bs "type") cfg = Some (JStr (bs "HD")) /\
        forall typed rand, hd_load cv cfg passphrase typed rand = Ok (hd_again w (HPriv d))
    | HPub P => forall k, point_compress cv P = Ok k -> wf_bytes k -> k <> [] ->
        exists cfg, hd_dump cv w passphrase = Ok cfg /\ members_plain cfg /\ bare_members cfg /\ jget (bs "type") cfg = Some (JStr (bs "HD")) /\
        forall p typed rand, hd_load cv cfg p typed rand = let! Q := point_decompress cv k in Ok (hd_again w (HPub Q))
    end.
  Proof.
    intros M Wp. pose proof (hd_parent_wf w M) as Wf. pose proof M as (K & Wc & Lc & V & D & _).
    pose proof (hex_plain _ Wf) as P1. pose proof (hex_bare _ Wf) as B1. pose proof (hex_plain _ Wc) as P2. pose proof (hex_bare _ Wc) as B2.
    unfold hd_dump. destruct (hd_key w) as [d|P] eqn:Ek.
    - destruct (hd_secret d K) as (s & Es & Ws & Ls & Vs & Ns). rewrite Es. cbn [bind].
      destruct (secret_back s passphrase [] [] Ws ltac:(lia) Wp) as (t & enc & Et & Wt & Nt & _). rewrite Et. cbn [bind fst snd].
      pose proof (hex_plain t Wt) as Pt. pose proof (hex_bare t Wt) as Bt.
      eexists. split; [reflexivity|]. split; [jplain|]. split; [jplain|]. split; [reflexivity|]. intros typed rand.
      match goal with |- hd_load _ ?c _ _ _ = _ => set (cfg := c) end.
      destruct (secret_back s passphrase typed cfg Ws ltac:(lia) Wp) as (t' & enc' & Et' & _ & _ & R). rewrite Et in Et'. injection Et' as <- <-.
      unfold hd_load. change (jfield "pubkey" cfg) with (Ok JNull). change (jfield "prvkey" cfg) with (Ok (JStr (hex_encode t))). cbn [bind]. rewrite (hex_truth t Nt).
      rewrite (R eq_refl). cbn [bind]. rewrite string_to_number_spec by exact Ns. cbn [bind]. rewrite Vs. destruct (Z.eqb_spec d 0) as [?Hq|?Hq]; [lia|].
      change (jfield "chain" cfg) with (Ok (JStr (hex_encode (hd_chain w)))). cbn [bind]. rewrite (jbytes_hex _ Wc). cbn [bind].
      change (jfield "vcn" cfg) with (Ok (JInt (hd_vcn w))). change (jfield "testnet" cfg) with (Ok (JBool (hd_testnet w))). change (jfield "depth" cfg) with (Ok (JInt (hd_depth w))).
      change (jfield "childnum" cfg) with (Ok (JInt (hd_childnum w))). change (jfield "parentfp" cfg) with (Ok (JStr (hex_encode (hd_parent w)))). cbn [bind].
      rewrite (jbytes_hex _ Wf). cbn [bind]. rewrite hd_new_first by assumption. cbn [bind jint jtruth]. now apply hd_new_again.
    - intros k E Wk Nk. rewrite E. cbn [bind]. pose proof (hex_plain k Wk) as Pt. pose proof (hex_bare k Wk) as Bt.
      eexists. split; [reflexivity|]. split; [jplain|]. split; [jplain|]. split; [reflexivity|]. intros p typed rand.
      match goal with |- hd_load _ ?c _ _ _ = _ => set (cfg := c) end.
      unfold hd_load. change (jfield "prvkey" cfg) with (Ok JNull). change (jfield "pubkey" cfg) with (Ok (JStr (hex_encode k))). cbn [bind]. change (jtruth JNull) with false. cbv iota. rewrite (hex_truth k Nk).
      rewrite (jbytes_hex k Wk). cbn [bind]. destruct (point_decompress cv k) as [Q|e]; [|reflexivity]. cbn [bind].
      change (jfield "chain" cfg) with (Ok (JStr (hex_encode (hd_chain w)))). cbn [bind]. rewrite (jbytes_hex _ Wc). cbn [bind].
      change (jfield "vcn" cfg) with (Ok (JInt (hd_vcn w))). change (jfield "testnet" cfg) with (Ok (JBool (hd_testnet w))). change (jfield "depth" cfg) with (Ok (JInt (hd_depth w))).
      change (jfield "childnum" cfg) with (Ok (JInt (hd_childnum w))). change (jfield "parentfp" cfg) with (Ok (JStr (hex_encode (hd_parent w)))). cbn [bind].
      rewrite (jbytes_hex _ Wf). cbn [bind]. rewrite hd_new_first by assumption. cbn [bind jint jtruth]. now apply hd_new_again.
  Qed.
  Lemma hd_file w passphrase : hd_made w -> wf_bytes passphrase ->
    match hd_key w with
    | HPriv d => exists t, wallet_text cv (WHD w) passphrase = Ok t /\
        (forall n typed rand p, (n < List.length t)%nat -> load_from sha256 sha512 ripemd160 cv (firstn n t) p typed rand = Raise ValueError) /\
        forall typed rand, load_from sha256 sha512 ripemd160 cv t passphrase typed rand = Ok (WHD (hd_again w (HPriv d)))
    | HPub P => forall k, point_compress cv P = Ok k -> wf_bytes k -> k <> [] ->
        exists t, wallet_text cv (WHD w) passphrase = Ok t /\
        (forall n typed rand p, (n < List.length t)%nat -> load_from sha256 sha512 ripemd160 cv (firstn n t) p typed rand = Raise ValueError) /\
        forall p typed rand, load_from sha256 sha512 ripemd160 cv t p typed rand = let! Q := point_decompress cv k in Ok (WHD (hd_again w (HPub Q)))
    end.
  Proof.
    intros M Wp. pose proof (hd_members w passphrase M Wp) as H. unfold wallet_text. destruct (hd_key w) as [d|P].
    - destruct H as (cfg & E & P & B & T & L). rewrite E. cbn [bind]. eexists. split; [reflexivity|]. split.
      + intros n typed rand p Hn. unfold load_from. now rewrite (loads_truncated cfg n B Hn).
      + intros typed rand. unfold load_from. rewrite (loads_dumps cfg P). cbn [bind]. rewrite T. change (bytes_eqb (bs "HD") (bs "HD")) with true. cbv iota. now rewrite L.
    - intros k Ek Wk Nk. destruct (H k Ek Wk Nk) as (cfg & E & Pl & B & T & L). rewrite E. cbn [bind]. eexists. split; [reflexivity|]. split.
      + intros n typed rand p Hn. unfold load_from. now rewrite (loads_truncated cfg n B Hn).
      + intros p typed rand. unfold load_from. rewrite (loads_dumps cfg Pl). cbn [bind]. rewrite T. change (bytes_eqb (bs "HD") (bs "HD")) with true. cbv iota. rewrite L. now destruct (point_decompress cv k).
  Qed.
End Files.
