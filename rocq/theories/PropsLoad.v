(** C154: what wallet files are loaded as, and how the others are refused. *)
From Coq Require Import String ZArith Znumtheory List Lia Bool.
From Verif Require Import PyBase PyVal PyTextProofs UtilModel UtilProofs Base58Model Base58Proofs DerModel DerProofs NtModel NtJacobi NtSqrt EcModel EcSpec EcProofs EcOrder EcLib EcParams256k1 AesModel AesModes KeyModel KeySpec KeyProofs KeyCases PropsNt PropsEc PropsKey PropsDer PropsFile JsonModel JsonProofs WalletModel WalletProofs HdProofs PropsWallet PropsRefuse.
Import ListNotations.
Open Scope string_scope.
Open Scope list_scope.
Open Scope Z_scope.

Lemma hex_decode_wf s b : hex_decode s = Ok b -> wf_bytes b.
Proof.
  revert b. assert (forall n s b, (List.length s <= n)%nat -> hex_decode s = Ok b -> wf_bytes b) as H; [|intros b; now apply (H (List.length s))].
  induction n as [|n IH]; intros [|x [|y r]] b L E; try discriminate E; try (cbn in L; lia); [cbn in E; assert (b = []) as -> by congruence; constructor|cbn in E; assert (b = []) as -> by congruence; constructor|]. cbn [List.length] in L.
  cbn [hex_decode] in E. destruct (hex_value x) as [u|] eqn:X; [|discriminate]. destruct (hex_value y) as [v|] eqn:Y; [|discriminate]. bind_inv E. match type of E with Ok ?l = _ => assert (b = l) as -> by congruence end.
  assert (forall c w, hex_value c = Some w -> 0 <= w < 16) as V. { intros c w. unfold hex_value. repeat (match goal with |- context [if ?b then _ else _] => destruct b eqn:? end); intro E0; try discriminate; injection E0 as <-; lia. }
  apply V in X, Y. constructor; [unfold is_byte; lia|]. apply (IH r); [lia|assumption].
Qed.
Lemma jbytes_wf v b : jbytes v = Ok b -> wf_bytes b.
Proof. destruct v as [| | |s]; try discriminate. cbn [jbytes]. unfold unhexlify. destruct (hex_decode s) as [b'|] eqn:E; [|discriminate]. intro H. assert (b' = b) as -> by congruence. now apply hex_decode_wf in E. Qed.

Section Load.
  Variable sha256 sha512 ripemd160 : bytes -> bytes.
  Hypothesis Hsha : forall d, wf_bytes (sha256 d) /\ zlen (sha256 d) = 32.
  Notation load := (load_from sha256 sha512 ripemd160 S256).
  Notation an_address := (an_address sha256 sha512 ripemd160).
  Notation p := (c_p secp).

  (** ** What is loaded *)
  (** An address that is loaded is one that the constructor makes, and its text is
      that of its key. *)
  Theorem C154_address t passphrase typed rand a : 0 <= rand < 65536 -> load t passphrase typed rand = Ok (WAddress a) ->
    an_address a /\ 0 <= ad_vcn a < 65536 /\ zlen (ad_pub a) = 65 /\
    exists k, public_text (ad_compressed a) (ad_pub a) = Ok k /\ ad_address a = publickey_to_address sha256 sha512 ripemd160 k (ad_vcn a) (version_byte (ad_testnet a)).
  Proof.
    intros Hr H. assert (an_address a) as M.
    { unfold load_from in H. bind_inv H. destruct (jget (bs "type") x) as [[| | |tp]|]; try discriminate. destruct (bytes_eqb tp (bs "HD")); [bind_inv H; discriminate|]. destruct (bytes_eqb tp (bs "default")); [|discriminate].
      bind_inv H. injection H as ->. unfold address_load in H1. bind_inv H1. bind_inv H1. bind_inv H1. bind_inv H1. bind_inv H1. bind_inv H1.
      destruct (snd x2) as [[|b s]|] eqn:E2.
      - destruct x0; try (destruct (jtruth _) in H1; discriminate). apply given_vcn_ok in H1. destruct H1 as (v & _ & H1). eexists None, _, v, rand, _. split; [exact Hr|]. split; [exact Logic.I|exact H1].
      - destruct x0; try discriminate. apply given_vcn_ok in H1. destruct H1 as (v & _ & H1). eexists None, _, v, rand, _. split; [exact Hr|]. split; [exact Logic.I|exact H1].
      - apply given_vcn_ok in H1. destruct H1 as (v & _ & H1). eexists x3, _, v, rand, _. split; [exact Hr|]. split; [|exact H1].
        match goal with X : (if jtruth x0 then _ else _) = Ok x3 |- _ => destruct (jtruth x0); [|assert (x3 = None) as -> by congruence; exact Logic.I]; bind_inv X; injection X as <- end. eapply jbytes_wf; eassumption. }
    destruct (address_facts sha256 sha512 ripemd160 S256 Hsha Sord Slen a M) as (V & _ & L & _ & (k & E & F) & _). split; [exact M|]. split; [exact V|]. split; [exact L|]. now exists k.
  Qed.
  Lemma point_decompress_on data P : point_decompress S256 data = Ok P -> exists x y, P = PAff x y 0 /\ contains_point secp x y = true.
  Proof.
    unfold point_decompress. destruct data as [|ch r]; [discriminate|]. destruct (negb _); [discriminate|]. intro H. bind_inv H. bind_inv H. unfold point_new in H.
    change (g_curve (cv_gen S256)) with secp in *. destruct (contains_point secp x _) eqn:C; [|discriminate]. injection H as <-. eauto.
  Qed.
  (** So is an HD wallet: its private key is in the range of the curve, or its
      public point satisfies the equation of the curve. *)
  Theorem C154_hd t passphrase typed rand h : 0 <= rand < 65536 -> load t passphrase typed rand = Ok (WHD h) ->
    an_hd h /\ 0 <= hd_vcn h < 65536 /\ zlen (hd_chain h) = 32 /\ hd_depth h < 256 /\
    match hd_key h with HPriv d => 0 < d < secp_n | HPub P => exists x y, P = PAff x y 0 /\ contains_point secp x y = true end.
  Proof.
    intros Hr H. unfold load_from in H. bind_inv H. destruct (jget (bs "type") x) as [[| | |tp]|]; try discriminate.
    destruct (bytes_eqb tp (bs "HD")); [|destruct (bytes_eqb tp (bs "default")); [bind_inv H; discriminate|discriminate]].
    bind_inv H. injection H as ->. unfold hd_load in H1. do 11 bind_inv H1. destruct x2 as [key|]; [|discriminate]. do 4 bind_inv H1.
    assert (wf_bytes x4) as Wc by (eapply jbytes_wf; eassumption). assert (wf_bytes x10) as Wf by (eapply jbytes_wf; eassumption).
    destruct (hd_new_made sha256 sha512 ripemd160 S256 Hsha _ _ _ _ _ _ _ _ _ Wc Wf Hr H1) as (M & K & _).
    split; [eexists _, _, _, _, _, _, _, _; split; [exact Wc|]; split; [exact Wf|]; split; [exact Hr|exact H1]|].
    destruct M as (Mk & _ & Lc & V & D & _). split; [exact V|]. split; [exact Lc|]. split; [exact D|]. rewrite K in *. destruct key as [d|P]; [exact Mk|].
    match goal with X : (if jtruth x0 then _ else _) = Ok (Some (HPub P)) |- _ => rename X into Q end.
    assert (other_key x1 <> Some (HPub P)) as N by (destruct x1; discriminate).
    destruct (jtruth x0); [do 2 bind_inv Q; destruct (_ =? 0) in Q; congruence|]. destruct (jtruth x1); [|congruence]. bind_inv Q. bind_inv Q. match type of Q with Ok (Some (HPub ?y)) = _ => assert (y = P) as -> by congruence end.
    eapply point_decompress_on. eassumption.
  Qed.
  (** What is loaded with its private key can be saved and loaded again. *)
  Theorem C154_saved t passphrase typed rand w q : 0 <= rand < 65536 -> load t passphrase typed rand = Ok w -> has_private w -> wf_bytes q ->
    exists t', wallet_text S256 w q = Ok t' /\ forall typed' rand', exists w', load t' q typed' rand' = Ok w' /\ same_wallet w w'.
  Proof.
    intros Hr H Hp Wq. assert (a_wallet sha256 sha512 ripemd160 w) as M.
    { destruct w as [a|h]; [apply (C154_address _ _ _ _ _ Hr) in H; apply H|]. apply (C154_hd _ _ _ _ _ Hr) in H. destruct H as (M & _ & _ & _ & K). split; [exact M|]. destruct Hp as (d & E). unfold key_ok. rewrite E in *. exact K. }
    destruct (stored sha256 sha512 ripemd160 (fun _ _ => []) Hsha w q M Wq) as (t' & E & _ & _ & L). exists t'. split; [exact E|]. now apply L.
  Qed.

  (** A vcn that stands in the file as a decimal text is the number it tells. *)
  Theorem C154_vcn_text cfg cfg' z passphrase typed rand : 0 <= z -> (forall k, k <> bs "vcn" -> jget k cfg = jget k cfg') -> jget (bs "vcn") cfg = Some (JStr (text_of_int 10 z)) -> jget (bs "vcn") cfg' = Some (JInt z) ->
    address_load sha256 sha512 ripemd160 S256 cfg passphrase typed rand = address_load sha256 sha512 ripemd160 S256 cfg' passphrase typed rand /\
    hd_load S256 cfg passphrase typed rand = hd_load S256 cfg' passphrase typed rand.
  Proof.
    intros Hz Same V V'. assert (jint (JStr (text_of_int 10 z)) = jint (JInt z)) as J by (cbn [jint]; rewrite int_of_text_of_int by auto; reflexivity).
    assert (forall k, bs k <> bs "vcn" -> jfield k cfg = jfield k cfg') as F by (intros k N; unfold jfield; now rewrite (Same _ N)).
    assert (forall v q t, read_secret cfg v q t = read_secret cfg' v q t) as R by (intros; unfold read_secret; rewrite (Same (bs "encrypted")) by discriminate; reflexivity).
    assert (forall {A} (f : option Z -> res A), given_vcn (JStr (text_of_int 10 z)) f = given_vcn (JInt z) f) as G by (intros A f; unfold given_vcn; rewrite J; reflexivity).
    assert (jfield "vcn" cfg = Ok (JStr (text_of_int 10 z))) as W by (unfold jfield; now rewrite V). assert (jfield "vcn" cfg' = Ok (JInt z)) as W' by (unfold jfield; now rewrite V').
    split.
    - unfold address_load. rewrite (F "pubkey"), (F "prvkey"), (F "testnet") by discriminate. rewrite W, W'. destruct (jfield "pubkey" cfg') as [pub|]; [|reflexivity]. cbn [bind]. destruct (jfield "prvkey" cfg') as [prv|]; [|reflexivity]. cbn [bind]. rewrite R.
      match goal with |- bind ?a _ = _ => destruct a as [ks|]; [|reflexivity] end. cbn [bind]. match goal with |- bind ?a _ = _ => destruct a as [pk|]; [|reflexivity] end. cbn [bind]. destruct (jfield "testnet" cfg') as [tn|]; [|reflexivity]. cbn [bind].
      destruct (snd ks) as [[|b s]|]; destruct pub; rewrite ?G; reflexivity.
    - unfold hd_load. rewrite (F "pubkey"), (F "prvkey"), (F "testnet"), (F "chain"), (F "depth"), (F "childnum"), (F "parentfp") by discriminate. rewrite W, W'. destruct (jfield "prvkey" cfg') as [prv|]; [|reflexivity]. cbn [bind]. destruct (jfield "pubkey" cfg') as [pub|]; [|reflexivity]. cbn [bind]. rewrite R.
      match goal with |- bind ?a _ = _ => destruct a as [key|]; [|reflexivity] end. cbn [bind]. destruct (jfield "chain" cfg') as [ch|]; [|reflexivity]. cbn [bind]. destruct (jbytes ch) as [chain|]; [|reflexivity]. cbn [bind]. destruct (jfield "testnet" cfg'); [|reflexivity]. cbn [bind]. destruct (jfield "depth" cfg'); [|reflexivity]. cbn [bind]. destruct (jfield "childnum" cfg'); [|reflexivity]. cbn [bind]. destruct (jfield "parentfp" cfg') as [pf|]; [|reflexivity]. cbn [bind]. destruct (jbytes pf); [|reflexivity]. cbn [bind].
      destruct key; [|reflexivity]. rewrite G, J. reflexivity.
  Qed.

  (** ** How files are refused *)
  Definition load_errors : list exn := [ValueError; KeyError; TypeError; AssertionError; IndexError; RuntimeError; NameError; SquareRootError].
  Ltac this := unfold only, load_errors; cbn [In jbytes jint bind string_to_number bytes_int]; tauto.
  Lemma only_field k cfg : only load_errors (jfield k cfg). Proof. unfold jfield. destruct (jget _ _); this. Qed.
  Lemma only_unhex s : only load_errors (unhexlify s). Proof. unfold unhexlify. destruct (hex_decode s); this. Qed.
  Lemma only_jbytes v : only load_errors (jbytes v). Proof. destruct v; try this. apply only_unhex. Qed.
  Lemma only_jint v : only load_errors (jint v). Proof. destruct v; try this. cbn [jint]. destruct (int_of_text _ _); this. Qed.
  Lemma only_stn s : only load_errors (string_to_number s). Proof. destruct s; [this|]. rewrite string_to_number_spec by discriminate. this. Qed.
  Lemma only_nts x o : 0 < o -> only load_errors (number_to_string x o).
  Proof. intro H. rewrite number_to_string_spec by exact H. destruct (_ <? _); [this|]. destruct (_ <? _); [this|]. destruct (_ =? _); this. Qed.
  Lemma only_with {A} vcn (f : option Z -> res A) : (forall v, only load_errors (f v)) -> only load_errors (given_vcn vcn f).
  Proof. intro H. unfold given_vcn. pose proof (only_jint vcn) as J. destruct (jint vcn); [apply H|]. apply only_bind; [apply H|]. intros _ _. exact J. Qed.
  Lemma only_decrypt c q : wf_bytes c -> wf_bytes q -> only load_errors (wallet_decrypt c q).
  Proof.
    intros Wc Wq. destruct ((zlen c / 16 =? 0) || (16 <=? zlen c / 16) || negb (zlen c mod 16 =? 0)) eqn:B.
    - unfold wallet_decrypt. cbv zeta. rewrite B. this.
    - apply orb_false_iff in B. destruct B as (B & B3). apply orb_false_iff in B. destruct B as (B1 & B2). apply Z.eqb_neq in B1. apply Z.leb_gt in B2. apply negb_false_iff, Z.eqb_eq in B3.
      pose proof (zlen_nonneg c). pose proof (Z_div_mod_eq_full (zlen c) 16) as D. assert (0 <= zlen c / 16) by (apply Z.div_pos; lia).
      destruct (C143_accepts c q Wc Wq B3 ltac:(lia)) as (d & -> & _). exact Logic.I.
  Qed.
  Lemma only_secret cfg v q typed : wf_bytes q -> wf_bytes typed -> only load_errors (read_secret cfg v q typed).
  Proof.
    intros Wq Wt. unfold read_secret. apply only_bind; [apply only_jbytes|]. intros c Ec. apply jbytes_wf in Ec. apply only_bind.
    - match goal with |- context [if ?b then _ else _] => destruct b end; [|this]. apply only_decrypt; [exact Ec|]. now destruct q.
    - intros d _. unfold unwrap_secret. destruct (int_of_text _ _); [|this]. cbv zeta. destruct (_ || _); this.
  Qed.
  Lemma only_root x : only load_errors (square_root_mod_prime (x mod p) p).
  Proof.
    assert (prime p) as Hp by exact (proj1 secp_ok). assert (2 < p) as P2 by reflexivity. assert (0 < p) as P0 by lia. pose proof (Z.mod_pos_bound x p P0) as B. set (a := x mod p) in *. clearbody a.
    assert (forall y, (p | y * y - a) -> only load_errors (square_root_mod_prime a p)) as Yes.
    { intros y (q & D). destruct (proj1 (C57_square_root p a Hp B)) as (r & -> & _); [|this]. exists y. replace (y * y) with (a + q * p) by lia. rewrite Z_mod_plus_full. now apply Z.mod_small. }
    destruct (Z.eq_dec a 0) as [->|Na]; [apply (Yes 0); apply Z.divide_0_r|]. pose proof (symbol_legendre a p Hp P2) as L.
    inversion L as [D E|y N' D E|N' D E]; [apply Z.divide_pos_le in D; lia|now apply (Yes y)|]. rewrite square_root_none; [this|exact Hp|exact B|]. intros (y & D'). apply (D y D').
  Qed.
  Lemma only_point data : only load_errors (point_decompress S256 data).
  Proof.
    unfold point_decompress. destruct data as [|ch r]; [this|]. destruct (negb _); [this|]. apply only_bind; [apply only_stn|]. intros x _. apply only_bind; [apply only_root|]. intros y _.
    unfold point_new. destruct (contains_point _ _ _); this.
  Qed.
  Lemma only_hd_new key chain vcn rand tn depth fp n : only load_errors (hd_new S256 key chain vcn rand tn depth fp n).
  Proof.
    unfold hd_new. apply only_bind; [destruct key; [destruct (_ && _)|]; this|]. intros _ _. destruct (negb _); [this|]. cbv zeta. destruct depth; [destruct (_ <? _)|]; this.
  Qed.
  Lemma only_valid x y : only load_errors (point_is_valid (cv_gen S256) x y).
  Proof. rewrite (is_valid S256 Sok Snp Sgy). this. Qed.
  Lemma only_decompress k : only load_errors (decompress_with (cv_gen S256) k).
  Proof.
    unfold decompress_with. destruct k as [|ch r]; [this|]. destruct (_ && _).
    - do 2 (apply only_bind; [apply only_stn|]; intros ? _). apply only_bind; [apply only_valid|]. intros v _. destruct (negb v); this.
    - destruct (_ || _); [this|]. apply only_bind; [apply only_stn|]. intros x _. apply only_bind; [apply only_root|]. intros y _. apply only_bind; [apply only_valid|]. intros v _. destruct (negb v); [this|]. cbv zeta.
      apply only_bind; [apply only_nts; reflexivity|]. intros s _. this.
  Qed.
  Lemma only_compress k : only load_errors (compress_public_key k).
  Proof. unfold compress_public_key. destruct k as [|ch r]; [this|]. destruct (_ || _); [this|]. apply only_bind; [apply only_stn|]. intros y _. this. Qed.
  Lemma only_finish priv pub z vcn rand tn : only load_errors (address_finish sha256 sha512 ripemd160 S256 priv pub z vcn rand tn).
  Proof.
    unfold address_finish. destruct pub as [|ch r]; [this|]. apply only_bind.
    - destruct (ch =? 4); [destruct (negb _); this|]. destruct (_ || _); [|this]. apply only_bind; [apply only_decompress|]. intros; this.
    - intros a _. cbv zeta. apply only_bind; [|intros; this]. unfold public_text. destruct (snd a); [apply only_compress|this].
  Qed.
  Lemma only_wif w : only load_errors (privkey_from_wif sha256 w 0x80).
  Proof.
    unfold privkey_from_wif. apply only_bind.
    - unfold decode_check. apply only_bind; [|intros; this]. unfold b58decode. cbv zeta. apply only_bind; [|intros; this]. unfold b58decode_int. generalize 0 as z. induction (lstrip 49 w) as [|c v IH]; intro z; cbn [decode_int_loop]; [this|]. destruct (index_of _ _ _); [apply IH|this].
    - intros [[|k0 key]|] _; try this. destruct (negb _); [this|]. destruct (_ =? 33); [destruct w; [this|]; destruct (negb _); this|]. destruct (_ =? 34); [|this]. destruct (negb _); [this|]. destruct w; [this|]. destruct (_ && _); this.
  Qed.
  Lemma only_new pub priv vcn rand tn : only load_errors (address_new sha256 sha512 ripemd160 S256 pub priv vcn rand tn).
  Proof.
    unfold address_new. destruct priv as [[|ch r]|]; [apply only_finish| |apply only_finish]. destruct pub; [this|]. destruct (_ && _); [this|]. apply only_bind; [apply only_wif|]. intros k _. apply only_bind; [apply only_stn|]. intros d _.
    destruct (gen_mul S256 Sok Snp Sgy d) as (R & E & _). apply only_bind; [rewrite E; this|]. intros P _. apply only_bind; [|intros; apply only_finish].
    unfold key_from_point, point_strings. destruct P as [|x y o]; [this|]. apply only_bind; [|intros; this]. apply only_bind; [apply only_nts; reflexivity|]. intros xs _. apply only_bind; [apply only_nts; reflexivity|]. intros; this.
  Qed.
  (** Whatever the file contains, loading it returns a wallet or raises one of
      these exceptions. *)
  Theorem C154_raises t passphrase typed rand : wf_bytes passphrase -> wf_bytes typed -> only load_errors (load t passphrase typed rand).
  Proof.
    intros Wp Wt. unfold load_from. apply only_bind; [unfold json_loads; destruct (read_object t) as [[d u]|]; [destruct (skip_ws u)|]; this|]. intros cfg _.
    destruct (jget (bs "type") cfg) as [[| | |tp]|]; try this. destruct (bytes_eqb tp (bs "HD")); [|destruct (bytes_eqb tp (bs "default")); [|this]]; (apply only_bind; [|intros; this]).
    - unfold hd_load. do 2 (apply only_bind; [apply only_field|]; intros ? _). apply only_bind.
      + destruct (jtruth _); [apply only_bind; [now apply only_secret|]; intros s _; apply only_bind; [apply only_stn|]; intros; this|]. destruct (jtruth _); [|this]. apply only_bind; [apply only_jbytes|]. intros b _. apply only_bind; [apply only_point|]. intros; this.
      + intros key _. apply only_bind; [apply only_field|]. intros ? _. apply only_bind; [apply only_jbytes|]. intros ? _. do 5 (apply only_bind; [apply only_field|]; intros ? _). apply only_bind; [apply only_jbytes|]. intros ? _.
        destruct key as [key|]; [|this]. apply only_bind; [apply only_with; intro; apply only_hd_new|]. intros _ _. apply only_bind; [apply only_jint|]. intros v _. apply only_bind; [match goal with |- context [match ?j with JNull => _ | _ => _ end] => destruct j end; this|].
        intros d _. apply only_bind; [match goal with |- context [match ?j with JNull => _ | _ => _ end] => destruct j end; this|]. intros n _. apply only_hd_new.
    - unfold address_load. do 2 (apply only_bind; [apply only_field|]; intros ? _). apply only_bind; [destruct (jtruth _); [apply only_bind; [now apply only_secret|]; intros; this|this]|]. intros ks _. apply only_bind.
      + destruct (snd ks); [this|]. destruct (jtruth _); [|this]. apply only_bind; [apply only_jbytes|]. intros; this.
      + intros pk _. do 2 (apply only_bind; [apply only_field|]; intros ? _). destruct (snd ks) as [[|b s]|].
        * match goal with |- context [match ?j with JNull => _ | _ => _ end] => destruct j end; first [apply only_with; intro; apply only_new | destruct (jtruth _); this].
        * match goal with |- context [match ?j with JNull => _ | _ => _ end] => destruct j end; first [apply only_with; intro; apply only_new | this].
        * apply only_with. intro. apply only_new.
  Qed.
End Load.
(** The other fields may be anything. *)
Example C154_vcn_text_applies : forall rest, let cfg := rest ++ [(bs "vcn", JStr (text_of_int 10 4660))] in let cfg' := rest ++ [(bs "vcn", JInt 4660)] in
  text_of_int 10 4660 = bs "4660" /\ (forall k, k <> bs "vcn" -> jget k cfg = jget k cfg') /\ jget (bs "vcn") cfg = Some (JStr (text_of_int 10 4660)) /\ jget (bs "vcn") cfg' = Some (JInt 4660).
Proof.
  intros rest cfg cfg'. split; [reflexivity|]. assert (forall k, k <> bs "vcn" -> jget k cfg = jget k cfg') as A.
  { intros k N. unfold cfg, cfg'. induction rest as [|(k', v) r IH]; cbn [app jget]; [destruct (bytes_eqb_spec k (bs "vcn")); [contradiction|reflexivity]|now rewrite IH]. }
  split; [exact A|]. split; [unfold cfg|unfold cfg']; clear; induction rest as [|(k', v) r IH]; try reflexivity; cbn [app jget]; now rewrite IH.
Qed.

(** ** Wallets that cannot be used *)
(** The number x of a watch-only wallet may have any number of bytes. *)
Definition x_far : Z := x6 + 2 * c_p secp.
Definition far_key : bytes := 2 :: be_bytes 33 x_far.
Lemma far_point : exists y, point_decompress SECP256k1 far_key = Ok (PAff x_far y 0).
Proof.
  unfold point_decompress, far_key. change (negb ((2 =? 2) || (2 =? 3))) with false. change (2 =? 2) with true. cbv iota zeta.
  rewrite string_to_number_spec by (intro E; apply (f_equal zlen) in E; rewrite zlen_be_bytes in E; discriminate E).
  rewrite be_val_be_bytes_small by (split; [discriminate|reflexivity]). cbn [bind]. change (g_curve (cv_gen SECP256k1)) with secp.
  pose proof (contains_div secp secp_ok) as CD. assert (prime (c_p secp)) as Hp by exact (proj1 secp_ok). assert (0 < c_p secp) as P0 by reflexivity.
  assert ((c_p secp | 6 * 6 - (x6 * x6 * x6 + c_a secp * x6 + c_b secp))) as D0 by exact (proj2 (proj2 x6_xy)).
  unfold x_far. generalize dependent x6. intros z D0. generalize dependent (c_p secp). intros q CD Hp P0 D0.
  set (x := z + 2 * q). set (e := x * x * x + c_a secp * x + c_b secp).
  assert (q | 6 * 6 - e) as De. { destruct D0 as (u & U). unfold e, x. exists (u - (6 * z * z + 12 * z * q + 8 * q * q + 2 * c_a secp)). rewrite Z.mul_sub_distr_r, <- U. ring. }
  pose proof (Z.mod_pos_bound e q P0) as B. destruct (proj1 (C57_square_root q (e mod q) Hp B)) as (r & E & Hr & R).
  { exists 6. destruct De as (u & U). replace (6 * 6) with (e + u * q) by lia. now rewrite Z_mod_plus_full. }
  rewrite E. cbn [bind]. exists (1 * r mod q). unfold point_new.
  replace (contains_point secp x (1 * r mod q)) with true; [reflexivity|]. symmetry. apply CD. rewrite Z.mul_1_l, Z.mod_small by exact Hr. fold e.
  exists (r * r / q - e / q). pose proof (Z_div_mod_eq_full (r * r) q). pose proof (Z_div_mod_eq_full e q). nia.
Qed.
Definition far_file : text := bs "{""type"": ""HD"", ""prvkey"": null, ""pubkey"": """ ++ hex_encode far_key ++ bs """, ""chain"": ""0000000000000000000000000000000000000000000000000000000000000000"", ""vcn"": 7, ""testnet"": false, ""depth"": 0, ""childnum"": 0, ""parentfp"": """"}".
Lemma far_parsed : json_loads far_file = Ok [(bs "type", JStr (bs "HD")); (bs "prvkey", JNull); (bs "pubkey", JStr (hex_encode far_key)); (bs "chain", JStr (hex_encode (repeat 0 32)));
  (bs "vcn", JInt 7); (bs "testnet", JBool false); (bs "depth", JInt 0); (bs "childnum", JInt 0); (bs "parentfp", JStr [])].
Proof. vm_compute. reflexivity. Qed.
(** A watch-only wallet that is loaded need not have an address, and saving it
    may fail. *)
Theorem C154_watch_only_refuted sha256 sha512 ripemd160 passphrase typed rand : exists h, load_from sha256 sha512 ripemd160 SECP256k1 far_file passphrase typed rand = Ok (WHD h) /\
  (forall q, wallet_text SECP256k1 (WHD h) q = Raise ValueError) /\ (forall v, hd_address sha256 sha512 ripemd160 SECP256k1 h v = Raise ValueError).
Proof.
  destruct far_point as (y & F). assert (point_compress SECP256k1 (PAff x_far y 0) = Raise ValueError) as C.
  { unfold point_compress. rewrite number_to_string_spec by reflexivity. change (if x_far <? 0 then _ else _) with (@Raise bytes ValueError). reflexivity. }
  exists (mk_hd (HPub (PAff x_far y 0)) (repeat 0 32) 7 false 0 [] 0).
  split; [|split; [intro q; unfold wallet_text, hd_dump; cbn [hd_key]; rewrite C; reflexivity|intro v; unfold hd_address, hd_point; cbn [hd_key bind]; rewrite C; reflexivity]].
  unfold load_from. rewrite far_parsed. cbn [bind]. match goal with |- context [jget (bs "type") ?c] => set (cfg := c) end. change (jget (bs "type") cfg) with (Some (JStr (bs "HD"))). cbv iota beta. change (bytes_eqb (bs "HD") (bs "HD")) with true. cbv iota.
  unfold hd_load. change (jfield "prvkey" cfg) with (Ok JNull). change (jfield "pubkey" cfg) with (Ok (JStr (hex_encode far_key))). cbn [bind]. change (jtruth JNull) with false. cbv iota.
  change (jtruth (JStr (hex_encode far_key))) with true. cbv iota. assert (jbytes (JStr (hex_encode far_key)) = Ok far_key) as -> by (apply jbytes_hex; constructor; [unfold is_byte; lia|apply wf_be_bytes]). cbn [bind]. rewrite F. cbn [bind].
  change (jfield "chain" cfg) with (Ok (JStr (hex_encode (repeat 0 32)))). cbn [bind]. change (jbytes (JStr (hex_encode (repeat 0 32)))) with (Ok (repeat 0 32)). cbn [bind]. reflexivity.
Qed.
(** A wallet with a private key may have a negative depth: it has no extended key. *)
Definition deep_file : text := bs "{""type"": ""HD"", ""prvkey"": ""303107"", ""pubkey"": null, ""chain"": ""0000000000000000000000000000000000000000000000000000000000000000"", ""vcn"": 7, ""testnet"": false, ""depth"": -1, ""childnum"": 0, ""parentfp"": """"}".
Theorem C154_depth_refuted sha256 sha512 ripemd160 : exists h, load_from sha256 sha512 ripemd160 SECP256k1 deep_file [] [] 0 = Ok (WHD h) /\ hd_key h = HPriv 7 /\ hd_depth h = -1 /\
  hd_extended sha256 SECP256k1 h true = Raise ValueError.
Proof. eexists. split; [vm_compute; reflexivity|]. split; [reflexivity|]. split; [reflexivity|]. vm_compute. reflexivity. Qed.

(** Files that are refused, one for each exception but two. *)
Definition hd_text (prv pub chain depth : string) : text := bs ("{""type"": ""HD"", ""prvkey"": " ++ prv ++ ", ""pubkey"": " ++ pub ++ ", ""chain"": " ++ chain ++ ", ""vcn"": 7, ""testnet"": false, ""depth"": " ++ depth ++ ", ""childnum"": 0, ""parentfp"": """"}")%string.
Definition zero_chain : string := """0000000000000000000000000000000000000000000000000000000000000000""".
Example C154_applies sha256 sha512 ripemd160 : let load t := load_from sha256 sha512 ripemd160 SECP256k1 t [] [] 0 in
  (exists h, load (hd_text """303107""" "null" zero_chain "3") = Ok (WHD h) /\ has_private (WHD h)) /\
  load (bs "[]") = Raise ValueError /\ load (bs "{}") = Raise RuntimeError /\ load (bs "{""type"": ""HD""}") = Raise KeyError /\
  load (hd_text "7" "null" zero_chain "3") = Raise TypeError /\ load (hd_text """303100""" "null" zero_chain "3") = Raise NameError /\
  load (hd_text """303107""" "null" """00""" "3") = Raise AssertionError /\ load (hd_text """303107""" "null" zero_chain "256") = Raise AssertionError /\
  load (bs "{""type"": ""HD"", ""prvkey"": ""303107"", ""pubkey"": null, ""chain"": ""00"", ""vcn"": ""x"", ""testnet"": false, ""depth"": 3, ""childnum"": 0, ""parentfp"": """"}") = Raise AssertionError /\
  load (bs "{""type"": ""default"", ""prvkey"": ""303107"", ""pubkey"": """", ""vcn"": ""x"", ""testnet"": false}") = Raise ValueError.
Proof. cbv zeta. split; [eexists; split; [vm_compute; reflexivity|exists 7; reflexivity]|]. repeat (split; [vm_compute; reflexivity|]). vm_compute. reflexivity. Qed.

(** ** Assumptions *)

Print Assumptions C154_address.
Print Assumptions C154_hd.
Print Assumptions C154_saved.
Print Assumptions C154_vcn_text.
Print Assumptions C154_raises.
Print Assumptions C154_watch_only_refuted.
Print Assumptions C154_depth_refuted.
