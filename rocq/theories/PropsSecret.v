(** C49, continued: the private key of a loaded wallet is stored whole. *)
From Coq Require Import String ZArith List Lia Bool.
From Verif Require Import PyBase PyVal UtilModel Base58Model NtModel EcModel EcLib DerModel AesModel AesModes KeyModel JsonModel WalletModel WalletProofs.
Import ListNotations.
Open Scope string_scope.
Open Scope list_scope.
Open Scope Z_scope.

(** [s] is the text of the private key of [w]. *)
Definition secret_of (w : wallet) (s : bytes) : Prop :=
  match w with
  | WAddress a => ad_priv a = Some s
  | WHD h => exists d, hd_key h = HPriv d /\ string_to_number s = Ok d
  end.
(** [plain] is two characters with the length of [s], then [s], then at most 15
    characters of padding.  A negative number in the first two characters is
    read as well, with at most 14 characters after them. *)
Definition holds_secret (plain s : bytes) : Prop :=
  exists h n pad, plain = h ++ s ++ pad /\ zlen h = 2 /\ int_of_text 16 h = Some n /\
    ((n = zlen s /\ zlen pad <= 15) \/ (n < 0 /\ zlen (s ++ pad) <= 14)).

Lemma int_of_char c n : int_of_text 16 [c] = Some n -> 0 <= n.
Proof.
  unfold int_of_text. cbn [drop_spaces]. destruct (is_space c); [discriminate|]. cbn [take_sign]. destruct (c =? 43); [discriminate|]. destruct (c =? 45); [discriminate|].
  change (16 =? 16) with true. cbv iota. cbn [drop_0x int_digits]. destruct (digit_value c <? 16).
  - intro H. injection H as <-. unfold digit_value. repeat (match goal with |- context [if ?b then _ else _] => destruct b eqn:? end); lia.
  - destruct ((c =? 95) && false); [discriminate|]. cbn [andb]. discriminate.
Qed.
Lemma unwrap_whole plain s : unwrap_secret plain = Ok s -> holds_secret plain s.
Proof.
  intros H. unfold unwrap_secret in H. destruct (int_of_text 16 (ztake 2 plain)) as [n|] eqn:E; [|discriminate]. cbv zeta in H.
  destruct (Z.ltb_spec (zlen plain) (2 + n)) as [|L1]; [discriminate|]. destruct (Z.ltb_spec (n + 17) (zlen plain)) as [|L2]; [discriminate|]. cbn [orb] in H.
  assert (L : 2 <= zlen plain).
  { destruct plain as [|a [|b r]].
    - discriminate E.
    - change (ztake 2 [a]) with [a] in E. apply int_of_char in E. change (zlen [a]) with 1 in L1. lia.
    - rewrite !zlen_cons. pose proof (zlen_nonneg r). lia. }
  assert (H' : slice 2 (if 2 + n <? 0 then zlen plain + (2 + n) else 2 + n) plain = s) by congruence. clear H. rename H' into H. unfold slice in H. set (k := (if 2 + n <? 0 then zlen plain + (2 + n) else 2 + n) - 2) in H.
  exists (ztake 2 plain), n, (zdrop k (zdrop 2 plain)). rewrite <- H, !ztake_zdrop. split; [reflexivity|]. split; [rewrite zlen_ztake by lia; lia|]. split; [exact E|].
  assert (D : zlen (zdrop 2 plain) = zlen plain - 2) by (rewrite zlen_zdrop by lia; lia).
  destruct (Z.ltb_spec n 0) as [N|N].
  - right. split; [exact N|]. rewrite D. lia.
  - left. unfold k. destruct (Z.ltb_spec (2 + n) 0); [lia|]. rewrite zlen_ztake by lia. rewrite (zlen_zdrop (zdrop 2 plain)) by lia. rewrite D. lia.
Qed.

(** Whatever the file and passphrase, a private key that is loaded is the whole
    key that the file holds, plain or encrypted: nothing is cut off, and no
    more than the padding of one block of the cipher follows it.  The exception
    is an HD wallet whose file gives an integer as public key. *)
Theorem C49_whole_partial : forall sha256 sha512 ripemd160 cv t passphrase typed rand w,
  load_from sha256 sha512 ripemd160 cv t passphrase typed rand = Ok w ->
  match w with WAddress a => ad_priv a <> None | WHD h => exists d, hd_key h = HPriv d end ->
  exists cfg, json_loads t = Ok cfg /\
  ((exists s text stored plain, secret_of w s /\ jget (bs "prvkey") cfg = Some (JStr text) /\ unhexlify text = Ok stored /\
    (plain = stored \/ exists p, (p = passphrase \/ p = typed) /\ wallet_decrypt stored p = Ok plain) /\
    holds_secret plain s) \/
   (exists h d, w = WHD h /\ hd_key h = HPriv d /\ jget (bs "pubkey") cfg = Some (JInt d))).
Proof.
  intros sha256 sha512 ripemd160 cv t passphrase typed rand w H P. unfold load_from in H. bind_inv H. rename x into cfg.
  assert (R : forall v s, read_secret cfg v passphrase typed = Ok s -> exists text stored plain, v = JStr text /\ unhexlify text = Ok stored /\
    (plain = stored \/ exists p, (p = passphrase \/ p = typed) /\ wallet_decrypt stored p = Ok plain) /\ holds_secret plain s).
  { intros v s E. unfold read_secret in E. bind_inv E. bind_inv E. destruct v as [| | |text]; try discriminate. exists text, x, x0. split; [reflexivity|]. split; [assumption|]. split; [|now apply unwrap_whole].
    match goal with X : (if ?b then _ else _) = Ok x0 |- _ => destruct b; [right|left; congruence]; exists (match passphrase with [] => typed | _ => passphrase end); split; [destruct passphrase; tauto|exact X] end. }
  assert (J : forall k v, jfield k cfg = Ok v -> jget (bs k) cfg = Some v) by (intros k v; unfold jfield; destruct (jget (bs k) cfg); congruence).
  destruct (jget (bs "type") cfg) as [[| | |tp]|]; try discriminate. destruct (bytes_eqb tp (bs "HD")); [|destruct (bytes_eqb tp (bs "default")); [|discriminate]]; bind_inv H; injection H as <-.
  - destruct P as (d & P). rename x into h. unfold hd_load in *. match goal with X : bind (jfield "prvkey" cfg) _ = _ |- _ => rename X into L end.
    bind_inv L. bind_inv L. bind_inv L. do 8 bind_inv L. destruct x1 as [key|]; [|discriminate]. bind_inv L. bind_inv L. bind_inv L. bind_inv L.
    assert (K : hd_key h = key). { unfold hd_new in L. bind_inv L. destruct (negb _); [discriminate|]. match type of L with match ?o with _ => _ end = _ => destruct o as [dd|]; [destruct (dd <? 256); [|discriminate]|]; injection L as <-; reflexivity end. }
    assert (key = HPriv d) as -> by congruence. exists cfg. split; [assumption|].
    assert (O : other_key x0 = Some (HPriv d) -> exists h' d', WHD h = WHD h' /\ hd_key h' = HPriv d' /\ jget (bs "pubkey") cfg = Some (JInt d')).
    { intro O. destruct x0; try discriminate. injection O as ->. exists h, d. auto. }
    destruct (jtruth x); [|destruct (jtruth x0); [|right; apply O; congruence]].
    + match goal with X : bind (read_secret _ _ _ _) _ = _ |- _ => rename X into Q end. bind_inv Q. bind_inv Q. match type of Q with Ok (if ?b then _ else _) = _ => destruct b eqn:Z0; [right; apply O; congruence|] end.
      match goal with X : read_secret _ _ _ _ = Ok ?s |- _ => destruct (R _ _ X) as (text & stored & plain & -> & U & D & W); left; exists s, text, stored, plain end.
      split; [exists d; split; [exact P|congruence]|]. split; [now apply J|]. auto.
    + match goal with X : bind (jbytes _) _ = _ |- _ => bind_inv X; bind_inv X; discriminate end.
  - rename x into a. match goal with X : address_load _ _ _ _ _ _ _ _ = _ |- _ => rename X into L end. unfold address_load in L.
    bind_inv L. bind_inv L. bind_inv L. bind_inv L. bind_inv L. bind_inv L.
    assert (F : forall pv q z vcn tn, address_finish sha256 sha512 ripemd160 cv pv q z vcn rand tn = Ok a -> ad_priv a = pv).
    { intros pv q z vcn tn F. unfold address_finish in F. destruct q as [|ch q]; [discriminate|]. bind_inv F. cbv zeta in F. bind_inv F. injection F as <-. reflexivity. }
    assert (N : forall pub priv vcn tn, address_new sha256 sha512 ripemd160 cv pub priv vcn rand tn = Ok a -> exists s, ad_priv a = Some s /\ priv = Some s).
    { intros pub priv vcn tn E. unfold address_new in E. destruct priv as [[|ch r]|]; [apply F in E; congruence| |apply F in E; congruence].
      destruct pub; [discriminate|]. destruct (_ && _); [discriminate|]. do 4 bind_inv E. apply F in E. eauto. }
    assert (S : exists s, ad_priv a = Some s /\ snd x1 = Some s).
    { destruct (snd x1) as [[|b s]|] eqn:Es, x; try discriminate; try (destruct (jtruth _) in L; discriminate); apply given_vcn_ok in L; destruct L as (v & _ & L); apply N in L; exact L. }
    destruct S as (s & E & Es). destruct (jtruth x0); [|injection H2 as <-; discriminate].
    bind_inv H2. injection H2 as <-. injection Es as <-. destruct (R _ _ H6) as (text & stored & plain & -> & U & D & W). exists cfg. split; [assumption|]. left. eexists _, text, stored, plain. split; [exact E|]. split; [now apply J|]. auto.
Qed.
(** That case happens: a file with the private key 0 and the number 5 as public
    key is read as the wallet of the private key 5. *)
Definition sx_number : text := bs "{""type"": ""HD"", ""prvkey"": ""303100"", ""pubkey"": 5, ""chain"": ""0000000000000000000000000000000000000000000000000000000000000000"", ""vcn"": 7, ""testnet"": false, ""depth"": 0, ""childnum"": 0, ""parentfp"": """"}".
Theorem C49_number_refuted : ~ (forall sha256 sha512 ripemd160 cv t passphrase typed rand h d,
  load_from sha256 sha512 ripemd160 cv t passphrase typed rand = Ok (WHD h) -> hd_key h = HPriv d ->
  exists s cfg text stored plain, secret_of (WHD h) s /\ json_loads t = Ok cfg /\ jget (bs "prvkey") cfg = Some (JStr text) /\ unhexlify text = Ok stored /\
    (plain = stored \/ exists p, (p = passphrase \/ p = typed) /\ wallet_decrypt stored p = Ok plain) /\ holds_secret plain s).
Proof.
  intro H. assert (exists h, load_from (fun x => x) (fun x => x) (fun x => x) SECP256k1 sx_number [] [] 0 = Ok (WHD h) /\ hd_key h = HPriv 5) as (h & E & K) by (eexists; split; [vm_compute; reflexivity|reflexivity]).
  destruct (H _ _ _ _ _ _ _ _ _ _ E K) as (s & cfg & text & stored & plain & (d & K' & S) & J & F & U & D & W).
  assert (jget (bs "prvkey") cfg = Some (JStr (bs "303100"))) as F'. { clear - J. vm_compute in J. injection J as <-. vm_compute. reflexivity. }
  assert (text = bs "303100") as -> by congruence. vm_compute in U. assert (stored = [48; 49; 0]) as -> by congruence. clear U F F' J H E.
  assert (d = 5) as -> by congruence. destruct D as [->|(p & [->| ->] & D)]; [|vm_compute in D; discriminate|vm_compute in D; discriminate].
  destruct W as (hh & n & pad & E & L & I & _). destruct hh as [|a [|b [|c hh]]]; try discriminate L; [|rewrite !zlen_cons in L; pose proof (zlen_nonneg hh); lia].
  cbn [app] in E. assert (s ++ pad = [0]) as E' by congruence. destruct s as [|z s]; [vm_compute in S; discriminate|]. cbn [app] in E'. assert (z = 0 /\ s ++ pad = []) as (-> & E'') by (split; congruence). apply app_eq_nil in E''. destruct E'' as (-> & _). vm_compute in S. discriminate.
Qed.
(** A file with a private key of one byte. *)
Definition sx_file : text := bs "{""type"": ""HD"", ""prvkey"": ""303107"", ""pubkey"": null, ""chain"": ""0000000000000000000000000000000000000000000000000000000000000000"", ""vcn"": 7, ""testnet"": false, ""depth"": 0, ""childnum"": 0, ""parentfp"": """"}".
Example C49_whole_applies : forall sha256 sha512 ripemd160,
  (exists h, load_from sha256 sha512 ripemd160 SECP256k1 sx_file [] [] 0 = Ok (WHD h) /\ hd_key h = HPriv 7) /\
  holds_secret (bs "01" ++ [7]) [7] /\ string_to_number [7] = Ok 7 /\ ~ holds_secret (bs "02" ++ [7]) [7].
Proof.
  intros. split; [eexists; split; [vm_compute; reflexivity|reflexivity]|]. split; [|split; [reflexivity|]].
  - exists (bs "01"), 1, []. split; [reflexivity|]. split; [reflexivity|]. split; [reflexivity|]. left. split; [reflexivity|]. vm_compute. discriminate.
  - intros (h & n & pad & E & L & I & D). destruct h as [|a [|b [|c h]]]; try discriminate L; [|rewrite !zlen_cons in L; pose proof (zlen_nonneg h); lia].
    assert (a = 48 /\ b = 50) as (-> & ->) by (cbn in E; split; congruence). assert (n = 2) as -> by (vm_compute in I; congruence). destruct D as [(D & _)|(D & _)]; [discriminate D|lia].
Qed.

(** ** Assumptions *)

Print Assumptions C49_whole_partial.
Print Assumptions C49_number_refuted.
