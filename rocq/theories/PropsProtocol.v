(** Properties of the wire protocol (properties C01-C12, C63, C64).
    Vocabulary: [built] values, [wt], [canon], [writable] are in FormatSpec.v;
    the functions of the code are in FormatModel.v and MessagesModel.v. *)
From Coq Require Import String ZArith List Lia Bool Permutation.
From Verif Require Import PyBase PyVal PyTextProofs FormatModel FormatSpec FormatProofs FormatProofs2
  MessagesModel MessagesProofs AlertProofs.
Import ListNotations.
Open Scope string_scope.
Open Scope list_scope.
Open Scope Z_scope.

(** ** C01: wire round-trip *)

(** Classes without a VarInteger field (every message class but [headers]):
    no side condition at all. *)
Theorem C01_wire_roundtrip : forall sha256, (forall x, 4 <= zlen (sha256 x)) ->
  forall t args kw m magic b,
  In t registry -> mt_command t <> "headers" ->
  Forall built args -> Forall built (map snd kw) ->
  new_message t args kw = Ok m -> zlen magic = 4 ->
  msg_binary sha256 m magic = Ok b ->
  forall rest, msg_parse sha256 (b ++ rest) magic =
    Ok (mk_message t (canon_fields (mt_props t) (m_fields m))).
Proof.
  intros sha Hs t args kw m magic b Ht Hh Ha Hk Hm Hmg Hb rest.
  refine (msg_roundtrip sha Hs t args kw m magic b Ht Ha Hk Hm Hmg Hb _ rest).
  apply no_varint_fields.
  assert (Forall (fun t => mt_command t = "headers" \/ Forall (fun e => has_varint (snd e) = false) (mt_props t)) registry) as G.
  { rewrite registry_all. repeat (constructor; [first [left; reflexivity | right; repeat constructor]|]). constructor. }
  rewrite Forall_forall in G. destruct (G t Ht); [contradiction|assumption].
Qed.

(** [headers]: the announced transaction counts must be below 2^32-1. *)
Theorem C01_wire_roundtrip_headers_partial : forall sha256, (forall x, 4 <= zlen (sha256 x)) ->
  forall t args kw m magic b,
  In t registry -> Forall built args -> Forall built (map snd kw) ->
  new_message t args kw = Ok m -> zlen magic = 4 ->
  msg_binary sha256 m magic = Ok b ->
  ok_varints_fields 0xffffffff (mt_props t) (m_fields m) ->
  forall rest, msg_parse sha256 (b ++ rest) magic =
    Ok (mk_message t (canon_fields (mt_props t) (m_fields m))).
Proof. exact msg_roundtrip. Qed.

Definition ex_header (n : Z) : res pyval :=
  construct "BlockHeader" BlockHeader_props
    [VInt 1; VBytes (repeat 7 32); VBytes (repeat 8 32); VInt 1231006505; VInt 486604799; VInt 5; VInt n] [].
Definition t_headers : msg_type :=
  mk_msg_type "Headers" "headers" "headers" [("headers", FArray FtBlockHeader None None)].
Definition t_ping : msg_type := mk_msg_type "Ping" "ping" "ping" [("nonce", FBytes 8)].
Definition t_inv : msg_type :=
  mk_msg_type "Inventory" "inv" "inventory" [("inventory", FArray FtInventoryVector None (Some 50000))].
Definition t_address : msg_type :=
  mk_msg_type "Address" "addr" "address" [("addr_list", FArray FtNetworkAddress None (Some 1000))].
(** A stand-in hash used only in the examples. *)
Definition ex_sha (x : bytes) : bytes := le_bytes 32 (le_val x * 7919 + zlen x).
Definition ex_magic : bytes := [0xf9; 0x6e; 0x62; 0x63].
Lemma ex_sha_len x : 4 <= zlen (ex_sha x).
Proof. unfold ex_sha. rewrite zlen_le_bytes. lia. Qed.

(** The round-trip fails for a header whose transaction count is 2^32-1. *)
Theorem C01_wire_roundtrip_headers_refuted : exists h m b,
  ex_header 0xffffffff = Ok h /\ In t_headers registry /\
  new_message t_headers [VList [h]] [] = Ok m /\
  msg_binary ex_sha m ex_magic = Ok b /\
  exists m', msg_parse ex_sha b ex_magic = Ok m' /\
    m_fields m' <> canon_fields (mt_props t_headers) (m_fields m).
Proof.
  do 3 eexists. split; [vm_compute; reflexivity|]. split; [vm_compute; tauto|].
  split; [vm_compute; reflexivity|]. split; [vm_compute; reflexivity|].
  eexists. split; [vm_compute; reflexivity|]. vm_compute. intro H. discriminate H.
Qed.

Example C01_nonvacuous : exists m b,
  In t_ping registry /\ mt_command t_ping <> "headers" /\
  new_message t_ping [VBytes [1;2;3;4;5;6;7;8]] [] = Ok m /\
  msg_binary ex_sha m ex_magic = Ok b /\
  msg_parse ex_sha (b ++ [1;2;3]) ex_magic = Ok m.
Proof.
  do 2 eexists. split; [vm_compute; tauto|]. split; [discriminate|].
  split; [vm_compute; reflexivity|]. split; [vm_compute; reflexivity|]. vm_compute. reflexivity.
Qed.
Example C01_headers_nonvacuous : exists h m b,
  ex_header 300 = Ok h /\ new_message t_headers [VList [h; h]] [] = Ok m /\
  ok_varints_fields 0xffffffff (mt_props t_headers) (m_fields m) /\
  msg_binary ex_sha m ex_magic = Ok b /\
  msg_parse ex_sha b ex_magic = Ok (mk_message t_headers (canon_fields (mt_props t_headers) (m_fields m))).
Proof.
  do 3 eexists. split; [vm_compute; reflexivity|]. split; [vm_compute; reflexivity|].
  split; [cbn; repeat constructor|].
  split; [vm_compute; reflexivity|]. vm_compute. reflexivity.
Qed.

(** ** C02: variable-length integers *)

Theorem C02_varint_roundtrip_partial : forall x b rest, x < 0xffffffff ->
  varint_binary x = Ok b -> varint_parse (b ++ rest) = Ok (zlen b, x).
Proof. exact varint_roundtrip. Qed.
Theorem C02_varint_total : forall x, (0 <= x < 2 ^ 64) <-> exists b, varint_binary x = Ok b.
Proof.
  intro x. split; [apply varint_binary_ok|]. intros (b & H).
  unfold varint_binary in H. destruct (x <? 0xfd) eqn:E1; [apply struct_pack_ok in H; cbn in H; lia|].
  destruct (x <? 0xffff) eqn:E2; [lia|]. destruct (x <? 0xffffffff) eqn:E3; [lia|].
  bind_inv H. apply struct_pack_ok in H0. cbn in H0. lia.
Qed.
(** Every value of 2^32-1 and above is read back as 255 from one byte. *)
Theorem C02_varint_roundtrip_refuted : forall x b rest, 0xffffffff <= x ->
  varint_binary x = Ok b -> varint_parse (b ++ rest) <> Ok (zlen b, x).
Proof.
  intros x b rest Hx Hb. rewrite (varint_big _ _ rest Hx Hb). intro E. injection E as E1 E2. lia.
Qed.
Example C02_nonvacuous : exists b, varint_binary 0xffffffff = Ok b /\ varint_binary 70000 = Ok [0xfe; 0x70; 0x11; 1; 0].
Proof. eexists. split; [vm_compute; reflexivity|vm_compute; reflexivity]. Qed.

(** ** C03: accepted implies serialisable *)

(** Exactly the [writable] objects serialise to a payload, and a payload below
    4 GiB always gives a frame. *)
Theorem C03_serialisable_partial : forall t args kw m,
  In t registry -> Forall built args -> Forall built (map snd kw) ->
  new_message t args kw = Ok m ->
  (writable_fields (mt_props t) (m_fields m) <->
     exists payload, fields_binary (mt_props t) (m_fields m) = Ok payload) /\
  (forall payload, fields_binary (mt_props t) (m_fields m) = Ok payload ->
     forall sha magic, (zlen payload < 2 ^ 32) <-> (exists b, msg_binary sha m magic = Ok b)).
Proof.
  intros t args kw m Ht Ha Hk Hm. destruct (new_message_wt _ _ _ _ Ht Ha Hk Hm) as (Hmt & Hw & Hbd).
  assert (wf_fts (mt_props t) /\ NoDup (map fst (mt_props t))) as (W & N).
  { pose proof all_types_wf as G. rewrite <- registry_all in G. rewrite Forall_forall in G. apply G in Ht. tauto. }
  split; [now apply writable_fields_iff|].
  intros p Hp sha magic. pose proof (zlen_nonneg p).
  split.
  - intro L. unfold msg_binary. rewrite Hmt, Hp. cbn [bind]. unfold struct_pack. change (struct_range FI) with (0, 4294967296). cbv beta iota.
    replace ((0 <=? zlen p) && (zlen p <? 4294967296)) with true by lia. cbn [bind]. eauto.
  - intros (b & Hb). unfold msg_binary in Hb. rewrite Hmt, Hp in Hb. cbn [bind] in Hb. bind_inv Hb.
    apply struct_pack_ok in H0. cbn in H0. lia.
Qed.

(** Accepted by the constructor, not serialisable: a negative transaction
    count, the address text "1:2", and a non-latin-1 rejection reason. *)
Definition t_reject : msg_type := mk_msg_type "Reject" "reject" "reject"
  [ ("message", FVarStr); ("ccode", FNumber FB false false); ("reason", FVarStr) ].
Theorem C03_serialisable_refuted :
  (exists h m, ex_header (-1) = Ok h /\ new_message t_headers [VList [h]] [] = Ok m /\
     msg_binary ex_sha m ex_magic = Raise StructError) /\
  (exists a m, construct "NetworkAddress" NetworkAddress_props
       [VInt 0; VInt 1; VStr (bs "1:2"); VInt 8333] [] = Ok a /\
     new_message t_address [VList [a]] [] = Ok m /\
     msg_binary ex_sha m ex_magic = Raise StructError) /\
  (exists m, new_message t_reject [VStr (bs "tx"); VInt 1; VStr [8364]] [] = Ok m /\
     msg_binary ex_sha m ex_magic = Raise UnicodeError).
Proof.
  split; [|split].
  - do 2 eexists. split; [vm_compute; reflexivity|]. split; [vm_compute; reflexivity|vm_compute; reflexivity].
  - do 2 eexists. split; [vm_compute; reflexivity|]. split; [vm_compute; reflexivity|vm_compute; reflexivity].
  - eexists. split; [vm_compute; reflexivity|vm_compute; reflexivity].
Qed.
Example C03_nonvacuous : exists m, new_message t_reject [VStr (bs "tx"); VInt 1; VBytes [1;200]] [] = Ok m /\
  writable_fields (mt_props t_reject) (m_fields m).
Proof. eexists. split; [vm_compute; reflexivity|]. cbn. repeat split; repeat constructor. Qed.

(** ** C04: parsed messages are well typed *)

(** A parsed message whose payload was not shorter than its fields has
    well-typed fields (array length limits excepted). *)
Theorem C04_parsed_well_typed_partial : forall sha256 data magic m,
  wf_bytes data -> msg_parse sha256 data magic = Ok m ->
  exists n, fields_parse (mt_props (m_type m)) 0
      (slice 24 (24 + le_val (slice 16 20 data)) data) = Ok (n, m_fields m) /\
    0 <= n /\
    (n <= zlen (slice 24 (24 + le_val (slice 16 20 data)) data) ->
     wt_fields (mt_props (m_type m)) (m_fields m)).
Proof.
  intros sha data magic m Hw H. apply msg_parse_inv in H.
  destruct H as (_ & _ & _ & Ht & _ & n & Hp).
  exists n. split; [exact Hp|].
  assert (wf_fts (mt_props (m_type m)) /\ NoDup (map fst (mt_props (m_type m)))) as (W & N).
  { pose proof all_types_wf as G. rewrite <- registry_all in G. rewrite Forall_forall in G. apply G in Ht. tauto. }
  pose proof (fields_parse_pw (mt_props (m_type m))) as G.
  assert (Forall (fun e => pw (snd e)) (mt_props (m_type m))) as PW by (apply Forall_forall; intros; apply parse_wt).
  assert (wf_bytes (slice 24 (24 + le_val (slice 16 20 data)) data)) as Hw' by now apply Forall_slice.
  exact (G PW W _ 0 n _ Hw' ltac:(lia) Hp).
Qed.

(** A [ping] with an empty payload parses to a nonce of the wrong length, and
    [inv] frames ignore the declared maximum. *)
Theorem C04_parsed_well_typed_refuted :
  (exists b m, msg_parse ex_sha b ex_magic = Ok m /\ m_type m = t_ping /\
     ~ wt_fields (mt_props t_ping) (m_fields m)) /\
  (exists t b v, t = FArray (FBytes 1) (Some 1) (Some 2) /\ parse t b = Ok (4, v) /\ ~ bounds_ok t v) /\
  (exists p fs, In (mk_msg_type "GetBlocks" "getblocks" "get_blocks"
        [ ("version", FNumber FI false false);
          ("block_locator_hashes", FArray (FBytes 32) (Some 1) None);
          ("hash_stop", FBytes 32) ]) registry /\
     fields_parse [ ("version", FNumber FI false false);
          ("block_locator_hashes", FArray (FBytes 32) (Some 1) None);
          ("hash_stop", FBytes 32) ] 0 p = Ok (zlen p, fs) /\
     ~ bounds_ok_fields [ ("version", FNumber FI false false);
          ("block_locator_hashes", FArray (FBytes 32) (Some 1) None);
          ("hash_stop", FBytes 32) ] fs).
Proof.
  split; [|split].
  - exists (ex_magic ++ pad_command (bs "ping") ++ le_bytes 4 0 ++ ztake 4 (ex_sha (ex_sha []))).
    eexists. split; [vm_compute; reflexivity|]. split; [reflexivity|].
    cbn. intros (_ & (_ & H) & _). discriminate H.
  - exists (FArray (FBytes 1) (Some 1) (Some 2)), [3; 5; 6; 7]. eexists.
    split; [reflexivity|]. split; [vm_compute; reflexivity|]. cbn. intros (_ & _ & H).
    specialize (H 2 eq_refl). vm_compute in H. now apply H.
  - exists (le_bytes 4 70002 ++ [0] ++ repeat 9 32). eexists.
    split; [vm_compute; tauto|]. split; [vm_compute; reflexivity|].
    cbn. intros (_ & (_ & H & _) & _). specialize (H 1 eq_refl). vm_compute in H. now apply H.
Qed.
Example C04_nonvacuous : exists m, let b := ex_magic ++ pad_command (bs "ping") ++ le_bytes 4 8 ++
     ztake 4 (ex_sha (ex_sha [1;2;3;4;5;6;7;8])) ++ [1;2;3;4;5;6;7;8] in
  wf_bytes b /\ msg_parse ex_sha b ex_magic = Ok m /\ zlen (slice 24 (24 + le_val (slice 16 20 b)) b) = 8.
Proof.
  eexists. cbv zeta. split; [|split; [vm_compute; reflexivity|vm_compute; reflexivity]].
  vm_compute. repeat constructor; discriminate.
Qed.

(** ** C05: frame integrity *)

Theorem C05_frame_integrity : forall sha256 data magic m,
  msg_parse sha256 data magic = Ok m ->
  let payload := slice 24 (24 + le_val (slice 16 20 data)) data in
  slice 0 4 data = magic /\ slice 20 24 data = ztake 4 (sha256 (sha256 payload)).
Proof. intros sha data magic m H. apply msg_parse_inv in H. cbv zeta in *. tauto. Qed.
Theorem C05_bad_magic : forall sha256 data magic,
  slice 0 4 data <> magic -> msg_parse sha256 data magic = Raise MsgFormatError.
Proof. exact msg_parse_bad_magic. Qed.
Theorem C05_bad_checksum : forall sha256 data magic,
  24 <= zlen data ->
  slice 20 24 data <> ztake 4 (sha256 (sha256 (slice 24 (24 + le_val (slice 16 20 data)) data))) ->
  msg_parse sha256 data magic = Raise MsgFormatError.
Proof. exact msg_parse_bad_checksum. Qed.
(** Whatever the bytes, a complete header leads to one of the three documented
    errors or to a message. *)
Theorem C05_parse_errors : forall sha256 data magic e,
  wf_bytes data -> 24 <= zlen data -> msg_parse sha256 data magic = Raise e ->
  e = MsgFormatError \/ e = UnknownMsgError \/ e = ParameterError.
Proof. exact msg_parse_total. Qed.
Example C05_nonvacuous : exists m,
  msg_parse ex_sha (ex_magic ++ pad_command (bs "ping") ++ le_bytes 4 8 ++
     ztake 4 (ex_sha (ex_sha [1;2;3;4;5;6;7;8])) ++ [1;2;3;4;5;6;7;8]) ex_magic = Ok m /\
  msg_parse ex_sha (ex_magic ++ pad_command (bs "ping") ++ le_bytes 4 8 ++
     ztake 4 (ex_sha (ex_sha [1;2;3;4;5;6;7;8])) ++ [9;2;3;4;5;6;7;8]) ex_magic = Raise MsgFormatError.
Proof. eexists. split; [vm_compute; reflexivity|vm_compute; reflexivity]. Qed.

(** ** C06: frame length *)

Theorem C06_frame_length : forall sha256, (forall x, 4 <= zlen (sha256 x)) ->
  forall m magic b, In (m_type m) registry -> zlen magic = 4 ->
  msg_binary sha256 m magic = Ok b ->
  forall rest, first_msg_len (b ++ rest) = Some (zlen b).
Proof. exact msg_binary_len. Qed.
Theorem C06_short_header : forall data, zlen data < 20 -> first_msg_len data = None.
Proof. intros data H. unfold first_msg_len. destruct (Z.ltb_spec (zlen data) 20); [reflexivity|lia]. Qed.
Example C06_nonvacuous : exists m b, new_message t_ping [VBytes (repeat 1 8)] [] = Ok m /\
  In (m_type m) registry /\ msg_binary ex_sha m ex_magic = Ok b /\ zlen b = 32.
Proof.
  do 2 eexists. split; [vm_compute; reflexivity|]. split; [vm_compute; tauto|]. split; [vm_compute; reflexivity|vm_compute; reflexivity].
Qed.

(** ** C07: commands and registration *)

Theorem C07_command_selects_class : forall sha256 data magic m,
  msg_parse sha256 data magic = Ok m ->
  lookup_command (strip0 (slice 4 16 data)) = Some (m_type m) /\
  strip0 (slice 4 16 data) = bs (mt_command (m_type m)).
Proof.
  intros sha data magic m H. pose proof H as H'. apply msg_parse_inv in H'.
  destruct H' as (_ & _ & _ & Ht & Hc & _). split; [|exact Hc]. rewrite Hc.
  pose proof lookup_registered as G. rewrite Forall_forall in G. now apply G.
Qed.
Theorem C07_unknown_command : forall sha256 data magic,
  24 <= zlen data -> slice 0 4 data = magic ->
  slice 20 24 data = ztake 4 (sha256 (sha256 (slice 24 (24 + le_val (slice 16 20 data)) data))) ->
  (forall t, In t registry -> bs (mt_command t) <> strip0 (slice 4 16 data)) ->
  msg_parse sha256 data magic = Raise UnknownMsgError.
Proof.
  intros sha data magic Hl Hm Hc Hn. unfold msg_parse. rewrite Hm, bytes_eqb_refl. cbn [negb].
  unfold struct_unpack. replace (zlen (slice 16 20 data) =? Z.of_nat (nf_len FI)) with true.
  2:{ unfold slice. rewrite zlen_ztake, zlen_zdrop by lia. cbn. lia. }
  cbn [bind nf_signed andb]. unfold sha256d. rewrite <- Hc, bytes_eqb_refl. cbn [negb].
  destruct (lookup_command (strip0 (slice 4 16 data))) eqn:E; [|reflexivity].
  apply lookup_in in E. destruct E as (E1 & E2). now apply Hn in E1.
Qed.
(** A class that sets [not_regist = True] is registered all the same. *)
Theorem C07_opt_out_refuted : exists d t, In d class_defs /\ cd_not_regist d = Some true /\
  resolve d = Some t /\ In t registry /\ lookup_command (bs (mt_command t)) = Some t.
Proof.
  exists (nth 18 class_defs (mk_class "" "" None None None None)). eexists.
  split; [apply nth_In; vm_compute; repeat constructor|].
  split; [vm_compute; reflexivity|]. split; [vm_compute; reflexivity|]. split; [vm_compute; tauto|vm_compute; reflexivity].
Qed.
(** In fact no class opts out. *)
Theorem C07_all_registered : forall d t, In d class_defs -> resolve d = Some t -> In t registry.
Proof.
  intros d t Hd Hr. rewrite registry_all. unfold all_types. apply in_flat_map. exists d. split; [exact Hd|].
  rewrite Hr. now left.
Qed.

(** ** C08, C09: IP addresses *)

Theorem C08_ip_roundtrip : forall b, wf_bytes b -> zlen b = 16 -> forall rest, exists s,
  ip_parse (b ++ rest) = Ok (16, VStr s) /\ s = ip_text b /\
  ip_binary (VStr s) = Ok b /\ ip_validate (VStr s) = Ok (Some (VStr s)).
Proof.
  intros b Hw Hl rest. exists (ip_text b). split; [now apply ip_parse_spec|]. split; [reflexivity|].
  now apply ip_binary_text.
Qed.
Example C08_nonvacuous :
  ip_text [0;0;0;0;0;0;0;0;0;0;255;255;127;0;0;1] = bs "127.0.0.1" /\
  ip_text [0x20;1;0x0d;0xb8;0;0;0;0;0;0;0;0;0;0;0;1] = bs "2001:db8:0:0:0:0:0:1".
Proof. split; [vm_compute; reflexivity|vm_compute; reflexivity]. Qed.

(** Every text that serialises is accepted, and every rejected one does not
    serialise; the converse needs eight groups. *)
Theorem C09_ip_validator_partial : forall s,
  (forall b, ip_binary (VStr s) = Ok b -> ip_validate (VStr s) = Ok (Some (VStr s)) /\ zlen b = 16) /\
  (ip_validate (VStr s) = Ok (Some (VStr s)) ->
     (exists g, ipv4_groups s = Some g) \/ (exists g, ipv6_groups s = Ok (Some g) /\ zlen g = 8) ->
     exists b, ip_binary (VStr s) = Ok b).
Proof.
  intro s. split.
  - intros b H. pose proof (ip_binary_len _ _ H) as (L & _). split; [|exact L].
    unfold ip_binary in H. unfold ip_validate. destruct (ipv4_groups s); [reflexivity|].
    destruct (ipv6_groups s) as [[g|]|]; try discriminate. reflexivity.
  - intros Hv Hg. apply (writable_ft FIP); [exact I|exact Hv|exact Hg].
Qed.
(** The validator accepts "1:2", which does not serialise, and it raises on a
    group that is not hexadecimal instead of returning None. *)
Theorem C09_ip_validator_refuted :
  (exists s, ip_validate (VStr s) = Ok (Some (VStr s)) /\ ip_binary (VStr s) = Raise StructError) /\
  (exists s, ip_validate (VStr s) = Raise ValueError).
Proof.
  split; [exists (bs "1:2")|exists (bs "1:xyz")]; [split|]; vm_compute; reflexivity.
Qed.

(** ** C10: constructor arguments *)

Lemma zip_keys {A B} (ks : list A) (vs : list B) : zlen vs <= zlen ks ->
  exists r, ks = map fst (zip ks vs) ++ r /\ zlen (zip ks vs) = zlen vs.
Proof.
  revert vs. induction ks as [|k ks IH]; intros [|v vs] H; cbn.
  - exists []. split; reflexivity.
  - exfalso. unfold zlen in H. cbn [length] in H. lia.
  - exists (k :: ks). split; reflexivity.
  - destruct (IH vs) as (r & E & L); [unfold zlen in *; cbn [length] in *; lia|].
    exists r. split; [now f_equal|]. unfold zlen in *. cbn [length]. lia.
Qed.
Lemma NoDup_app_l {A} (a b : list A) : NoDup (a ++ b) -> NoDup a.
Proof.
  induction a as [|x a IH]; intro H; [constructor|]. inversion H; subst. constructor; [|auto].
  intro K. apply H2. apply in_or_app. now left.
Qed.
Lemma mem_key_in {A} k (l : list (string * A)) : mem_key k l = true <-> In k (map fst l).
Proof.
  unfold mem_key. induction l as [|(k', v) l IH]; cbn; [split; [discriminate|tauto]|].
  destruct (String.eqb_spec k k'); cbn.
  - split; auto.
  - rewrite IH. split; [auto|]. intros [E|E]; [congruence|assumption].
Qed.

(** With no surplus positional argument, construction succeeds only if the
    positional names and the keywords are, together, the declared fields in
    some order, each once. *)
Theorem C10_constructor_arguments_partial : forall c props args kw v,
  NoDup (map fst props) -> NoDup (map fst kw) -> zlen args <= zlen props ->
  construct c props args kw = Ok v ->
  Permutation (firstn (length args) (map fst props) ++ map fst kw) (map fst props).
Proof.
  intros c props args kw v Hn Hk Hl H. unfold construct in H.
  destruct (existsb _ kw) eqn:E1 in H; [discriminate|].
  destruct (existsb _ kw) eqn:E2 in H; [discriminate|].
  destruct (Z.eqb_spec (zlen (zip (map fst props) args ++ kw)) (zlen (map fst props))) as [E3|]; [|discriminate].
  destruct (zip_keys (map fst props) args) as (r & Er & Lz).
  { unfold zlen in *. rewrite map_length. exact Hl. }
  assert (firstn (length args) (map fst props) = map fst (zip (map fst props) args)) as ->.
  { rewrite Er at 1. rewrite firstn_app. rewrite map_length. 
    unfold zlen in Lz. replace (length (zip (map fst props) args)) with (length args) by lia.
    rewrite Nat.sub_diag. cbn. rewrite app_nil_r. apply firstn_all2. rewrite map_length. lia. }
  apply NoDup_Permutation_bis.
  - assert (NoDup (map fst (zip (map fst props) args))) as N1.
    { rewrite Er in Hn. exact (NoDup_app_l _ _ Hn). }
    assert (forall k, In k (map fst (zip (map fst props) args)) -> ~ In k (map fst kw)) as N2.
    { intros k K1 K2. apply in_map_iff in K2. destruct K2 as ((k2, v2) & <- & K2).
      assert (existsb (fun e : string * pyval => mem_key (fst e) (zip (map fst props) args)) kw = true) as K3.
      { apply existsb_exists. exists (k2, v2). split; [exact K2|]. now apply mem_key_in. }
      rewrite K3 in E1. discriminate. }
    clear - N1 N2 Hk. induction (map fst (zip (map fst props) args)) as [|a l IH]; [assumption|].
    cbn. inversion N1; subst. constructor.
    + rewrite in_app_iff. intros [?|K]; [auto|]. eapply N2; [left; reflexivity|exact K].
    + apply IH; [assumption|]. intros k K. apply N2. now right.
  - rewrite app_length, !map_length. rewrite zlen_app in E3. unfold zlen in E3. rewrite map_length in E3. lia.
  - intros k K. apply in_app_iff in K. destruct K as [K|K].
    + rewrite Er. apply in_or_app. now left.
    + apply in_map_iff in K. destruct K as ((k2, v2) & <- & K).
      destruct (in_dec string_dec k2 (map fst props)) as [|Hnot]; [assumption|]. exfalso.
      assert (existsb (fun e : string * pyval => negb (existsb (String.eqb (fst e)) (map fst props))) kw = true) as K3.
      { apply existsb_exists. exists (k2, v2). split; [exact K|]. cbn [fst].
        destruct (existsb (String.eqb k2) (map fst props)) eqn:E4; [|reflexivity].
        apply existsb_exists in E4. destruct E4 as (y & Y1 & Y2). apply String.eqb_eq in Y2. subst. contradiction. }
      rewrite K3 in E2. discriminate.
Qed.
(** A missing field always raises. *)
Theorem C10_missing_field : forall c props args kw k,
  NoDup (map fst props) -> NoDup (map fst kw) -> zlen args <= zlen props ->
  In k (map fst props) -> ~ In k (firstn (length args) (map fst props)) -> ~ In k (map fst kw) ->
  forall v, construct c props args kw <> Ok v.
Proof.
  intros c props args kw k Hn Hk Hl Hin H1 H2 v H.
  apply C10_constructor_arguments_partial in H; try assumption.
  apply Permutation_sym in H. apply (Permutation_in k) in H; [|assumption].
  apply in_app_iff in H. tauto.
Qed.
(** A surplus positional argument is dropped silently. *)
Theorem C10_constructor_arguments_refuted : exists v,
  construct "OutPoint" OutPoint_props [VBytes (repeat 1 32); VInt 0; VInt 99] [] = Ok v /\
  construct "OutPoint" OutPoint_props [VBytes (repeat 1 32); VInt 0] [] = Ok v.
Proof. eexists. split; [vm_compute; reflexivity|vm_compute; reflexivity]. Qed.
Example C10_nonvacuous : exists v,
  construct "OutPoint" OutPoint_props [VBytes (repeat 1 32)] [("index", VInt 0)] = Ok v /\
  NoDup (map fst OutPoint_props).
Proof. eexists. split; [vm_compute; reflexivity|]. repeat constructor; cbn; intuition discriminate. Qed.

(** ** C11: unambiguous serialisation *)

Theorem C11_unambiguous : forall sha256, (forall x, 4 <= zlen (sha256 x)) ->
  forall t a1 k1 m1 b1 a2 k2 m2 b2 magic r1 r2,
  In t registry -> zlen magic = 4 ->
  Forall built a1 -> Forall built (map snd k1) -> new_message t a1 k1 = Ok m1 ->
  Forall built a2 -> Forall built (map snd k2) -> new_message t a2 k2 = Ok m2 ->
  ok_varints_fields 0xffffffff (mt_props t) (m_fields m1) ->
  ok_varints_fields 0xffffffff (mt_props t) (m_fields m2) ->
  msg_binary sha256 m1 magic = Ok b1 -> msg_binary sha256 m2 magic = Ok b2 ->
  b1 ++ r1 = b2 ++ r2 ->
  b1 = b2 /\ canon_fields (mt_props t) (m_fields m1) = canon_fields (mt_props t) (m_fields m2).
Proof.
  intros sha Hs t a1 k1 m1 b1 a2 k2 m2 b2 magic r1 r2 Ht Hmg A1 K1 M1 A2 K2 M2 V1 V2 B1 B2 E.
  pose proof (msg_roundtrip sha Hs t a1 k1 m1 magic b1 Ht A1 K1 M1 Hmg B1 V1 r1) as R1.
  pose proof (msg_roundtrip sha Hs t a2 k2 m2 magic b2 Ht A2 K2 M2 Hmg B2 V2 r2) as R2.
  rewrite E, R2 in R1. injection R1 as R1. split; [|now symmetry].
  destruct (new_message_wt _ _ _ _ Ht A1 K1 M1) as (T1 & _).
  destruct (new_message_wt _ _ _ _ Ht A2 K2 M2) as (T2 & _).
  pose proof (msg_binary_len sha Hs m1 magic b1 ltac:(now rewrite T1) Hmg B1 r1) as L1.
  pose proof (msg_binary_len sha Hs m2 magic b2 ltac:(now rewrite T2) Hmg B2 r2) as L2.
  rewrite E, L2 in L1. injection L1 as L1.
  rewrite <- (ztake_app_exact b1 r1 (zlen b1) eq_refl), E, <- L1. now apply ztake_app_exact.
Qed.
Example C11_nonvacuous : exists m1 m2, new_message t_ping [VBytes (repeat 1 8)] [] = Ok m1 /\
  new_message t_ping [VBytes (repeat 2 8)] [] = Ok m2 /\
  canon_fields (mt_props t_ping) (m_fields m1) <> canon_fields (mt_props t_ping) (m_fields m2).
Proof. do 2 eexists. split; [vm_compute; reflexivity|]. split; [vm_compute; reflexivity|]. vm_compute. congruence. Qed.

(** ** C12: hashes *)

Lemma validate_props_keys props params fs : validate_props props params = Ok fs -> map fst fs = map fst props.
Proof.
  revert fs. induction props as [|(k, t) r IH]; intros fs H; cbn [validate_props] in H.
  - inv H. reflexivity.
  - destruct (assoc k params); [|discriminate]. bind_inv H. destruct x; [|discriminate]. bind_inv H. inv H. cbn. f_equal. auto.
Qed.
Lemma construct_keys c c' props args kw fs : construct c props args kw = Ok (VObj c' fs) -> map fst fs = map fst props.
Proof.
  unfold construct. intro H. repeat match type of H with (if ?b then _ else _) = _ => destruct b; [discriminate|] end.
  bind_inv H. inv H. eapply validate_props_keys; eauto.
Qed.
Lemma assoc_none_in {A} k (l : list (string * A)) : ~ In k (map fst l) -> assoc k l = None.
Proof.
  induction l as [|(k', v) l IH]; cbn; [reflexivity|]. intro H. destruct (String.eqb_spec k k'); [subst; tauto|]. apply IH. tauto.
Qed.

(** [obj_run] performs any sequence of reads of [hash] and [binary()] on one
    object.  Every read of a transaction built by the constructor returns the
    double SHA-256 of its serialisation, resp. the serialisation. *)
Theorem C12_txn_hash : forall sha256d args kw fs rs,
  construct "Txn" Txn_props args kw = Ok (VObj "Txn" fs) ->
  obj_run sha256d Txn_props (fun b => b) rs fs =
  map (fun r => let! b := fields_binary Txn_props fs in
                Ok (VBytes match r with RHash => sha256d b | RBinary => b end)) rs.
Proof.
  intros sha args kw fs rs H. apply (obj_run_spec sha Txn_props (fun b => b)).
  - cbn. intuition discriminate.
  - apply construct_keys in H. rewrite assoc_none_in; [reflexivity|]. rewrite H. cbn. intuition discriminate.
Qed.
Theorem C12_header_hash : forall sha256d args kw fs rs,
  construct "BlockHeader" BlockHeader_props args kw = Ok (VObj "BlockHeader" fs) ->
  obj_run sha256d BlockHeader_props (ztake 80) rs fs =
  map (fun r => let! b := fields_binary BlockHeader_props fs in
                Ok (VBytes match r with RHash => sha256d (ztake 80 b) | RBinary => b end)) rs.
Proof.
  intros sha args kw fs rs H. apply (obj_run_spec sha BlockHeader_props (ztake 80)).
  - cbn. intuition discriminate.
  - apply construct_keys in H. rewrite assoc_none_in; [reflexivity|]. rewrite H. cbn. intuition discriminate.
Qed.
Example C12_nonvacuous : exists fs b, ex_header 2 = Ok (VObj "BlockHeader" fs) /\
  fields_binary BlockHeader_props fs = Ok b /\ zlen b = 81.
Proof. do 2 eexists. split; [vm_compute; reflexivity|]. split; [vm_compute; reflexivity|vm_compute; reflexivity]. Qed.

(** ** C63: alert payload *)

(** [alert_props] is the field layout of the protocol; reading the properties
    of an alert in any order and any number of times returns what a conforming
    sender packed, even if further bytes follow. *)
Theorem C63_alert_reads : forall fs payload names,
  wt_fields alert_props fs -> fields_binary alert_props fs = Ok payload -> zlen payload <= 0xffffffff ->
  forall rest, wf_bytes rest ->
  alert_reads (payload ++ rest) [] names =
  map (fun n => match assoc n (canon_fields alert_props fs) with Some v => Ok v | None => Raise KeyError end) names.
Proof. exact alert_reads_spec. Qed.
(** A malformed payload: the first read raises, and then the same read
    succeeds from the partially filled cache. *)
Theorem C63_alert_malformed_refuted : exists payload,
  alert_reads payload [] ["id"; "id"; "comment"] = [Raise IndexError; Ok (VInt 77); Raise KeyError].
Proof.
  exists (le_bytes 4 1 ++ le_bytes 8 2 ++ le_bytes 8 3 ++ le_bytes 4 77 ++ le_bytes 4 5). vm_compute. reflexivity.
Qed.
Definition ex_alert : list (string * pyval) :=
  [("version", VInt 1); ("relay_until", VInt 1329620535); ("expiration", VInt 1329792435); ("id", VInt 1010);
   ("cancel", VInt 1009); ("set_cancel", VList [VInt 5; VInt (-6)]); ("min_ver", VInt 10000); ("max_ver", VInt 61000);
   ("set_sub_ver", VList [VStr (bs "/a/")]); ("priority", VInt 100); ("comment", VStr []);
   ("status_bar", VStr (bs "See bitcoin.org/feb20")); ("reserved", VStr [])].
Example C63_nonvacuous : exists payload, wt_fields alert_props ex_alert /\
  fields_binary alert_props ex_alert = Ok payload /\ zlen payload <= 0xffffffff /\
  alert_reads payload [] ["status_bar"; "id"] = [Ok (VBytes (bs "See bitcoin.org/feb20")); Ok (VInt 1010)].
Proof.
  eexists. split; [|split; [vm_compute; reflexivity|split; [vm_compute; discriminate|vm_compute; reflexivity]]].
  cbn. repeat match goal with |- _ /\ _ => split | |- Forall _ _ => constructor end; try reflexivity; try exact I; try lia; vm_compute; congruence.
Qed.

(** ** C64: OutPoint equality *)

(** Comparing outpoints with equal hashes raises, also on an outpoint and itself. *)
Theorem C64_outpoint_eq_refuted : forall args kw a, 
  construct "OutPoint" OutPoint_props args kw = Ok a -> Forall built args -> Forall built (map snd kw) ->
  outpoint_eq a a = Raise NameError.
Proof.
  intros args kw a H Ha Hk. apply construct_wt in H.
  - destruct H as (fs & -> & Hw & _). destruct fs as [|(k, v) [|(k2, v2) [|]]]; cbn in Hw; try tauto.
    destruct Hw as (-> & Hv & -> & _). destruct v; try contradiction. cbn. now rewrite bytes_eqb_refl.
  - cbn. lia.
  - repeat constructor.
  - eapply Forall_impl; [apply built_vgood|assumption].
  - eapply Forall_impl; [apply built_vgood|assumption].
Qed.
(** With different hashes the comparison is correct. *)
Theorem C64_outpoint_eq_partial : forall h1 i1 h2 i2, h1 <> h2 ->
  outpoint_eq (VObj "OutPoint" [("hash", VBytes h1); ("index", i1)])
              (VObj "OutPoint" [("hash", VBytes h2); ("index", i2)]) = Ok false.
Proof.
  intros h1 i1 h2 i2 H. cbn. destruct (bytes_eqb_spec h1 h2); [contradiction|reflexivity].
Qed.

(** ** Assumptions *)

Print Assumptions C01_wire_roundtrip.
Print Assumptions C01_wire_roundtrip_headers_partial.
Print Assumptions C01_wire_roundtrip_headers_refuted.
Print Assumptions C02_varint_roundtrip_partial.
Print Assumptions C02_varint_total.
Print Assumptions C02_varint_roundtrip_refuted.
Print Assumptions C03_serialisable_partial.
Print Assumptions C03_serialisable_refuted.
Print Assumptions C04_parsed_well_typed_partial.
Print Assumptions C04_parsed_well_typed_refuted.
Print Assumptions C05_frame_integrity.
Print Assumptions C05_bad_magic.
Print Assumptions C05_bad_checksum.
Print Assumptions C05_parse_errors.
Print Assumptions C06_frame_length.
Print Assumptions C06_short_header.
Print Assumptions C07_command_selects_class.
Print Assumptions C07_unknown_command.
Print Assumptions C07_opt_out_refuted.
Print Assumptions C07_all_registered.
Print Assumptions C08_ip_roundtrip.
Print Assumptions C09_ip_validator_partial.
Print Assumptions C09_ip_validator_refuted.
Print Assumptions C10_constructor_arguments_partial.
Print Assumptions C10_missing_field.
Print Assumptions C10_constructor_arguments_refuted.
Print Assumptions C11_unambiguous.
Print Assumptions C12_txn_hash.
Print Assumptions C12_header_hash.
Print Assumptions C63_alert_reads.
Print Assumptions C63_alert_malformed_refuted.
Print Assumptions C64_outpoint_eq_refuted.
Print Assumptions C64_outpoint_eq_partial.
