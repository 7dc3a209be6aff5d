(** Alerts and their signatures (C137). *)
From Coq Require Import String ZArith List Lia Bool.
From Verif Require Import PyBase PyVal FormatModel FormatSpec FormatProofs FormatProofs2 MessagesModel MessagesProofs AlertProofs AlertModel
  NodeModel DerModel DerProofs DerAccept EcModel EcSpec EcLib KeySpec KeyModel KeyCases PropsEc PropsKey PropsProtocol.
Import ListNotations.
Open Scope string_scope.
Open Scope list_scope.
Open Scope Z_scope.

Lemma alert_registered : In t_alert registry.
Proof. vm_compute. tauto. Qed.
Lemma alert_new a b : (match a with VBytes _ | VStr _ => True | _ => False end) -> (match b with VBytes _ | VStr _ => True | _ => False end) ->
  new_message t_alert [a; b] [] = Ok (mk_message t_alert [("payload", a); ("signature", b)]).
Proof. destruct a; try contradiction; destruct b; try contradiction; intros _ _; vm_compute; reflexivity. Qed.

(** What encodings are made of. *)
Lemma wf_int2byte x b : int2byte x = Ok b -> wf_bytes b.
Proof. unfold int2byte. destruct (is_byteb x) eqn:E; [|discriminate]. intro H. assert (b = [x]) as -> by congruence. constructor; [|constructor]. unfold is_byteb in E. unfold is_byte. lia. Qed.
Lemma wf_encode_length l b : encode_length l = Ok b -> wf_bytes b.
Proof.
  unfold encode_length. destruct (l <? 0); [discriminate|]. destruct (l <? 128); [apply wf_int2byte|]. intro H. bind_inv H.
  assert (b = x ++ min_bytes l) as -> by congruence. apply Forall_app. split; [now apply wf_int2byte in H0|unfold min_bytes; apply wf_be_bytes].
Qed.
Lemma wf_encode_integer r b : encode_integer r = Ok b -> wf_bytes b.
Proof.
  unfold encode_integer. destruct (r <? 0); [discriminate|]. assert (wf_bytes (min_bytes r)) as W by (unfold min_bytes; apply wf_be_bytes).
  destruct (hd 0 (min_bytes r) <=? 127); intro H; bind_inv H; assert (is_byte 2) as B2 by (unfold is_byte; lia); assert (is_byte 0) as B0 by (unfold is_byte; lia); apply wf_int2byte in H0.
  - assert (b = [2] ++ x ++ min_bytes r) as -> by congruence. constructor; [exact B2|]. now apply Forall_app.
  - assert (b = [2] ++ x ++ [0] ++ min_bytes r) as -> by congruence. constructor; [exact B2|]. apply Forall_app. split; [assumption|]. constructor; [exact B0|exact W].
Qed.
Lemma wf_sigencode_der r s b : sigencode_der r s = Ok b -> wf_bytes b.
Proof.
  unfold sigencode_der, encode_sequence. intro H. bind_inv H. bind_inv H. bind_inv H. apply wf_encode_integer in H0. apply wf_encode_integer in H1. apply wf_encode_length in H2.
  assert (b = [48] ++ x1 ++ concat [x; x0]) as -> by congruence. constructor; [unfold is_byte; lia|]. apply Forall_app. split; [exact H2|].
  cbn [concat]. apply Forall_app. split; [exact H0|]. now rewrite app_nil_r.
Qed.
(** They are short. *)
Lemma int2byte_small x b : int2byte x = Ok b -> x <= 255 /\ zlen b = 1.
Proof. unfold int2byte. destruct (is_byteb x) eqn:E; [|discriminate]. intro H. assert (b = [x]) as -> by congruence. unfold is_byteb in E. split; [lia|reflexivity]. Qed.
Lemma encode_length_small l b : encode_length l = Ok b -> zlen b <= 256.
Proof.
  unfold encode_length. destruct (l <? 0); [discriminate|]. destruct (l <? 128). { intro H. apply int2byte_small in H. lia. } intro H. bind_inv H.
  assert (b = x ++ min_bytes l) as -> by congruence. apply int2byte_small in H0. destruct H0 as (A & B). rewrite zlen_app, B. pose proof (zlen_nonneg (min_bytes l)) as N.
  assert (zlen (min_bytes l) <= Z.lor 128 (zlen (min_bytes l))); [|lia]. set (k := zlen (min_bytes l)) in *. clearbody k.
  assert (Z.lor 128 k = k + Z.ldiff 128 k) as ->; [|assert (0 <= Z.ldiff 128 k) by (apply Z.ldiff_nonneg; lia); lia].
  rewrite Z.add_nocarry_lxor. 2:{ apply Z.bits_inj'. intros i Hi. rewrite Z.land_spec, Z.ldiff_spec, Z.bits_0. now destruct (Z.testbit k i), (Z.testbit 128 i). }
  apply Z.bits_inj'. intros i Hi. rewrite Z.lor_spec, Z.lxor_spec, Z.ldiff_spec. now destruct (Z.testbit k i), (Z.testbit 128 i).
Qed.
Lemma encode_integer_small r b : encode_integer r = Ok b -> zlen b <= 300.
Proof.
  unfold encode_integer. destruct (r <? 0); [discriminate|].
  destruct (hd 0 (min_bytes r) <=? 127); intro H; bind_inv H; apply int2byte_small in H0; destruct H0 as (A & B).
  - assert (b = [2] ++ x ++ min_bytes r) as -> by congruence. rewrite !zlen_app, B. change (zlen [2]) with 1. lia.
  - assert (b = [2] ++ x ++ [0] ++ min_bytes r) as -> by congruence. rewrite !zlen_app, B. change (zlen [2]) with 1. change (zlen [0]) with 1. lia.
Qed.
Lemma sigencode_small r s b : sigencode_der r s = Ok b -> zlen b <= 1000.
Proof.
  unfold sigencode_der, encode_sequence. intro H. bind_inv H. bind_inv H. bind_inv H. apply encode_integer_small in H0. apply encode_integer_small in H1. apply encode_length_small in H2.
  assert (b = [48] ++ x1 ++ concat [x; x0]) as -> by congruence. cbn [concat]. rewrite !zlen_app. change (zlen [48]) with 1. change (zlen []) with 0. lia.
Qed.

(** What a field holds once it has travelled. *)
Definition sent (v : pyval) : pyval := match v with VStr s => VBytes s | v => v end.

Section Alerts.
Variable sha256 : bytes -> bytes.
Hypothesis Hsha : forall d, wf_bytes (sha256 d) /\ zlen (sha256 d) = 32.

(** An alert is received with the bytes it was made of. *)
Lemma received_alert a b magic data rest : built a -> built b -> zlen magic = 4 ->
  (match a with VBytes _ | VStr _ => True | _ => False end) -> (match b with VBytes _ | VStr _ => True | _ => False end) ->
  msg_binary sha256 (mk_message t_alert [("payload", a); ("signature", b)]) magic = Ok data ->
  msg_parse sha256 (data ++ rest) magic = Ok (mk_message t_alert [("payload", sent a); ("signature", sent b)]).
Proof.
  intros Ha Hb Hm Ka Kb E. assert (forall x, 4 <= zlen (sha256 x)) as H4 by (intro x; destruct (Hsha x) as (_ & ->); lia).
  rewrite (C01_wire_roundtrip sha256 H4 t_alert [a; b] [] _ magic data alert_registered ltac:(vm_compute; discriminate) ltac:(repeat constructor; assumption) (Forall_nil _) (alert_new a b Ka Kb) Hm E rest).
  destruct a; try contradiction; destruct b; try contradiction; reflexivity.
Qed.
Lemma wf_signature data priv nonce sig : sign_with sha256 SECP256k1 data priv nonce = Ok sig -> wf_bytes sig.
Proof.
  unfold sign_with. intro E. bind_inv E. unfold sk_sign_digest in E. destruct (_ <? _) in E; [discriminate|]. bind_inv E. bind_inv E. destruct x1 as (r1, s1). now apply wf_sigencode_der in E.
Qed.
Lemma signature_small data priv nonce sig : sign_with sha256 SECP256k1 data priv nonce = Ok sig -> zlen sig <= 1000.
Proof.
  unfold sign_with. intro E. bind_inv E. unfold sk_sign_digest in E. destruct (_ <? _) in E; [discriminate|]. bind_inv E. bind_inv E. destruct x1 as (r1, s1). now apply sigencode_small in E.
Qed.
Lemma alert_sends p s magic : zlen p <= 1000 -> zlen s <= 1000 -> exists data, msg_binary sha256 (mk_message t_alert [("payload", VBytes p); ("signature", VBytes s)]) magic = Ok data.
Proof.
  intros Hp Hs. pose proof (zlen_nonneg p). pose proof (zlen_nonneg s).
  assert (forall x, 0 <= x <= 1000 -> exists b, varint_binary x = Ok b /\ zlen b <= 9) as V.
  { intros x Hx. destruct (varint_binary_ok x ltac:(lia)) as (b & E). exists b. split; [exact E|]. unfold varint_binary in E.
    destruct (x <? 253) eqn:E1. { apply struct_pack_ok in E. destruct E as (_ & ->). cbn. lia. } destruct (x <? 65535) eqn:E2; [|lia]. bind_inv E. apply struct_pack_ok in H1. destruct H1 as (_ & H1).
    assert (b = [253] ++ x0) as -> by (cbn [app]; congruence). rewrite H1. cbn. lia. }
  destruct (V (zlen p) ltac:(lia)) as (bp & Ep & Lp), (V (zlen s) ltac:(lia)) as (bs' & Es & Ls).
  unfold msg_binary. change (mt_props (m_type _)) with [("payload", FVarStr); ("signature", FVarStr)].
  cbn [fields_binary m_fields assoc String.eqb Ascii.eqb Bool.eqb binary]. unfold varstr_binary. cbn [bind]. rewrite Ep, Es. cbn [bind].
  set (b := (bp ++ p) ++ (bs' ++ s) ++ []). assert (0 <= zlen b < 4294967296) as Hb. { unfold b. rewrite !zlen_app. change (zlen (@nil Z)) with 0. pose proof (zlen_nonneg bp). pose proof (zlen_nonneg bs'). lia. }
  clearbody b. unfold struct_pack. change (struct_range FI) with (0, 4294967296). cbv beta iota. replace ((0 <=? zlen b) && (zlen b <? 4294967296)) with true by lia. cbn [bind]. eauto.
Qed.
Lemma alert_size p s magic data : msg_binary sha256 (mk_message t_alert [("payload", VBytes p); ("signature", VBytes s)]) magic = Ok data -> zlen p <= 4294967295.
Proof.
  intro H. unfold msg_binary in H. bind_inv H. bind_inv H. apply struct_pack_ok in H1. cbn in H1.
  change (mt_props (m_type (mk_message t_alert [("payload", VBytes p); ("signature", VBytes s)]))) with [("payload", FVarStr); ("signature", FVarStr)] in H0.
  cbn [fields_binary m_fields assoc String.eqb Ascii.eqb Bool.eqb] in H0. bind_inv H0. cbn in H2. bind_inv H2.
  bind_inv H0. destruct H1 as (H1 & _). clear H. assert (x1 = x2 ++ p) as -> by congruence. assert (x = (x2 ++ p) ++ x3) as -> by congruence.
  rewrite !zlen_app in H1. pose proof (zlen_nonneg x3). pose proof (zlen_nonneg x2). lia.
Qed.

(** An alert made of a payload and a signature is received as it was made, and
    both sides get the same answer to the question whether it is genuine. *)
Theorem C137_transport payload sig magic data rest : wf_bytes payload -> wf_bytes sig -> zlen magic = 4 ->
  forall m, new_message t_alert [VBytes payload; VBytes sig] [] = Ok m -> msg_binary sha256 m magic = Ok data ->
  msg_parse sha256 (data ++ rest) magic = Ok m /\
  forall key, alert_verify sha256 m key = ecc_verify sha256 payload key sig.
Proof.
  intros Wp Ws Hm m N E. rewrite alert_new in N by exact Logic.I. assert (m = mk_message t_alert [("payload", VBytes payload); ("signature", VBytes sig)]) as -> by congruence.
  split; [|reflexivity]. exact (received_alert (VBytes payload) (VBytes sig) magic data rest (built_bytes _ Wp) (built_bytes _ Ws) Hm Logic.I Logic.I E).
Qed.
(** An alert that a conforming sender packs and signs reaches the other side
    with the fields that were signed, whatever order they are read in, and is
    found genuine under every text of the signer's public key, if the x of the
    nonce's point is below n; it is refused otherwise (C32). *)
Theorem C137_signed_partial fs payload priv d nonce sig magic data rest names :
  wt_fields alert_props fs -> fields_binary alert_props fs = Ok payload ->
  octets32 priv d -> sign_with sha256 SECP256k1 payload priv nonce = Ok sig -> zlen magic = 4 ->
  forall m, new_message t_alert [VBytes payload; VBytes sig] [] = Ok m -> msg_binary sha256 m magic = Ok data ->
  exists k x y r y', nonce = Ok k /\ point_of d x y /\ point_of k r y' /\
    exists m' p, msg_parse sha256 (data ++ rest) magic = Ok m' /\ field "payload" (m_fields m') = Ok (VBytes p) /\
      (forall key, key_text key x y -> alert_verify sha256 m' key = Ok (r <? secp_n)) /\
      alert_reads p [] names = map (fun n => match assoc n (canon_fields alert_props fs) with Some v => Ok v | None => Raise KeyError end) names.
Proof.
  intros Wt Eb Op Es Hm m N E.
  assert (wf_bytes payload) as Wp. { exact (wf_fields alert_props fs payload (proj1 alert_props_wf) (proj2 alert_props_wf) Wt Eb). }
  assert (wf_bytes sig) as Ws by exact (wf_signature _ _ _ _ Es).
  destruct (C32_sign_verify_partial sha256 Hsha payload priv d nonce sig Op Es) as (k & x & y & r & y' & En & _ & _ & _ & _ & _ & M & Mk & V).
  destruct (C137_transport payload sig magic data rest Wp Ws Hm m N E) as (P & Q).
  exists k, x, y, r, y'. split; [exact En|]. split; [exact M|]. split; [exact Mk|]. exists m, payload. split; [exact P|].
  rewrite alert_new in N by exact Logic.I. assert (m = mk_message t_alert [("payload", VBytes payload); ("signature", VBytes sig)]) as Em by congruence.
  split; [rewrite Em; reflexivity|]. split; [intros key T; rewrite Q; now apply V|].
  rewrite Em in E. pose proof (C63_alert_reads fs payload names Wt Eb (alert_size payload sig magic data E) [] (Forall_nil _)) as R. now rewrite app_nil_r in R.
Qed.
(** An alert that arrives is found genuine exactly if its signature text holds a
    signature that is valid for exactly the payload whose fields are shown. *)
Theorem C137_genuine data magic m key : wf_bytes data -> wf_bytes key -> msg_parse sha256 data magic = Ok m -> m_type m = t_alert ->
  exists payload sig, m_fields m = [("payload", VBytes payload); ("signature", VBytes sig)] /\
  (alert_verify sha256 m key = Ok true <->
   exists x y r s, secp_xy x y /\ x < secp_n /\ y < secp_n /\ key_text key x y /\ ecc_sigdecode_der sig = Ok (r, s) /\ secp_valid x y (hash_number sha256 payload) r s).
Proof.
  intros W Wk P T. apply msg_parse_inv in P. cbv zeta in P. destruct P as (_ & _ & _ & _ & _ & n & P). rewrite T in P.
  assert (wf_bytes (slice 24 (24 + le_val (slice 16 20 data)) data)) as W' by now apply Forall_slice. set (body := slice 24 _ data) in *. clearbody body.
  change (mt_props t_alert) with [("payload", FVarStr); ("signature", FVarStr)] in P. cbn [fields_parse parse] in P. unfold varstr_parse in P.
  destruct (varint_parse (zdrop 0 body)) as [(vl1, l1)|]; cbn [bind] in P; [|discriminate]. set (o := 0 + _) in P. clearbody o.
  destruct (varint_parse (zdrop o body)) as [(vl2, l2)|]; cbn [bind] in P; [|discriminate].
  exists (slice vl1 (vl1 + l1) (zdrop 0 body)), (slice vl2 (vl2 + l2) (zdrop o body)).
  assert (m_fields m = [("payload", VBytes (slice vl1 (vl1 + l1) (zdrop 0 body))); ("signature", VBytes (slice vl2 (vl2 + l2) (zdrop o body)))]) as F by congruence.
  split; [exact F|]. set (sig := slice vl2 _ _) in *. set (payload := slice vl1 _ _) in *.
  assert (wf_bytes sig) as Ws by (unfold sig; apply Forall_slice; now apply Forall_zdrop). clearbody sig payload.
  unfold alert_verify. rewrite F. change (field "payload" _) with (Ok (VBytes payload) : res pyval). change (field "signature" _) with (Ok (VBytes sig) : res pyval). cbn [bind].
  rewrite (C33_accepts sha256 Hsha payload key sig Wk Ws). split.
  - intros (x & y & r & s & A & B & C & D & V & E). exists x, y, r, s. do 4 (split; [assumption|]). split; [now apply ecc_sigdecode_der_iff|exact V].
  - intros (x & y & r & s & A & B & C & D & E & V). exists x, y, r, s. do 4 (split; [assumption|]). split; [exact V|now apply ecc_sigdecode_der_iff].
Qed.
(** However an alert was made, it is found genuine only if payload and signature
    are byte strings and the signature is valid for the payload. *)
Theorem C137_never m payload sig key : m_fields m = [("payload", payload); ("signature", sig)] -> alert_verify sha256 m key = Ok true ->
  exists p s, payload = VBytes p /\ sig = VBytes s /\ (wf_bytes key -> wf_bytes s ->
   exists x y r z, secp_xy x y /\ x < secp_n /\ y < secp_n /\ key_text key x y /\ ecc_sigdecode_der s = Ok (r, z) /\ secp_valid x y (hash_number sha256 p) r z).
Proof.
  intros F H. unfold alert_verify in H. rewrite F in H. change (field "payload" _) with (Ok payload : res pyval) in H. change (field "signature" _) with (Ok sig : res pyval) in H. cbn [bind] in H.
  assert (match decompress_with (cv_gen SECP256k1) key with Raise ValueError => Ok false | Raise e => Raise e | Ok k => let! _ := vk_from_string SECP256k1 (zdrop 1 k) in Raise TypeError end <> Ok true) as N.
  { destruct (decompress_with (cv_gen SECP256k1) key) as [k|e]; [destruct (vk_from_string SECP256k1 (zdrop 1 k)); discriminate|destruct e; discriminate]. }
  destruct payload as [| | | | |p| | | |]; try contradiction. destruct sig as [| | | | |s| | | |]; try contradiction. exists p, s. split; [reflexivity|]. split; [reflexivity|]. intros Wk Ws.
  apply (C33_accepts sha256 Hsha p key s Wk Ws) in H. destruct H as (x & y & r & z & A & B & C & D & V & E). exists x, y, r, z. do 4 (split; [assumption|]). split; [now apply ecc_sigdecode_der_iff|exact V].
Qed.
(** The sender cannot check an alert that was made of a text (str), although it
    is sent and the other side can: TypeError under every good key. *)
Theorem C137_text_refuted payload priv d k sig : octets32 priv d -> Forall (fun c => 0 <= c < 256) payload ->
  sign_with sha256 SECP256k1 payload priv (Ok k) = Ok sig ->
  exists m x y, new_message t_alert [VStr payload; VBytes sig] [] = Ok m /\ point_of d x y /\
    (forall key, key_text key x y -> alert_verify sha256 m key = Raise TypeError) /\
    (forall magic data rest, zlen magic = 4 -> msg_binary sha256 m magic = Ok data -> exists m', msg_parse sha256 (data ++ rest) magic = Ok m' /\
      exists r y', point_of k r y' /\ forall key, key_text key x y -> alert_verify sha256 m' key = Ok (r <? secp_n)).
Proof.
  intros Op Wp Es.
  assert (wf_bytes sig) as Ws by exact (wf_signature _ _ _ _ Es).
  destruct (C32_sign_verify_partial sha256 Hsha payload priv d (Ok k) sig Op Es) as (k' & x & y & r & y' & En & _ & _ & On & Hx & Hy & M & Mk & V).
  assert (k' = k) as -> by congruence.
  exists (mk_message t_alert [("payload", VStr payload); ("signature", VBytes sig)]), x, y. split; [now apply alert_new|]. split; [exact M|]. split.
  - intros key T. destruct (key_text_ok key x y On Hx Hy T) as (t & D & U). unfold alert_verify. change (field "payload" _) with (Ok (VStr payload) : res pyval). change (field "signature" _) with (Ok (VBytes sig) : res pyval). cbn [bind]. rewrite D.
    pose proof (V key T) as V'. unfold ecc_verify, verify_with in V'. rewrite D in V'. destruct (vk_from_string SECP256k1 (zdrop 1 t)) as [vk|e]; [reflexivity|]. cbn [bind] in V'. discriminate V'.
  - intros magic data rest Hm E. exists (mk_message t_alert [("payload", VBytes payload); ("signature", VBytes sig)]). split.
    + assert (built (VStr payload)) as B by (constructor; eapply Forall_impl; [|exact Wp]; cbn; lia). exact (received_alert (VStr payload) (VBytes sig) magic data rest B (built_bytes _ Ws) Hm Logic.I Logic.I E).
    + exists r, y'. split; [exact Mk|]. intros key T. now apply V.
Qed.
(** A signed alert with the fields of [ex_alert] that is sent and accepted. *)
Example C137_applies : exists payload priv d k sig m data x y r y' key, wt_fields alert_props ex_alert /\ fields_binary alert_props ex_alert = Ok payload /\
  octets32 priv d /\ sign_with sha256 SECP256k1 payload priv (Ok k) = Ok sig /\ new_message t_alert [VBytes payload; VBytes sig] [] = Ok m /\ msg_binary sha256 m ex_magic = Ok data /\
  point_of d x y /\ point_of k r y' /\ key_text key x y /\ alert_verify sha256 m key = Ok true.
Proof.
  destruct C63_nonvacuous as (payload & Wt & Eb & _ & _).
  assert (zlen payload <= 1000) as Lp. { assert (option_map (fun p => zlen p <=? 1000) (match fields_binary alert_props ex_alert with Ok p => Some p | Raise _ => None end) = Some true) as Q by (vm_compute; reflexivity). rewrite Eb in Q. cbn [option_map] in Q. assert ((zlen payload <=? 1000) = true) as Q' by congruence. lia. }
  destruct (C32_accepted sha256 Hsha payload) as (priv & d & k & x & y & sig & key & O & Hk & M & Wk & C & T & Es & V).
  destruct (C32_sign_verify_partial sha256 Hsha payload priv d (Ok k) sig O Es) as (k' & x' & y0 & r & y' & En & _ & _ & _ & _ & _ & _ & Mk & _). assert (k' = k) as -> by congruence.
  destruct (alert_sends payload sig ex_magic Lp (signature_small _ _ _ _ Es)) as (data & Ed).
  exists payload, priv, d, k, sig, (mk_message t_alert [("payload", VBytes payload); ("signature", VBytes sig)]), data, x, y, r, y', key.
  split; [exact Wt|]. split; [exact Eb|]. split; [exact O|]. split; [exact Es|]. split; [now apply alert_new|]. split; [exact Ed|]. split; [exact M|]. split; [exact Mk|]. split; [exact T|]. exact V.
Qed.
End Alerts.

(** ** Assumptions *)

Print Assumptions C137_transport.
Print Assumptions C137_signed_partial.
Print Assumptions C137_genuine.
Print Assumptions C137_never.
Print Assumptions C137_text_refuted.
