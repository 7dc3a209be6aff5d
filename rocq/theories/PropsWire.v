(** Properties C74 and C75: the texts of addresses and the bytes of messages
    are those of the standards. *)
From Coq Require Import String ZArith List Lia Bool.
From Verif Require Import PyBase PyVal PyTextProofs FormatModel FormatSpec FormatProofs MessagesModel MessagesProofs WireSpec WireProofs.
Import ListNotations.
Open Scope string_scope.
Open Scope list_scope.
Open Scope Z_scope.

(** ** C74: address texts *)
Theorem C74_address_texts_partial t b : ip_denotes t b -> t <> bs "::" -> ip_binary (VStr t) = Ok b /\ ip_validate (VStr t) = Ok (Some (VStr t)).
Proof.
  intros H N. pose proof (ip_standard t b H N) as E. split; [exact E|]. cbn [ip_binary ip_validate] in *. destruct (ipv4_groups t); [reflexivity|].
  destruct (ipv6_groups t) as [[g|]|e]; cbn [bind] in *; try discriminate. reflexivity.
Qed.
(** The unspecified address "::" is refused. *)
Theorem C74_address_texts_refuted : ~ (forall t b, ip_denotes t b -> ip_binary (VStr t) = Ok b).
Proof.
  intro H. specialize (H (bs "::") (repeat 0 16) (ip_compressed [] [] ltac:(cbn; lia) (Forall_nil _) (Forall_nil _))).
  assert (ip_binary (VStr (bs "::")) = Raise ValueError) as E by (vm_compute; reflexivity). congruence.
Qed.
Lemma hex_text s : (1 <=? zlen (bs s)) && (zlen (bs s) <=? 4) && forallb (fun c => ((48 <=? c) && (c <=? 57)) || ((97 <=? c) && (c <=? 102)) || ((65 <=? c) && (c <=? 70))) (bs s) = true -> hex_group (bs s).
Proof.
  intro H. apply andb_true_iff in H. destruct H as [H F]. split; [lia|]. rewrite forallb_forall in F. apply Forall_forall. intros c I. specialize (F c I). unfold is_hex. lia.
Qed.
Example C74_examples :
  ip_denotes (bs "2001:DB8::8:0:417a") ([0x20; 1; 0xd; 0xb8] ++ repeat 0 6 ++ [0; 8; 0; 0; 0x41; 0x7a]) /\
  ip_denotes (bs "::1") (repeat 0 15 ++ [1]) /\ ip_denotes (bs "fe80::") ([0xfe; 0x80] ++ repeat 0 14) /\
  ip_denotes (bs "10.0.0.1") (repeat 0 10 ++ [255; 255; 10; 0; 0; 1]).
Proof.
  split; [|split; [|split]].
  - apply (ip_compressed [bs "2001"; bs "DB8"] [bs "8"; bs "0"; bs "417a"]); [cbn; lia| |]; repeat (apply Forall_cons; [apply hex_text; reflexivity|]); constructor.
  - apply (ip_compressed [] [bs "1"]); [cbn; lia| |]; repeat (apply Forall_cons; [apply hex_text; reflexivity|]); constructor.
  - apply (ip_compressed [bs "fe80"] []); [cbn; lia| |]; repeat (apply Forall_cons; [apply hex_text; reflexivity|]); constructor.
  - apply (ip_dotted [bs "10"; bs "0"; bs "0"; bs "1"]); [reflexivity|]. repeat (apply Forall_cons; [split; [cbn; lia|split; [cbn; repeat constructor; lia|cbn; lia]]|]); constructor.
Qed.

(** ** C75: message bytes *)
(** The frame around a payload. *)
Definition framed (sha256 : bytes -> bytes) (magic : bytes) (command : string) (payload : bytes) : bytes :=
  magic ++ (bs command ++ repeat 0 (12 - String.length command)) ++ le_bytes 4 (zlen payload) ++ ztake 4 (sha256 (sha256 payload)) ++ payload.
Lemma documented_all : Forall (fun t => assoc (mt_command t) documented = Some (layout_of (mt_props t))) registry.
Proof. rewrite registry_all. repeat (apply Forall_cons; [vm_compute; reflexivity|]). constructor. Qed.
Lemma registry_wf t : In t registry -> wf_fts (mt_props t) /\ NoDup (map fst (mt_props t)).
Proof. intro H. pose proof all_types_wf as G. rewrite <- registry_all in G. rewrite Forall_forall in G. apply G in H. tauto. Qed.
Lemma bs_length s : List.length (bs s) = String.length s.
Proof. induction s as [|c s IH]; [reflexivity|]. cbn. now rewrite <- IH. Qed.
(** Everything sent has the documented layout; sizes are in CompactSize form,
    the shortest one unless the size is 65535 or 2^32-1. *)
Theorem C75_layout_partial sha256 t args kw m magic b :
  In t registry -> Forall built args -> Forall built (map snd kw) -> new_message t args kw = Ok m -> msg_binary sha256 m magic = Ok b ->
  exists layout payload, assoc (mt_command t) documented = Some layout /\
    encodes_fields (fun z s => compact_size z s /\ (canonical_size z s \/ z = 65535 \/ z = 2 ^ 32 - 1)) (fun text a => ip_binary (VStr text) = Ok a)
      layout (m_fields m) payload /\
    zlen payload < 2 ^ 32 /\ b = framed sha256 magic (mt_command t) payload.
Proof.
  intros Ht Ha Hk Hm Hb. destruct (new_message_wt _ _ _ _ Ht Ha Hk Hm) as (E & Hw & _). destruct (registry_wf t Ht) as [W N].
  unfold msg_binary in Hb. bind_inv Hb. bind_inv Hb. inv Hb. apply struct_pack_ok in H0. destruct H0 as [R ->]. cbn in R.
  exists (layout_of (mt_props (m_type m))), x. split; [pose proof documented_all as D; rewrite Forall_forall in D; now apply D|].
  split; [now apply fields_encodes|]. split; [lia|]. unfold framed, pad_command. rewrite bs_length. reflexivity.
Qed.
(** A string of 65535 bytes is announced with five bytes instead of three. *)
Definition t_filteradd : msg_type := mk_msg_type "FilterLoad'" "filteradd" "filter_add" [("data", FVarStr)].
Theorem C75_layout_refuted : exists m payload,
  In t_filteradd registry /\ new_message t_filteradd [VBytes (repeat 0 (Z.to_nat 65535))] [] = Ok m /\
  fields_binary (mt_props t_filteradd) (m_fields m) = Ok payload /\
  ~ encodes_fields canonical_size (fun text a => ip_binary (VStr text) = Ok a) [("data", VarBytes)] (m_fields m) payload.
Proof.
  remember (repeat 0 (Z.to_nat 65535)) as s eqn:Es. assert (zlen s = 65535) as L by (subst s; rewrite zlen_repeat; lia).
  exists (mk_message t_filteradd [("data", VBytes s)]). eexists. split; [rewrite registry_all; vm_compute; tauto|]. split; [reflexivity|]. clear Es.
  split; [cbn [fields_binary mt_props t_filteradd m_fields assoc]; rewrite String.eqb_refl; cbn [binary varstr_binary bind]; rewrite L; reflexivity|].
  intro H. cbn [encodes_fields assoc m_fields] in H. rewrite String.eqb_refl in H. destruct H as (x & b1 & b2 & A & B & C & D). assert (x = VBytes s) as -> by congruence. clear A. cbn [encodes] in B.
  destruct B as (s' & p & Hc & [Hp1 Hp2] & ->). cbn in Hc. assert (s' = s) as -> by congruence. subst b2. rewrite app_nil_r in D. rewrite L in *.
  assert (zlen p <= 3) as P by (apply (Hp2 (0xfd :: le_bytes 2 65535)); right; left; split; [lia|reflexivity]).
  apply (f_equal zlen) in D. rewrite !zlen_app, L in D. change (zlen (concat [_])) with 0 in D || idtac. revert D. rewrite ?zlen_app, ?L. cbn. lia.
Qed.
(** Everything received in the documented layout is understood, sizes in any
    but the nine-byte form. *)
Theorem C75_understood sha256 t fs layout payload magic rest : (forall x, 4 <= zlen (sha256 x)) ->
  In t registry -> zlen magic = 4 -> assoc (mt_command t) documented = Some layout -> wt_fields (mt_props t) fs ->
  encodes_fields (fun z s => compact_size z s /\ hd 0 s <> 0xff) (fun text a => ip_binary (VStr text) = Ok a) layout fs payload -> zlen payload < 2 ^ 32 ->
  msg_parse sha256 (framed sha256 magic (mt_command t) payload ++ rest) magic = Ok (mk_message t (canon_fields (mt_props t) fs)).
Proof.
  intros Hs Ht Hm Hd Hw He Hl. pose proof documented_all as D. rewrite Forall_forall in D. rewrite (D t Ht) in Hd. assert (layout = layout_of (mt_props t)) as -> by congruence. destruct (registry_wf t Ht) as [W N].
  pose proof (zlen_nonneg payload).
  assert (struct_pack FI false (zlen payload) = Ok (le_bytes 4 (zlen payload))) as P by (unfold struct_pack; change (struct_range FI) with (0, 4294967296); cbv beta iota; replace ((0 <=? zlen payload) && (zlen payload <? 4294967296)) with true by lia; reflexivity).
  unfold framed. rewrite <- bs_length. rewrite <- !app_assoc.
  change (sha256 (sha256 payload)) with (sha256d sha256 payload). rewrite (app_assoc (bs _)). change (bs (mt_command t) ++ repeat 0 (12 - List.length (bs (mt_command t)))) with (pad_command (bs (mt_command t))).
  rewrite (msg_parse_frame sha256 Hs t magic payload _ rest Ht Hm P). pose proof (fields_reads _ _ _ [] W N Hw He) as R. rewrite app_nil_r in R. rewrite R. reflexivity.
Qed.
(** The layouts are those of 21 commands, each documented once. *)
Example C75_commands : map fst documented = map mt_command registry /\ NoDup (map fst documented).
Proof.
  split; [vm_compute; reflexivity|].
  assert (forall l : list string, (fix nd l := match l with [] => true | x :: r => negb (existsb (String.eqb x) r) && nd r end) l = true -> NoDup l) as G.
  { induction l as [|x r IH]; intro H; [constructor|]. apply andb_true_iff in H. destruct H as [H1 H2]. constructor; [|now apply IH]. intro I. apply negb_true_iff in H1. rewrite <- not_true_iff_false in H1. apply H1. apply existsb_exists. exists x. split; [exact I|apply String.eqb_refl]. }
  apply G. vm_compute. reflexivity.
Qed.
Example C75_ping : exists m, new_message (mk_msg_type "Ping" "ping" "ping" [("nonce", FBytes 8)]) [VBytes [1;2;3;4;5;6;7;8]] [] = Ok m /\
  encodes_fields canonical_size (fun text a => ip_binary (VStr text) = Ok a) [("nonce", Raw 8)] (m_fields m) [1;2;3;4;5;6;7;8].
Proof. eexists. split; [vm_compute; reflexivity|]. exists (VBytes [1;2;3;4;5;6;7;8]), [1;2;3;4;5;6;7;8], []. repeat split. Qed.

(** ** Assumptions *)

Print Assumptions C74_address_texts_partial.
Print Assumptions C74_address_texts_refuted.
Print Assumptions C75_layout_partial.
Print Assumptions C75_layout_refuted.
Print Assumptions C75_understood.
