(** C159: by what the lines of the log name blocks, transactions and hashes. *)
From Coq Require Import String ZArith List Lia Bool.
From Verif Require Import PyBase PyVal FormatModel FormatSpec FormatProofs FormatProofs2 MessagesModel MessagesProofs AlertProofs UtilModel SeedModel NodeModel LogModel LogProofs TextModel TextProofs PropsProtocol PropsNode PropsText.
Import ListNotations.
Open Scope string_scope.
Open Scope list_scope.
Open Scope Z_scope.

(** How hexadecimal digits appear in the log. *)
Definition quoted (py2 : bool) (digits : text) : text := if py2 then digits else bs "b'" ++ digits ++ bs "'".

Definition simple (c : Z) : Prop := 48 <= c <= 57 \/ 97 <= c <= 102.
Lemma hex_simple b : wf_bytes b -> Forall simple (hex_encode b).
Proof.
  induction 1 as [|c r Hc _ IH]; [constructor|]. unfold hex_encode in *. cbn [flat_map]. unfold is_byte in Hc. apply Forall_app. split; [|exact IH].
  assert (0 <= c / 16 < 16) by (split; [apply Z.div_pos; lia|apply Z.div_lt_upper_bound; lia]). pose proof (Z.mod_pos_bound c 16 ltac:(lia)).
  constructor; [|constructor; [|constructor]]; unfold simple, hex_digit; destruct (Z.ltb_spec (c / 16) 10), (Z.ltb_spec (c mod 16) 10); lia.
Qed.
Lemma repr_simple l : Forall simple l -> repr_bytes l = bs "b'" ++ l ++ bs "'".
Proof.
  intro F. unfold repr_bytes. assert (existsb (Z.eqb 39) l = false) as E.
  { induction F as [|c r Hc _ IH]; [reflexivity|]. cbn [existsb]. rewrite IH, orb_false_r. apply Z.eqb_neq. unfold simple in Hc. lia. }
  assert (repr_quote l = 39) as -> by (unfold repr_quote; now rewrite E). change (bs "b'") with [98; 39]. change (bs "'") with [39]. cbn [app]. do 3 f_equal.
  clear E. induction F as [|c r Hc _ IH]; [reflexivity|]. cbn [flat_map]. rewrite IH. unfold simple in Hc. unfold repr_byte.
  replace (c =? 39) with false by (symmetry; apply Z.eqb_neq; lia). replace (c =? 92) with false by (symmetry; apply Z.eqb_neq; lia).
  replace (c =? 9) with false by (symmetry; apply Z.eqb_neq; lia). replace (c =? 10) with false by (symmetry; apply Z.eqb_neq; lia). replace (c =? 13) with false by (symmetry; apply Z.eqb_neq; lia).
  replace (c <? 32) with false by (symmetry; apply Z.ltb_ge; lia). replace (127 <=? c) with false by (symmetry; apply Z.leb_gt; lia). reflexivity.
Qed.
Lemma render_hex py2 b : wf_bytes b -> render py2 (PBytes (hex_encode b)) = quoted py2 (hex_encode b).
Proof. intro W. unfold render, quoted, repr_of. destruct py2; [reflexivity|]. apply repr_simple. now apply hex_simple. Qed.
Lemma int_count {A} (l : list A) : int_text (zlen l) = text_of_int 10 (zlen l).
Proof. unfold int_text. pose proof (zlen_nonneg l). destruct (Z.ltb_spec (zlen l) 0); [lia|reflexivity]. Qed.

(** One list of objects. *)
Lemma list_entry sha py2 odd k x l s : (exists c fs, x = VObj c fs) -> debug_text sha py2 odd x = Ok s ->
  debug_entry sha py2 odd k (VList (x :: l)) = Ok (bs " len(" ++ bs k ++ bs ")=" ++ text_of_int 10 (zlen (x :: l)) ++ bs " " ++ bs k ++ bs "[0]=" ++ s).
Proof.
  intros (c & fs & ->) H. unfold debug_entry, debug_item. cbn [truthy]. rewrite H, int_count. cbn [bind]. f_equal. rewrite <- !app_assoc. reflexivity.
Qed.

Section Names.
Variable sha256 : bytes -> bytes.
Hypothesis sha_bytes : forall x, wf_bytes (sha256 x).
Variable py2 : bool.
Variable odd : pyval -> text.
Variable magic : bytes.
Variables (data : bytes) (m : message).
Hypothesis received : wf_bytes data /\ msg_parse sha256 data magic = Ok m.

Lemma got : In (m_type m) registry /\ parsed_fields (mt_props (m_type m)) (m_fields m) /\ NoDup (map fst (mt_props (m_type m))).
Proof. destruct received as (W & H). destruct (message_parsed sha256 data magic m W H) as (R & P). destruct (registry_wf _ R) as (_ & N & _). auto. Qed.
Lemma props_of c : mt_id (m_type m) = c -> In c ["Headers"; "Block"; "Inventory"; "GetData"; "NotFound"] ->
  In (match c with "Headers" => ("headers", FArray FtBlockHeader None None) | "Block" => ("txns", FArray FtTxn None None) | _ => ("inventory", FArray FtInventoryVector None (Some 50000)) end) (mt_props (m_type m)).
Proof.
  intros E I. destruct got as (R & _). rewrite registry_all in R. revert R E. generalize (m_type m). let t := eval vm_compute in all_types in change all_types with t. intros t R E.
  repeat (destruct R as [<-|R]; [cbn in E; subst c; first [cbn; tauto|exfalso; cbn in I; intuition discriminate]|]). contradiction.
Qed.
Lemma hash_text c props cut fs b : parsed (FCompound c props) (VObj c fs) -> ~ In "__hash" (map fst props) -> fields_binary props fs = Ok b ->
  (let! h := fst (cached_hash (fun b => sha256 (sha256 b)) props cut fs) in let! x := hexlify h in Ok (render py2 (PBytes x))) = Ok (quoted py2 (hex_encode (sha256 (sha256 (cut b))))).
Proof.
  intros P N B. pose proof (fresh_compound c props _ N P) as F. cbn [fresh] in F. unfold cached_hash. rewrite F, B. cbn [fst bind hexlify]. now rewrite render_hex by apply sha_bytes.
Qed.

Lemma headers_line : forall fs rest, mt_id (m_type m) = "Headers" -> assoc "headers" (m_fields m) = Some (VList (VObj "BlockHeader" fs :: rest)) ->
  forall b, fields_binary BlockHeader_props fs = Ok b ->
  message_debug sha256 py2 odd m = Ok (bs "<Headers len(h)=" ++ text_of_int 10 (zlen (VObj "BlockHeader" fs :: rest)) ++ bs " h[0]=" ++ quoted py2 (hex_encode (sha256 (sha256 (ztake 80 b)))) ++ bs ">").
Proof.
  intros fs rest E A b B. destruct got as (R & P & N). pose proof (props_of "Headers" E ltac:(cbn; tauto)) as I. cbn iota in I.
  destruct (parsed_assoc _ _ _ I N _ P) as (v & A' & Pv). rewrite A in A'. injection A' as <-. destruct Pv as (l & El & F). injection El as <-. inversion F as [|? ? Ph _]. subst.
  unfold message_debug. rewrite E. cbn [existsb orb String.eqb Ascii.eqb Bool.eqb debug_reads]. unfold prop. rewrite A. cbn [bind]. unfold debug_line. cbn [debug_entries].
  rewrite (list_entry sha256 py2 odd "h" _ rest (quoted py2 (hex_encode (sha256 (sha256 (ztake 80 b)))))); [|eauto|].
  - cbn [bind]. f_equal. rewrite app_nil_r, <- !app_assoc. reflexivity.
  - cbn [debug_text String.eqb Ascii.eqb Bool.eqb]. exact (hash_text "BlockHeader" BlockHeader_props (ztake 80) fs b Ph ltac:(cbn; intuition discriminate) B).
Qed.

Lemma inventory_line : forall fs rest z h, In (mt_id (m_type m)) ["Inventory"; "GetData"; "NotFound"] -> assoc "inventory" (m_fields m) = Some (VList (VObj "InventoryVector" fs :: rest)) ->
  assoc "object_type" fs = Some (VInt z) -> 0 <= z -> assoc "hash" fs = Some (VBytes h) ->
  message_debug sha256 py2 odd m = Ok (bs "<" ++ bs (mt_id (m_type m)) ++ bs " len(i)=" ++ text_of_int 10 (zlen (VObj "InventoryVector" fs :: rest)) ++ bs " i[0]=" ++
    bs (if z =? 0 then "error" else if z =? 1 then "tx" else if z =? 2 then "block" else "unknown") ++ bs ":" ++ quoted py2 (hex_encode h) ++ bs ">").
Proof.
  intros fs rest z h E A T Z H. destruct got as (R & P & N).
  assert (In ("inventory", FArray FtInventoryVector None (Some 50000)) (mt_props (m_type m))) as I.
  { destruct E as [E|[E|[E|[]]]]; symmetry in E; pose proof (props_of _ E ltac:(cbn; tauto)) as I; exact I. }
  destruct (parsed_assoc _ _ _ I N _ P) as (v & A' & Pv). rewrite A in A'. injection A' as <-. destruct Pv as (l & El & F). injection El as <-. inversion F as [|? ? Ph _]. subst.
  apply parsed_compound in Ph. destruct Ph as (fs' & Ef & Ph). injection Ef as <-.
  destruct (parsed_assoc InventoryVector_props "hash" (FBytes 32) ltac:(cbn; tauto) ltac:(vm_compute; repeat (constructor; [cbn; intuition discriminate|]); constructor) fs Ph) as (v & Ah & b & -> & Wb). assert (b = h) as -> by congruence.
  assert (debug_text sha256 py2 odd (VObj "InventoryVector" fs) = Ok (bs (if z =? 0 then "error" else if z =? 1 then "tx" else if z =? 2 then "block" else "unknown") ++ bs ":" ++ quoted py2 (hex_encode h))) as D.
  { cbn [debug_text String.eqb Ascii.eqb Bool.eqb]. unfold prop. rewrite T, H. cbn [bind hexlify]. rewrite render_hex by exact Wb.
    destruct (Z.leb_spec z 2).
    - assert (z = 0 \/ z = 1 \/ z = 2) as [->|[->| ->]] by lia; reflexivity.
    - replace (z =? 0) with false by (symmetry; apply Z.eqb_neq; lia). replace (z =? 1) with false by (symmetry; apply Z.eqb_neq; lia). replace (z =? 2) with false by (symmetry; apply Z.eqb_neq; lia). reflexivity. }
  assert (message_debug sha256 py2 odd m = let! params := debug_reads [("i", "inventory")] (m_fields m) in debug_line sha256 py2 odd (mt_id (m_type m)) params) as ->.
  { unfold message_debug. destruct E as [<-|[<-|[<-|[]]]]; reflexivity. }
  cbn [debug_reads]. unfold prop. rewrite A. cbn [bind]. unfold debug_line. cbn [debug_entries].
  rewrite (list_entry sha256 py2 odd "i" _ rest _ ltac:(eauto) D). cbn [bind]. f_equal. rewrite app_nil_r, <- !app_assoc. reflexivity.
Qed.

Lemma block_line : forall p r hdr t, mt_id (m_type m) = "Block" -> assoc "prev_block" (m_fields m) = Some (VBytes p) -> zlen p = 32 ->
  assoc "merkle_root" (m_fields m) = Some (VBytes r) -> zlen r = 32 ->
  fields_binary (firstn 6 (mt_props (m_type m))) (m_fields m) = Ok hdr -> message_debug sha256 py2 odd m = Ok t ->
  zlen hdr = 80 /\ exists rest, t = bs "<Block h=" ++ quoted py2 (hex_encode hdr) ++ bs " len(t)=" ++ rest.
Proof.
  intros p r hdr t E Hp Lp Hr Lr B H. destruct got as (R & P & N).
  assert (mt_props (m_type m) = [("version", FNumber FI false false); ("prev_block", FBytes 32); ("merkle_root", FBytes 32); ("timestamp", FNumber FI false true); ("bits", FNumber FI false false); ("nonce", FNumber FI false false); ("txns", FArray FtTxn None None)]) as Ep.
  { clear - R E. rewrite registry_all in R. revert R E. generalize (m_type m). let t := eval vm_compute in all_types in change all_types with t. intros t R E.
    repeat (destruct R as [<-|R]; [first [reflexivity|discriminate E]|]). contradiction. }
  rewrite Ep in *. cbn [firstn] in B.
  assert (forall k a, In (k, FNumber FI false a) (mt_props (m_type m)) -> exists z, assoc k (m_fields m) = Some (VInt z)) as Num.
  { rewrite Ep. intros k a I. destruct (parsed_assoc _ k _ I N _ P) as (v & A & z & ->). eauto. }
  rewrite Ep in Num. destruct (Num "version" false ltac:(cbn; tauto)) as (v & Av). destruct (Num "timestamp" true ltac:(cbn; tauto)) as (ti & At). destruct (Num "bits" false ltac:(cbn; tauto)) as (bi & Ab). destruct (Num "nonce" false ltac:(cbn; tauto)) as (no & An).
  cbn [fields_binary] in B. rewrite Av, Hp, Hr, At, Ab, An in B. cbn [binary num_binary bind] in B.
  destruct (struct_pack FI false v) as [b1|] eqn:E1; [|discriminate]. destruct (struct_pack FI false ti) as [b2|] eqn:E2; [|discriminate]. destruct (struct_pack FI false bi) as [b3|] eqn:E3; [|discriminate]. destruct (struct_pack FI false no) as [b4|] eqn:E4; [|discriminate].
  cbn [bind] in B. assert (hdr = b1 ++ p ++ r ++ b2 ++ b3 ++ b4 ++ []) as -> by congruence. clear B. rewrite app_nil_r.
  assert (forall z b, struct_pack FI false z = Ok b -> zlen b = 4 /\ wf_bytes b) as SP by (intros z b S; split; [|exact (wf_pack _ _ _ _ S)]; apply struct_pack_ok in S; destruct S as (_ & ->); apply zlen_le_bytes).
  destruct (SP _ _ E1) as (L1 & W1). destruct (SP _ _ E2) as (L2 & W2). destruct (SP _ _ E3) as (L3 & W3). destruct (SP _ _ E4) as (L4 & W4).
  assert (forall k b, In (k, FBytes 32) (mt_props (m_type m)) -> assoc k (m_fields m) = Some (VBytes b) -> wf_bytes b) as Wf.
  { rewrite Ep. intros k b I A. destruct (parsed_assoc _ k _ I N _ P) as (x & A' & b' & -> & W). congruence. }
  rewrite Ep in Wf. pose proof (Wf "prev_block" p ltac:(cbn; tauto) Hp) as Wp. pose proof (Wf "merkle_root" r ltac:(cbn; tauto) Hr) as Wr.
  assert (zlen (b1 ++ p ++ r ++ b2 ++ b3 ++ b4) = 80) as L80 by (rewrite !zlen_app, L1, L2, L3, L4, Lp, Lr; reflexivity). split; [exact L80|].
  assert (forall b, zlen b = 32 -> pack_bytes (VBytes b) = Ok b) as PB by (intros b Lb; unfold pack_bytes; f_equal; now apply ztake_app_exact).
  assert (debug_header (m_fields m) = Ok (b1 ++ p ++ r ++ b2 ++ b3 ++ b4)) as D.
  { unfold debug_header, prop. rewrite Av, Hp, Hr, At, Ab, An. cbn [bind pack_int]. now rewrite E1, E2, E3, E4, !PB by assumption. }
  assert (wf_bytes (b1 ++ p ++ r ++ b2 ++ b3 ++ b4)) as Wh by (repeat (apply Forall_app; split); assumption).
  set (hdr := b1 ++ p ++ r ++ b2 ++ b3 ++ b4) in *. clearbody hdr.
  unfold message_debug in H. rewrite E in H. cbn [existsb orb String.eqb Ascii.eqb Bool.eqb debug_reads] in H. rewrite D in H. cbn [bind] in H. unfold prop in H.
  pose proof (fun I => parsed_assoc _ "txns" (FArray FtTxn None None) I N _ P) as Q. destruct Q as (x & Ax & l & -> & _); [cbn; tauto|]. rewrite Ax in H. cbn [bind] in H. unfold debug_line in H. bind_inv H.
  assert (t = bs "<Block" ++ x ++ bs ">") as -> by (cbn in H |- *; congruence). clear H. apply entries_cons in H0. destruct H0 as (a1 & r1 & X1 & X2 & ->). apply entries_cons in X2. destruct X2 as (a2 & r2 & X2 & _ & ->).
  assert (a1 = bs " h=" ++ quoted py2 (hex_encode hdr)) as ->.
  { unfold debug_entry, debug_item in X1. assert (truthy (VBytes (hex_encode hdr)) = true) as Tr. { destruct hdr; [discriminate L80|reflexivity]. }
    rewrite Tr in X1. cbn [debug_text value_text bind] in X1. rewrite render_hex in X1 by exact Wh. cbn in X1 |- *. congruence. }
  assert (exists q, a2 = bs " len(t)=" ++ q) as (q & ->).
  { unfold debug_entry in X2. destruct l as [|y l]; [|bind_inv X2]; injection X2 as <-; eexists; reflexivity. }
  exists (q ++ r2 ++ bs ">"). rewrite <- !app_assoc. reflexivity.
Qed.
End Names.

(** *** The theorems *)

(** The line of a headers message names the first header by its hash, the double
    SHA-256 of its first 80 bytes. *)
Theorem C159_headers : forall sha256 py2 odd data magic m fs rest b, (forall x, wf_bytes (sha256 x)) -> wf_bytes data -> msg_parse sha256 data magic = Ok m ->
  mt_id (m_type m) = "Headers" -> assoc "headers" (m_fields m) = Some (VList (VObj "BlockHeader" fs :: rest)) -> fields_binary BlockHeader_props fs = Ok b ->
  log_text sha256 py2 odd (bs "<<< ") LOG_LEVEL_DEBUG m =
    Ok (Some (bs "<<< <Headers len(h)=" ++ text_of_int 10 (1 + zlen rest) ++ bs " h[0]=" ++ quoted py2 (hex_encode (sha256 (sha256 (ztake 80 b)))) ++ bs ">")).
Proof.
  intros sha py2 odd data magic m fs rest b S W H E A B. unfold log_text. change (LOG_LEVEL_DEBUG <=? LOG_LEVEL_PROTOCOL) with false. change (LOG_LEVEL_DEBUG <=? LOG_LEVEL_DEBUG) with true. cbv iota.
  rewrite (headers_line sha S py2 odd magic data m (conj W H) fs rest E A b B). cbn [bind]. rewrite zlen_cons. reflexivity.
Qed.
(** The lines of inventories name the kind and the hash of the first item. *)
Theorem C159_inventory : forall sha256 py2 odd data magic m fs rest z h, wf_bytes data -> msg_parse sha256 data magic = Ok m ->
  In (mt_id (m_type m)) ["Inventory"; "GetData"; "NotFound"] -> assoc "inventory" (m_fields m) = Some (VList (VObj "InventoryVector" fs :: rest)) ->
  assoc "object_type" fs = Some (VInt z) -> 0 <= z -> assoc "hash" fs = Some (VBytes h) ->
  log_text sha256 py2 odd (bs "<<< ") LOG_LEVEL_DEBUG m =
    Ok (Some (bs "<<< <" ++ bs (mt_id (m_type m)) ++ bs " len(i)=" ++ text_of_int 10 (1 + zlen rest) ++ bs " i[0]=" ++
      bs (if z =? 0 then "error" else if z =? 1 then "tx" else if z =? 2 then "block" else "unknown") ++ bs ":" ++ quoted py2 (hex_encode h) ++ bs ">")).
Proof.
  intros sha py2 odd data magic m fs rest z h W H E A T Z Hh. unfold log_text. change (LOG_LEVEL_DEBUG <=? LOG_LEVEL_PROTOCOL) with false. change (LOG_LEVEL_DEBUG <=? LOG_LEVEL_DEBUG) with true. cbv iota.
  rewrite (inventory_line sha py2 odd magic data m (conj W H) fs rest z h E A T Z Hh). cbn [bind]. rewrite zlen_cons. reflexivity.
Qed.
(** The line of a block shows the 80 bytes of its header in place of its hash. *)
Theorem C159_block_refuted : forall sha256 py2 odd data magic m p r hdr t, wf_bytes data -> msg_parse sha256 data magic = Ok m ->
  mt_id (m_type m) = "Block" -> assoc "prev_block" (m_fields m) = Some (VBytes p) -> zlen p = 32 -> assoc "merkle_root" (m_fields m) = Some (VBytes r) -> zlen r = 32 ->
  fields_binary (firstn 6 (mt_props (m_type m))) (m_fields m) = Ok hdr -> log_text sha256 py2 odd (bs "<<< ") LOG_LEVEL_DEBUG m = Ok (Some t) ->
  zlen hdr = 80 /\ exists rest, t = bs "<<< <Block h=" ++ quoted py2 (hex_encode hdr) ++ bs " len(t)=" ++ rest.
Proof.
  intros sha py2 odd data magic m p r hdr t W H E Hp Lp Hr Lr B T. unfold log_text in T. change (LOG_LEVEL_DEBUG <=? LOG_LEVEL_PROTOCOL) with false in T. change (LOG_LEVEL_DEBUG <=? LOG_LEVEL_DEBUG) with true in T. cbv iota in T.
  bind_inv T. assert (t = bs "<<< " ++ x) as -> by congruence. destruct (block_line sha py2 odd magic data m (conj W H) p r hdr x E Hp Lp Hr Lr B H0) as (L & rest & ->). split; [exact L|]. now exists rest.
Qed.

(** Such messages. *)
Definition nm_header : pyval := match construct "BlockHeader" BlockHeader_props [VInt 1; VBytes (repeat 7 32); VBytes (repeat 8 32); VInt 4; VInt 5; VInt 6; VInt 0] [] with Ok v => v | Raise _ => VNone end.
Definition nm_item : pyval := match construct "InventoryVector" InventoryVector_props [VInt 2; VBytes (repeat 171 32)] [] with Ok v => v | Raise _ => VNone end.
Definition nm_first (k : string) (m : message) : list (string * pyval) := match assoc k (m_fields m) with Some (VList (VObj _ fs :: _)) => fs | _ => [] end.
Definition nm_rest (k : string) (m : message) : list pyval := match assoc k (m_fields m) with Some (VList (_ :: r)) => r | _ => [] end.
Definition nm_got (data : bytes) : message := match msg_parse nx_sha data nx_magic with Ok m => m | Raise _ => mk_message (mk_msg_type "" "" "" []) [] end.
Definition nm_headers : bytes := nx_frame "Headers" [VList [nm_header; nm_header]].
Example C159_headers_applies : let m := nm_got nm_headers in
  wf_bytes nm_headers /\ msg_parse nx_sha nm_headers nx_magic = Ok m /\ mt_id (m_type m) = "Headers" /\ assoc "headers" (m_fields m) = Some (VList (VObj "BlockHeader" (nm_first "headers" m) :: nm_rest "headers" m)) /\
  (exists b, fields_binary BlockHeader_props (nm_first "headers" m) = Ok b) /\ zlen (nm_rest "headers" m) = 1.
Proof. cbv zeta. split; [apply wf_all; vm_compute; reflexivity|]. split; [vm_compute; reflexivity|]. split; [vm_compute; reflexivity|]. split; [vm_compute; reflexivity|]. split; [eexists; vm_compute; reflexivity|]. vm_compute. reflexivity. Qed.
Definition nm_inventory : bytes := nx_frame "GetData" [VList [nm_item]].
Example C159_inventory_applies : let m := nm_got nm_inventory in
  wf_bytes nm_inventory /\ msg_parse nx_sha nm_inventory nx_magic = Ok m /\ mt_id (m_type m) = "GetData" /\ assoc "inventory" (m_fields m) = Some (VList (VObj "InventoryVector" (nm_first "inventory" m) :: nm_rest "inventory" m)) /\
  assoc "object_type" (nm_first "inventory" m) = Some (VInt 2) /\ assoc "hash" (nm_first "inventory" m) = Some (VBytes (repeat 171 32)).
Proof. cbv zeta. split; [apply wf_all; vm_compute; reflexivity|]. split; [vm_compute; reflexivity|]. split; [vm_compute; reflexivity|]. split; [vm_compute; reflexivity|]. split; vm_compute; reflexivity. Qed.
Definition nm_block : bytes := nx_frame "Block" [VInt 1; VBytes (repeat 7 32); VBytes (repeat 8 32); VInt 4; VInt 5; VInt 6; VList []].
Example C159_block_applies : let m := nm_got nm_block in
  wf_bytes nm_block /\ msg_parse nx_sha nm_block nx_magic = Ok m /\ mt_id (m_type m) = "Block" /\ assoc "prev_block" (m_fields m) = Some (VBytes (repeat 7 32)) /\ assoc "merkle_root" (m_fields m) = Some (VBytes (repeat 8 32)) /\
  (exists hdr, fields_binary (firstn 6 (mt_props (m_type m))) (m_fields m) = Ok hdr /\ zlen (nx_sha (nx_sha hdr)) = 32) /\
  exists t, log_text nx_sha false (fun _ => []) (bs "<<< ") LOG_LEVEL_DEBUG m = Ok (Some t).
Proof. cbv zeta. split; [apply wf_all; vm_compute; reflexivity|]. split; [vm_compute; reflexivity|]. split; [vm_compute; reflexivity|]. split; [vm_compute; reflexivity|]. split; [vm_compute; reflexivity|]. split; [eexists; split; vm_compute; reflexivity|]. eexists. vm_compute. reflexivity. Qed.

(** ** Assumptions *)

Print Assumptions C159_headers.
Print Assumptions C159_inventory.
Print Assumptions C159_block_refuted.
